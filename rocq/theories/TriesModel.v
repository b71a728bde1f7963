(** Model of tests/autodiff_tries.py:17-75: a cubic whose gradient is taken once by automatic differentiation
    and once by hand.  Tensors are the lists of their entries: all operations of the script act entry by entry
    on tensors of one size (line 53) or sum all entries.  [softmax] and [dsoftmax] (lines 11-15) are the
    functions of neuro_shooting/activation_functions_and_derivatives.py:4-9, see ActivationModel.  The
    automatic differentiation is external: [grad f x] stands for the gradient of [f] at [x]. *)
From Coq Require Import List Reals.
Import ListNotations.
Open Scope list_scope.
Open Scope R_scope.

Section Tries.
Variable grad : (list R -> R) -> list R -> list R.

(** torch.sum (autodiff_tries.py:32, 45, 49, 61, 62). *)
Definition total (v : list R) : R := fold_right Rplus 0 v.

(** Entrywise products, sums and differences of tensors of one size (autodiff_tries.py:27, 32, 45, 61, 75). *)
Definition entrywise (op : R -> R -> R) (v w : list R) : list R :=
  map (fun c => op (fst c) (snd c)) (combine v w).

(** myFunction (autodiff_tries.py:17-19). *)
Definition my_function (x : list R) : list R := map (fun v => v ^ 3) x.

(** myFunctionDiff (autodiff_tries.py:21-24); the tensor of zeros of line 22 is not used. *)
Definition my_function_diff (x : list R) : list R := map (fun v => 3 * v ^ 2) x.

(** myFunction2Manual (autodiff_tries.py:26-27). *)
Definition my_function2_manual (p x : list R) : list R := entrywise Rmult (my_function_diff x) p.

(** myFunction2AutoDiff (autodiff_tries.py:29-40): the gradient with respect to [x] of the sum of line 32,
    weighted with the one of line 37. *)
Definition my_function2_autodiff (p x : list R) : list R :=
  grad (fun y => total (entrywise Rmult p (my_function y))) x.

(** myLoss (autodiff_tries.py:43-45). *)
Definition my_loss (p x : list R) : R :=
  total (my_function2_autodiff p x) + total (entrywise Rmult p (my_function x)).

(** myLossManual (autodiff_tries.py:47-49). *)
Definition my_loss_manual (p x : list R) : R :=
  total (my_function2_manual p x) + total (entrywise Rmult p (my_function x)).

(** The attribute grad of a variable: absent at first, afterwards the sum of what the calls of backward brought
    (autodiff_tries.py:66, 71). *)
Definition accumulate (old : option (list R)) (g : list R) : option (list R) :=
  match old with
  | None => Some g
  | Some o => Some (entrywise Rplus o g)
  end.

(** What the script prints (autodiff_tries.py:61, 62, 65, 67, 70, 72, 75), and the gradient of [p] at the end. *)
Record printed := mkPrinted {
  pr_square_difference : R;
  pr_square : R;
  pr_loss : R;
  pr_gradient : option (list R);
  pr_loss_manual : R;
  pr_gradient_manual : option (list R);
  pr_difference : option (list R);
  pr_weights : option (list R)
}.

(** The main part (autodiff_tries.py:54-75) for the drawn [z] (line 54) and [p] (line 57); [x] and [xx] hold
    the entries of [z] (lines 55, 56).  Lines 59 and 60 leave no gradients behind. *)
Definition main (z p : list R) : printed :=
  let a := my_function2_autodiff p z in
  let b := my_function2_manual p z in
  let x_grad := accumulate None (grad (fun y => my_loss p y) z) in
  let p_grad := accumulate None (grad (fun q => my_loss q z) p) in
  let xx_grad := accumulate None (grad (fun y => my_loss_manual p y) z) in
  let p_grad' := accumulate p_grad (grad (fun q => my_loss_manual q z) p) in
  mkPrinted (total (map (fun v => v ^ 2) (entrywise Rminus a b))) (total (map (fun v => v ^ 2) a))
    (my_loss p z) x_grad (my_loss_manual p z) xx_grad
    match x_grad, xx_grad with
    | Some g, Some h => Some (entrywise Rminus g h)
    | _, _ => None
    end
    p_grad'.

End Tries.

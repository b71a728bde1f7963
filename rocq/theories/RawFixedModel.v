(** Model of tests/raw_fixed_point_check.py (cited as rf.py), which compares the shooting equations of a
    scalar model with those obtained by a fixed-point iteration and automatic differentiation.

    Numbers are reals.  [grad f x] stands for what [autograd.grad] and [backward] give for the value [f] at
    the leaf [x] (torch, external); [create_graph=True] means that results of [autograd.grad] are
    themselves functions that can be differentiated.  The factor of rf.py:63 and learning rate and number
    of iterations of rf.py:76-77, which the comments ask to edit together, are parameters. *)
From Coq Require Import List String Reals.
From Verif Require Import Base.
Import ListNotations.
Open Scope string_scope.
Open Scope R_scope.

Section RawFixed.
  Variables (nl dnl : R -> R) (grad : (R -> R) -> R -> R).
  Variables (factor learning_rate : R) (nr_of_fixed_point_iterations : nat).

(** rf.py:22-29: Lagrangian, kinetic and potential energy *)
Definition compute_lagrangian (q p theta : R) : R * R * R :=
  let kinetic_energy := 1 / 2 * theta * theta in
  let potential_energy := p * theta * nl q in
  (kinetic_energy - potential_energy, kinetic_energy, potential_energy).

(** rf.py:74-90 *)
Definition compute_parameter_autograd (q p : R) : R :=
  Nat.iter nr_of_fixed_point_iterations
    (fun theta_var => theta_var - learning_rate * grad (fun theta => fst (fst (compute_lagrangian q p theta))) theta_var) 0.

(** rf.py:34-39 *)
Definition compute_reduced_lagrangian (q p : R) : R * R * R :=
  compute_lagrangian q p (compute_parameter_autograd q p).

(** rf.py:42-49 *)
Definition rhs_costate_autograd_reduced (q p : R) : R :=
  grad (fun q => fst (fst (compute_reduced_lagrangian q p))) q.

(** rf.py:51-53 *)
Definition rhs_state (q theta : R) : R := theta * nl q.

(** rf.py:55-57 *)
Definition rhs_costate (q p theta : R) : R := - dnl q * theta * p.

(** rf.py:59-64 *)
Definition compute_parameter (q p : R) : R := factor * (p * nl q).

(** rf.py:66-71: the derivatives of [q] and of [p]; the flag is not used. *)
Definition rhs_shooting_analytic (q p : R) : R * R :=
  let theta := compute_parameter q p in (rhs_state q theta, rhs_costate q p theta).

(** rf.py:92-105 *)
Definition rhs_shooting_autograd (q p : R) : R * R :=
  let theta := compute_parameter_autograd q p in (rhs_state q theta, rhs_costate_autograd_reduced q p).

(** rf.py:107-114 *)
Definition euler_forward (rhs_fcn : R -> R -> R * R) (q0 p0 dt : R) (nr_of_time_steps : nat) : R * R :=
  Nat.iter nr_of_time_steps (fun qp => let rhs := rhs_fcn (fst qp) (snd qp) in
    (fst qp + dt * fst rhs, snd qp + dt * snd rhs)) (q0, p0).

(** rf.py:134, 149 *)
Definition loss_of (rhs_fcn : R -> R -> R * R) (dt : R) (n : nat) (q0 p0 : R) : R :=
  let res := euler_forward rhs_fcn q0 p0 dt n in fst res ^ 2 + snd res ^ 2.

(** [loss.backward()]: adds the derivatives to the accumulators of the two leaves (torch, external) *)
Definition backward (loss : R -> R -> R) (q0 p0 : R) (acc : option R * option R) : option R * option R :=
  let add g d := Some (match g with Some g => g + d | None => d end) in
  (add (fst acc) (grad (fun q => loss q p0) q0), add (snd acc) (grad (fun p => loss q0 p) p0)).

(** rf.py:16-20 *)
Definition zero_grad (g : option R) : option R := match g with Some _ => Some 0 | None => None end.

(** [p.grad.item()] (rf.py:137-138, 152-153) *)
Definition item (g : option R) : result R := match g with Some x => Ok x | None => Raise AttributeError end.

(** Quotient of two tensors of one entry; infinity and NaN are [None]. *)
Definition tensor_ratio (x y : R) : option R := if Req_EM_T y 0 then None else Some (x / y).

(** Quotient of two python numbers *)
Definition ratio (x y : R) : result R := if Req_EM_T y 0 then Raise ZeroDivisionError else Ok (x / y).

(** What the script prints to be compared: the right-hand sides, their ratios, the gradients and the ratios of
    the gradients (rf.py:126-128, 140-141, 155-156, 159-160). *)
Record printed := mkPrinted {
  rhs_analytic : R * R; rhs_autograd : R * R; rhs_ratios : option R * option R;
  grads_analytic : R * R; grads_autograd : R * R; grad_ratios : R * R }.

(** rf.py:117-160; [dt] is 0.1 and the number of steps 3 in the script. *)
Definition raw_check (dt : R) (number_of_time_steps : nat) (q0 p0 : R) : result printed :=
  let ra := rhs_shooting_analytic q0 p0 in
  let rg := rhs_shooting_autograd q0 p0 in
  let acc := backward (loss_of rhs_shooting_analytic dt number_of_time_steps) q0 p0 (None, None) in
  loss_analytic_grad_q0 <- item (fst acc) ;; loss_analytic_grad_p0 <- item (snd acc) ;;
  let acc := (zero_grad (fst acc), zero_grad (snd acc)) in
  let acc := backward (loss_of rhs_shooting_autograd dt number_of_time_steps) q0 p0 acc in
  loss_autograd_grad_q0 <- item (fst acc) ;; loss_autograd_grad_p0 <- item (snd acc) ;;
  ratio_q <- ratio loss_analytic_grad_q0 loss_autograd_grad_q0 ;;
  ratio_p <- ratio loss_autograd_grad_p0 loss_autograd_grad_p0 ;;
  Ok (mkPrinted ra rg (tensor_ratio (fst ra) (fst rg), tensor_ratio (snd ra) (snd rg))
        (loss_analytic_grad_q0, loss_analytic_grad_p0) (loss_autograd_grad_q0, loss_autograd_grad_p0) (ratio_q, ratio_p)).
End RawFixed.

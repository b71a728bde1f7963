(** Model of tests/autograd_gradient_test.py (gt.py), the script that compares the gradients found with
    the hand-written equations to those found by differentiation: what it does once the gradients are
    computed (gt.py:110-111, 131-175).

    Simplified: numbers are real numbers; a gradient is the list of its entries, and the two gradients of
    a parameter are compared by position ([RuntimeError] for different numbers of entries; the code would
    broadcast some).  What is printed is the outcome of each comparison and the summary. *)
From Coq Require Import List String Bool Reals Arith.
From Verif Require Import Base.
Import ListNotations.
Open Scope string_scope.
Open Scope list_scope.
Open Scope R_scope.

(** gt.py:152-153 *)
Definition nonzero (x : R) : bool := if Req_EM_T x 0 then false else true.

(** [a[mask]] (external, gt.py:156) *)
Definition select (mask : list bool) (a : list R) : list R := map snd (filter fst (combine mask a)).

(** gt.py:155: torch.all of the comparison of two masks *)
Fixpoint all_equal (a b : list bool) : result bool :=
  match a, b with
  | [], [] => Ok true
  | x :: a, y :: b => r <- all_equal a b ;; Ok (Bool.eqb x y && r)
  | _, _ => Raise RuntimeError
  end.

(** torch.max of all entries (external): fails for a tensor without entries *)
Definition tmax (l : list R) : result R :=
  match l with [] => Raise RuntimeError | x :: l => Ok (fold_left Rmax l x) end.

(** gt.py:156 *)
Definition relative_error (autodiff analytic : list R) : result R :=
  tmax (map (fun ab => Rabs (fst ab / snd ab - 1))
    (combine (select (map nonzero autodiff) autodiff) (select (map nonzero analytic) analytic))).

(** gt.py:159, 162, 166 *)
Inductive verdict := Passed (error : R) | FailedError (error : R) | FailedPattern.

(** gt.py:152-167 *)
Definition compare (tolerance : R) (autodiff analytic : list R) : result verdict :=
  same <- all_equal (map nonzero analytic) (map nonzero autodiff) ;;
  if same : bool then
    e <- relative_error autodiff analytic ;;
    Ok (if Rlt_dec e tolerance then Passed e else FailedError e)
  else Ok FailedPattern.

(** gt.py:132-141: the gradients of all parameters; a parameter without gradient has [None] *)
Fixpoint collect (named : list (string * option (list R))) (acc : pdict (list R)) : result (pdict (list R)) :=
  match named with
  | [] => Ok acc
  | (name, None) :: _ => Raise AttributeError
  | (name, Some g) :: l => collect l (pd_set name g acc)
  end.

(** The counters (gt.py:41-42). *)
Record counters := mkCounters { passed : nat; attempted : nat }.

(** gt.py:144-167 *)
Definition compare_model (tolerance : R) (autodiff analytic : pdict (list R)) (c : counters) : result (counters * list (string * verdict)) :=
  foldM (fun cl ng =>
      let '(c, out) := cl in
      b <- sd_item (fst ng) analytic ;;
      v <- compare tolerance (snd ng) b ;;
      Ok (mkCounters (match v with Passed _ => S (passed c) | _ => passed c end) (S (attempted c)), out ++ [(fst ng, v)]))
    autodiff (c, []).

(** The gradients of the parameters of one model, with the hand-written equations and with
    differentiation (gt.py:113-141). *)
Record gradients := mkGradients { with_analytic : list (string * option (list R)); with_autodiff : list (string * option (list R)) }.

(** gt.py:54, 110-167 *)
Definition check_model (tolerance : R) (g : gradients) (cl : counters * list (string * verdict)) : result (counters * list (string * verdict)) :=
  analytic <- collect (with_analytic g) [] ;;
  autodiff <- collect (with_autodiff g) [] ;;
  r <- compare_model tolerance autodiff analytic (fst cl) ;;
  Ok (fst r, snd cl ++ snd r).

(** gt.py:41-43, 54-175: the printed numbers of tests passed and attempted, all outcomes, and whether it
    congratulates *)
Definition script (tolerance : R) (models : list gradients) : result (nat * nat * list (string * verdict) * bool) :=
  r <- foldM (fun cl g => check_model tolerance g cl) models (mkCounters 0 0, []) ;;
  Ok (passed (fst r), attempted (fst r), snd r, Nat.eqb (passed (fst r)) (attempted (fst r))).

(** gt.py:43 *)
Definition script_tolerance : R := 5 / 1000.

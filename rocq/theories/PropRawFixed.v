(** Property C111: the scalar fixed-point check tests/raw_fixed_point_check.py (rf.py). *)
From Coq Require Import Reals Arith Lia Lra.
From Coquelicot Require Import Coquelicot.
From Verif Require Import Base ActivationModel ActivationProofs RawFixedModel RawFixedSpec RawFixedProofs.
Open Scope R_scope.

(** C111, as expected by a user ("Should all be the same if it works!"), asks for ratios one.  False with
    the factor 15/16, learning rate 1/2 and two iterations of the script. *)
Theorem C111_ratios_refuted : exists nl dnl grad dt k q p r, differentiates grad /\ derivative_of nl dnl
  /\ raw_check nl dnl grad (15 / 16) (1 / 2) 2 dt k q p = Ok r
  /\ rhs_ratios r <> (Some 1, Some 1) /\ fst (rhs_analytic r) <> fst (rhs_autograd r).
Proof. exact ratios_differ. Qed.
Print Assumptions C111_ratios_refuted.

(** C111: in fact, for every nonlinearity at every point where the two sides do not vanish, the printed
    ratio of the derivatives of the state is 5/4, that of the costate one. *)
Theorem C111_ratios : forall nl dnl grad, differentiates grad -> derivative_of nl dnl ->
  forall dt k q p r, p * nl q <> 0 -> dnl q <> 0 ->
    raw_check nl dnl grad (15 / 16) (1 / 2) 2 dt k q p = Ok r -> rhs_ratios r = (Some (5 / 4), Some 1).
Proof. exact ratios_of_script. Qed.
Print Assumptions C111_ratios.

(** Such a run. *)
Example C111_ratios_case : differentiates (fun f x => Derive f x) /\ derivative_of (fun x => x) (fun _ => 1)
  /\ exists r, raw_check (fun x => x) (fun _ => 1) (fun f x => Derive f x) (15 / 16) (1 / 2) 2 (1 / 10) 1 1 1 = Ok r.
Proof. split; [exact derive_differentiates|]. split; [exact id_derivative|]. apply run_exists; lra. Qed.

(** The script's nonlinearity. *)
Example C111_tanh_case : derivative_of tanh dtanh /\ forall q p, 0 < q -> 0 < p -> p * tanh q <> 0 /\ dtanh q <> 0.
Proof.
  split; [exact tanh_derivative|]. intros q p Hq Hp. pose proof (tanh_positive q Hq). pose proof (dtanh_positive q).
  split; [|lra]. apply Rgt_not_eq. now apply Rmult_lt_0_compat.
Qed.

(** C111: the value of the fixed-point iteration and the equations it leads to, for every learning rate
    and number of iterations: the derivative of the state is off by what remains of the distance to the
    minimiser, that of the costate by its square. *)
Theorem C111_fixed_point : forall nl dnl grad, differentiates grad -> forall lr n, derivative_of nl dnl -> forall q p,
  compute_parameter_autograd nl grad lr n q p = (1 - remainder lr n) * (p * nl q)
  /\ rhs_shooting_autograd nl grad lr n q p
     = ((1 - remainder lr n) * p * (nl q) ^ 2, - (1 - remainder lr (2 * n)) * p ^ 2 * nl q * dnl q).
Proof. exact (fun nl dnl grad G lr n => equations nl dnl grad G lr n). Qed.
Print Assumptions C111_fixed_point.

(** Learning rate 1/2 and two iterations. *)
Example C111_fixed_point_case : remainder (1 / 2) 2 = 1 / 4 /\ remainder (1 / 2) (2 * 2) = 1 / 16.
Proof. unfold remainder. cbn. split; field. Qed.

(** C111: no factor makes both equations agree, unless the iteration ends in the minimiser or does not move. *)
Theorem C111_factors : forall nl dnl grad, differentiates grad -> forall lr n c q p,
  derivative_of nl dnl -> p * nl q <> 0 -> dnl q <> 0 ->
  rhs_shooting_analytic nl dnl c q p = rhs_shooting_autograd nl grad lr n q p
  <-> c = 1 - remainder lr n /\ (remainder lr n = 0 \/ remainder lr n = 1).
Proof. exact factor_suits. Qed.
Print Assumptions C111_factors.

(** No factor suits the settings of the script. *)
Example C111_factors_case : forall c, rhs_shooting_analytic (fun x => x) (fun _ => 1) c 1 1
  <> rhs_shooting_autograd (fun x => x) (fun f x => Derive f x) (1 / 2) 2 1 1.
Proof.
  intros c E. apply (C111_factors _ _ _ derive_differentiates) in E; [|exact id_derivative|lra|lra].
  destruct E as [_ [E|E]]; revert E; unfold remainder; cbn; lra.
Qed.

(** C111: with learning rate one, factor one and any positive number of iterations, right-hand sides,
    trajectories of any length and gradients of the loss agree, and the ratios are one.  Missing from the
    full statement: other learning rates. *)
Theorem C111_learning_rate_one_partial : forall nl dnl grad, differentiates grad -> derivative_of nl dnl ->
  forall n, (0 < n)%nat ->
  (forall q p, rhs_shooting_autograd nl grad 1 n q p = rhs_shooting_analytic nl dnl 1 q p)
  /\ (forall dt k q p, euler_forward (rhs_shooting_autograd nl grad 1 n) q p dt k
        = euler_forward (rhs_shooting_analytic nl dnl 1) q p dt k)
  /\ (forall dt k q p r, raw_check nl dnl grad 1 1 n dt k q p = Ok r ->
        rhs_analytic r = rhs_autograd r /\ grads_analytic r = grads_autograd r /\ grad_ratios r = (1, 1)).
Proof.
  exact (fun nl dnl grad G H n Hn => conj (rate_one nl dnl grad G H n Hn)
    (conj (rate_one_run nl dnl grad G H n Hn) (fun dt k q p r => rate_one_script nl dnl grad G H n dt k q p r Hn))).
Qed.
Print Assumptions C111_learning_rate_one_partial.

Example C111_learning_rate_one_case :
  exists r, raw_check (fun x => x) (fun _ => 1) (fun f x => Derive f x) 1 1 5 (1 / 10) 1 1 1 = Ok r.
Proof. apply run_exists; lra. Qed.

(** C111: what the run reports: the gradients of the two losses, the ratio of the first pair; the last
    ratio divides a gradient by itself and so is one whatever the other program computed. *)
Theorem C111_reported : forall nl dnl grad factor lr n dt k q p r,
  raw_check nl dnl grad factor lr n dt k q p = Ok r ->
  rhs_ratios r = (tensor_ratio (fst (rhs_shooting_analytic nl dnl factor q p)) (fst (rhs_shooting_autograd nl grad lr n q p)),
                  tensor_ratio (snd (rhs_shooting_analytic nl dnl factor q p)) (snd (rhs_shooting_autograd nl grad lr n q p)))
  /\ grads_analytic r = (grad (fun q => loss_of (rhs_shooting_analytic nl dnl factor) dt k q p) q,
                         grad (fun p => loss_of (rhs_shooting_analytic nl dnl factor) dt k q p) p)
  /\ grads_autograd r = (grad (fun q => loss_of (rhs_shooting_autograd nl grad lr n) dt k q p) q,
                         grad (fun p => loss_of (rhs_shooting_autograd nl grad lr n) dt k q p) p)
  /\ fst (grad_ratios r) = fst (grads_analytic r) / fst (grads_autograd r)
  /\ snd (grad_ratios r) = 1.
Proof. exact reported. Qed.
Print Assumptions C111_reported.

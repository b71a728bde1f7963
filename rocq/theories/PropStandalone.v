(** Property C110: the standalone reference script tests/test_standalone_shooting_updown.py (ts.py). *)
From Coq Require Import List String Reals Arith Lia Lra.
From Verif Require Import Base VecModel VecSpec ActivationModel StandaloneModel StandaloneSpec
  StandaloneProofs2 StandaloneProofs4 StandaloneProofs5 StandaloneExample.
Import ListNotations.
Open Scope string_scope.
Open Scope R_scope.

(** C110: for all nonlinearities, sizes, states and momenta, the script computes the same derivatives
    and energies as the package's hand-written equations of the up-down model without parameter weight:
    its energy is the kinetic energy, its Lagrangian the potential energy (twice the kinetic one), its
    Hamiltonian the negated Lagrangian of the package. *)
Theorem C110_agrees_with_the_package : forall nl dnl init N D d f s, (0 < N)%nat -> standalone_states N D d (d * f) s ->
  exists th dq1 dq2 dp1 dp2 E,
    updown_parameters nl init d f None (package_states s) (package_costates s) = Ok th
    /\ updown_rhs nl (package_states s) th = Ok [("dot_q1", dq1); ("dot_q2", dq2)]
    /\ updown_costate dnl (package_states s) (package_costates s) th = Ok [("dot_p_q1", dp1); ("dot_p_q2", dp2)]
    /\ compute_rhs nl dnl s = Ok [("p1", dp1); ("p2", dp2); ("q1", dq1); ("q2", dq2)]
    /\ compute_energy nl s = Ok E /\ kinetic_energy th = E
    /\ compute_lagrangian nl dnl s = Ok (2 * E)
    /\ potential_energy (updown_rhs nl) (package_states s) (package_costates s) th = Ok (2 * E)
    /\ compute_hamiltonian nl dnl s = Ok (INR N * E)
    /\ lagrangian (updown_rhs nl) N (package_states s) (package_costates s) th = Ok (- (INR N * E)).
Proof. exact package_agrees. Qed.
Print Assumptions C110_agrees_with_the_package.

(** One particle with one feature of each sort, both momenta and both states non-zero. *)
Example C110_case : (0 < 1)%nat /\ standalone_states 1 1 1 (1 * 1) lively /\ exists E,
  compute_energy relu lively = Ok E /\ E <> 0.
Proof.
  split; [lia|]. split; [exact lively_shape|].
  destruct (energies relu drelu 1 1 1 1 ltac:(lia) lively lively_shape) as [H _]. eexists. split; [exact H|].
  rewrite (scalar_energy relu lively _ lively_shape H). cbn. unfold relu. rewrite Rmax_right; lra.
Qed.

(** C110, as expected by a user, asks that the printed difference of difference quotients and costate
    derivatives tends to zero at every entry.  False with more than one row per particle: only the first
    row is differenced (ts.py:108-112). *)
Theorem C110_gradient_refuted : exists N D d e s, (0 < N)%nat /\ (0 < D)%nat /\ standalone_states N D d e s
  /\ forall nl dnl, ~ gradient_check (fun h => finite_differences nl dnl s h "q1" "p1") 1 N D d D.
Proof. exists 1%nat, 2%nat, 1%nat, 1%nat, two_rows. repeat split; [lia|lia|exact two_rows_shape|]. intros. apply two_rows_fail. Qed.
Print Assumptions C110_gradient_refuted.

(** C110: on the first row (with one row: everywhere) the difference tends to zero, for every
    nonlinearity for the first state, where the nonlinearity has the given derivative for the second; for
    the momenta the quotients tend to the derivatives of the states themselves, so that there the
    difference, not the sum printed by the script, tends to zero.  Missing from the full statement: the other rows. *)
Theorem C110_gradient_partial : forall nl dnl N D d e s, (0 < N)%nat -> (0 < D)%nat -> standalone_states N D d e s ->
  gradient_check (fun h => finite_differences nl dnl s h "q1" "p1") 1 N D d 1
  /\ ((forall q2 n k, sd_item "q2" s = Ok q2 -> (n < N)%nat -> (k < e)%nat -> derivable_pt_lim nl (v3 q2 n 0 k) (dnl (v3 q2 n 0 k))) ->
      gradient_check (fun h => finite_differences nl dnl s h "q2" "p2") 1 N D e 1)
  /\ gradient_check (fun h => finite_differences nl dnl s h "p1" "q1") (-1) N D d 1
  /\ gradient_check (fun h => finite_differences nl dnl s h "p2" "q2") (-1) N D e 1.
Proof. exact gradient_checks. Qed.
Print Assumptions C110_gradient_partial.

(** The nonlinearity of the script at a state where it is differentiable. *)
Example C110_gradient_case : gradient_check (fun h => finite_differences relu drelu lively h "q2" "p2") 1 1 1 1 1.
Proof.
  apply (C110_gradient_partial relu drelu 1 1 1 1 lively ltac:(lia) ltac:(lia) lively_shape).
  intros q2 n k H _ _. injection H as <-. apply relu_derivative_pos. cbn. lra.
Qed.

(** C110, as expected by a user, asks that [advect] integrates until time 1.  False: with the step 2/3 it
    stops at 2/3, because the number of steps is cut to an integer (ts.py:84). *)
Theorem C110_reaches_time_one_refuted : exists h n, 0 < h < 1 /\ number_of_steps h = Ok n /\ INR n * h <> 1.
Proof. exists (2 / 3). destruct stops_early as [n H]. exists n. split; [lra|exact H]. Qed.
Print Assumptions C110_reaches_time_one_refuted.

(** C110, as expected by a user, asks that the recorded energy is constant.  False: a particle moving like
    a harmonic oscillator gains energy with the midpoint rule. *)
Theorem C110_energy_constant_refuted : exists s h res v v0, 0 < h /\ standalone_states 1 1 1 1 s
  /\ advect relu drelu h s = Ok res /\ sd_item "energy" (snd res) = Ok [v]
  /\ compute_energy relu s = Ok v0 /\ v <> v0.
Proof.
  destruct energy_drifts as [res [v [v0 H]]]. exists oscillator, 1, res, v, v0.
  split; [lra|]. split; [exact oscillator_shape|exact H].
Qed.
Print Assumptions C110_energy_constant_refuted.

(** C110: for every positive step, [advect] takes the largest number of steps that stays within time 1,
    each by the explicit midpoint rule for the script's derivatives, and records after each step the first
    entry of every state, the energy and twice the energy.  Missing from the full statement: the
    remaining time, and a constant energy. *)
Theorem C110_advect_partial : forall nl dnl N D d e s h, (0 < N)%nat -> (0 < D)%nat -> (0 < d)%nat -> (0 < e)%nat ->
  standalone_states N D d e s -> 0 < h ->
  exists n (X : nat -> sdict t3) (E : nat -> R) res,
    INR n <= 1 / h < INR n + 1
    /\ X 0%nat = s /\ (forall k, (k < n)%nat -> midpoint_step (compute_rhs nl dnl) h (X k) (X (S k)))
    /\ (forall k, compute_energy nl (X k) = Ok (E k) /\ compute_lagrangian nl dnl (X k) = Ok (2 * E k))
    /\ advect nl dnl h s = Ok (X n, res)
    /\ (forall name, In name ["p1"; "p2"; "q1"; "q2"] ->
          sd_item name res = Ok (map (fun k => first_entry name (X k)) (seq 1 n)))
    /\ sd_item "energy" res = Ok (map E (seq 1 n)) /\ sd_item "lagrangian" res = Ok (map (fun k => 2 * E k) (seq 1 n)).
Proof. exact advect_is. Qed.
Print Assumptions C110_advect_partial.

(** A run. *)
Example C110_advect_case : standalone_states 1 1 1 1 oscillator /\ exists res, advect relu drelu 1 oscillator = Ok res.
Proof. split; [exact oscillator_shape|]. destruct energy_drifts as [res [v [v0 [H _]]]]. exists res. exact H. Qed.

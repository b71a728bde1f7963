(** Properties C115 and C116: hand-written equations against differentiation, and the script that compares them. *)
From Coq Require Import List String Bool Reals Arith Lia Lra.
From Verif Require Import Base Tensor RealSum VecModel VecSpec VecFlow VecProofs7 AnalyticFlowSpec AnalyticFlowProofs2 AnalyticFlowExample GradCheckModel GradCheckSpec GradCheckProofs GradCheckExample.
Import ListNotations.
Open Scope string_scope.
Open Scope list_scope.
Open Scope R_scope.

(** ** C115

    With particles of dimension 1, switching [use_analytic_solution] changes nothing: for every number of
    particles and samples, every start and every integrator, with or without step size control, all
    vectors computed have the same entries, and the norm penalty, the loss of the script and its
    derivatives by every entry of every particle and costate are the same.  The integration with the
    hand-written equations never fails.  [parA], [cosA] inside the definition stand for differentiation. *)
Theorem C115_updown : forall nl dnl init d f W, (forall x, derivable_pt_lim nl x (dnl x)) -> effective W <> 0 ->
  switch_changes_nothing 1 (updown_rhs nl) (updown_objects init d f W) (fun _ => updown_costate dnl)
    (fun _ => updown_parameters nl init d f W) [("q1", d); ("q2", (d * f)%nat)]
  /\ runs_succeed 1 (updown_rhs nl) (fun _ => updown_costate dnl) (fun _ => updown_parameters nl init d f W) [("q1", d); ("q2", (d * f)%nat)].
Proof. intros. apply updown_both; assumption. Qed.
Print Assumptions C115_updown.

Theorem C115_universal : forall nl dnl init d f W ow, (forall x, derivable_pt_lim nl x (dnl x)) -> effective W <> 0 -> ow <> 0 ->
  switch_changes_nothing 1 (universal_rhs nl) (universal_objects init d f W ow) (fun _ => universal_costate dnl)
    (fun _ => universal_parameters nl init d f W ow) [("q1", d); ("q2", (d * f)%nat)]
  /\ runs_succeed 1 (universal_rhs nl) (fun _ => universal_costate dnl) (fun _ => universal_parameters nl init d f W ow) [("q1", d); ("q2", (d * f)%nat)].
Proof. intros. apply universal_both; assumption. Qed.
Print Assumptions C115_universal.

Theorem C115_general : forall nl dnl init d f W, (forall x, derivable_pt_lim nl x (dnl x)) -> effective W <> 0 ->
  switch_changes_nothing 1 (general_rhs nl) (general_objects init d f W) (fun _ => general_costate dnl)
    (fun _ => general_parameters nl init d f W) [("q1", d); ("q2", (d * f)%nat)]
  /\ runs_succeed 1 (general_rhs nl) (fun _ => general_costate dnl) (fun _ => general_parameters nl init d f W) [("q1", d); ("q2", (d * f)%nat)].
Proof. intros. apply general_both; assumption. Qed.
Print Assumptions C115_general.

Theorem C115_periodic : forall nl dnl init d f W, (forall x, derivable_pt_lim nl x (dnl x)) -> effective W <> 0 ->
  switch_changes_nothing 1 (periodic_rhs nl) (periodic_objects init d f W) (fun _ => periodic_costate dnl)
    (fun _ => periodic_parameters nl init d f W) [("q1", d); ("q2", (d * f)%nat)]
  /\ runs_succeed 1 (periodic_rhs nl) (fun _ => periodic_costate dnl) (fun _ => periodic_parameters nl init d f W) [("q1", d); ("q2", (d * f)%nat)].
Proof. intros. apply periodic_both; assumption. Qed.
Print Assumptions C115_periodic.

Theorem C115_symmetrized : forall nl dnl init d W, (forall x, derivable_pt_lim nl x (dnl x)) -> effective W <> 0 ->
  switch_changes_nothing 1 (symmetrized_rhs nl) (symmetrized_objects init d 1 W) (fun _ => symmetrized_costate dnl)
    (fun _ => symmetrized_parameters nl init d 1 W) [("q1", d); ("q2", d); ("q3", d)]
  /\ runs_succeed 1 (symmetrized_rhs nl) (fun _ => symmetrized_costate dnl) (fun _ => symmetrized_parameters nl init d 1 W) [("q1", d); ("q2", d); ("q3", d)].
Proof. intros. apply symmetrized_both; assumption. Qed.
Print Assumptions C115_symmetrized.

Theorem C115_simple : forall nl dnl init d W, (forall x, derivable_pt_lim nl x (dnl x)) -> effective W <> 0 ->
  switch_changes_nothing 1 (simple_rhs nl) (simple_objects init d W) (simple_costate nl dnl)
    (simple_parameters nl init d W) [("q1", d)]
  /\ runs_succeed 1 (simple_rhs nl) (simple_costate nl dnl) (simple_parameters nl init d W) [("q1", d)].
Proof. intros. apply simple_both; assumption. Qed.
Print Assumptions C115_simple.

Theorem C115_debug : forall nl dnl init d W, (forall x, derivable_pt_lim nl x (dnl x)) -> effective W <> 0 ->
  switch_changes_nothing 1 (debug_rhs nl) (debug_objects init d W) (debug_costate nl dnl)
    (debug_parameters nl init d W) [("q1", d); ("q2", d)]
  /\ runs_succeed 1 (debug_rhs nl) (debug_costate nl dnl) (debug_parameters nl init d W) [("q1", d); ("q2", d)].
Proof. intros. apply debug_both; assumption. Qed.
Print Assumptions C115_debug.

(** With particles of dimension 2 the norm penalties differ: 1 with the hand-written parameters, 2 with
    differentiation. *)
Theorem C115_dimension_two : exists s c th th',
  has_states [("q1", 1%nat); ("q2", 1%nat)] "" 1 2 s /\ has_states [("q1", 1%nat); ("q2", 1%nat)] "p_" 1 2 c
  /\ updown_parameters idf init0 1 1 None s c = Ok th
  /\ autodiff_parameters (updown_rhs idf) (updown_objects init0 1 1 None) s c th'
  /\ kinetic_energy th = 1 /\ kinetic_energy th' = 2.
Proof. exists two_state, two_costate. exact penalties_differ. Qed.
Print Assumptions C115_dimension_two.

(** Eight particles and a batch of three samples, one Heun step; the hypotheses hold and the step moves
    the data. *)
Example C115_case :
  (exists parA cosA, differentiates_model (updown_rhs sin) (updown_objects init0 2 5 (Some 1)) [("q1", 2%nat); ("q2", 10%nat)] 8 1 parA cosA)
  /\ has_system [("q1", 2%nat); ("q2", 10%nat)] 8 1 3 1 big_start
  /\ refers_back 1 heun_step
  /\ looks_at_entries (fun env => nth_error heun_step (List.length env - 1))
  /\ exists env, run (updown_rhs sin) (fun _ => updown_parameters sin init0 2 5 (Some 1)) (fun _ => updown_costate cos) heun_step big_start = Ok env
       /\ List.length env = 5%nat.
Proof. exact big_case. Qed.

(** ** C116

    Refuted: if all entries of both gradients are zero, so that they agree, the comparison raises. *)
Theorem C116_zero_refuted : exists g, by_autodiff g = by_analytic g /\ by_analytic g <> []
  /\ script script_tolerance [gradients_of [g]] = Raise RuntimeError.
Proof. exists ("q1", ([0; 0], [0; 0])). split; [reflexivity|]. split; [discriminate|]. exact zero_script. Qed.
Print Assumptions C116_zero_refuted.

(** Refuted: the outcome depends on which of the two gradients is called analytic. *)
Theorem C116_symmetric_refuted : exists a b ea eb,
  compare script_tolerance [a] [b] = Ok (Passed ea) /\ compare script_tolerance [b] [a] = Ok (FailedError eb).
Proof. exact not_symmetric. Qed.
Print Assumptions C116_symmetric_refuted.

(** Refuted: it congratulates although nothing was compared. *)
Theorem C116_nothing_refuted : script script_tolerance [] = Ok (0%nat, 0%nat, [], true)
  /\ script script_tolerance [gradients_of []; gradients_of []] = Ok (0%nat, 0%nat, [], true).
Proof. split; reflexivity. Qed.
Print Assumptions C116_nothing_refuted.

(** If no gradient of the hand-written equations is zero everywhere, the script finishes; every outcome
    is right, the numbers count the outcomes, and it congratulates exactly when every pair of gradients
    has the same zeros and agrees up to the tolerance. *)
Theorem C116_outcome_partial : forall tol ms, Forall (fun ps => well_named ps /\ Forall comparable ps) ms ->
  exists out b, script tol (map gradients_of ms) = Ok (count_passed out, List.length (List.concat ms), out, b)
    /\ Forall2 (fun p nv => fst nv = name_of p /\ right_verdict tol (by_autodiff p) (by_analytic p) (snd nv)) (List.concat ms) out
    /\ (b = true <-> Forall (fun p => close tol (by_autodiff p) (by_analytic p)) (List.concat ms)).
Proof. exact script_spec. Qed.
Print Assumptions C116_outcome_partial.

(** In particular it congratulates for equal gradients, as C115 provides. *)
Theorem C116_equal_partial : forall tol ms, 0 < tol -> Forall (fun ps => well_named ps /\ Forall comparable ps) ms ->
  Forall (fun p => by_autodiff p = by_analytic p) (List.concat ms) ->
  exists out, script tol (map gradients_of ms) = Ok (List.length (List.concat ms), List.length (List.concat ms), out, true).
Proof. exact script_equal. Qed.
Print Assumptions C116_equal_partial.

(** A parameter without gradient stops the script. *)
Theorem C116_missing : forall tol name l l' rest,
  script tol (mkGradients ((name, None) :: l) l' :: rest) = Raise AttributeError.
Proof. exact missing_gradient. Qed.
Print Assumptions C116_missing.

(** Two parameters; one passes, one has another zero. *)
Example C116_case :
  let ps := [("p_q1", ([1; 0; -2], [1; 0; -2])); ("q1", ([1; 0], [1; 3]))] in
  well_named ps /\ Forall comparable ps
  /\ script script_tolerance [gradients_of ps] = Ok (1%nat, 2%nat, [("p_q1", Passed 0); ("q1", FailedPattern)], false).
Proof. exact two_parameters. Qed.

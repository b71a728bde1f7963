(** Properties C101, C102: the equations of the vector models, and dampening. *)
From Coq Require Import List String Reals Arith Lia Lra.
From Verif Require Import Base RealSum VecModel VecSpec VecProofs8 VecEquationsSpec VecEquationsProofs VecDampeningProofs.
Import ListNotations.
Open Scope string_scope.
Open Scope R_scope.

(** ** C101: every vector model computes its equations, for all particle numbers, dimensions, sizes, parameters
    and nonlinearities. *)
Theorem C101_updown : forall nl init d f W, obeys (updown_rhs nl) (updown_objects init d f W) [("q1", d); ("q2", (d * f)%nat)] (updown_eqs nl).
Proof. exact updown_obeys. Qed.
Print Assumptions C101_updown.
Theorem C101_universal : forall nl init d f W ow,
  obeys (universal_rhs nl) (universal_objects init d f W ow) [("q1", d); ("q2", (d * f)%nat)] (universal_eqs nl).
Proof. exact universal_obeys. Qed.
Print Assumptions C101_universal.
Theorem C101_general : forall nl init d f W, obeys (general_rhs nl) (general_objects init d f W) [("q1", d); ("q2", (d * f)%nat)] (general_eqs nl).
Proof. exact general_obeys. Qed.
Print Assumptions C101_general.
Theorem C101_simple : forall nl init d W, obeys (simple_rhs nl) (simple_objects init d W) [("q1", d)] (simple_eqs nl).
Proof. exact simple_obeys. Qed.
Print Assumptions C101_simple.
Theorem C101_debug : forall nl init d W, obeys (debug_rhs nl) (debug_objects init d W) [("q1", d); ("q2", d)] (debug_eqs nl).
Proof. exact debug_obeys. Qed.
Print Assumptions C101_debug.
Theorem C101_dampened_q2 : forall nl init d f W,
  obeys (dampened_q2_rhs nl) (updown_objects init d f W) [("q1", d); ("q2", (d * f)%nat)] (dampened_q2_eqs nl).
Proof. exact dampened_q2_obeys. Qed.
Print Assumptions C101_dampened_q2.
Theorem C101_periodic : forall nl init d f W, obeys (periodic_rhs nl) (periodic_objects init d f W) [("q1", d); ("q2", (d * f)%nat)] (periodic_eqs nl).
Proof. exact periodic_obeys. Qed.
Print Assumptions C101_periodic.
Theorem C101_second_order : forall nl init d W, obeys (second_order_rhs nl) (second_order_objects init d W) [("q1", d); ("q2", d)] (updown_eqs nl).
Proof. exact second_order_obeys. Qed.
Print Assumptions C101_second_order.
(** The symmetrized and optimal transport models only exist without inflation (C41). *)
Theorem C101_symmetrized : forall nl init d W,
  obeys (symmetrized_rhs nl) (symmetrized_objects init d 1 W) [("q1", d); ("q2", d); ("q3", d)] (symmetrized_eqs nl).
Proof. exact symmetrized_obeys. Qed.
Print Assumptions C101_symmetrized.
Theorem C101_optimal_transport : forall nl init d W, obeys (ot_rhs nl) (ot_objects init d 1 W) [("q1", d); ("q2", d)] (updown_eqs nl).
Proof. exact ot_obeys. Qed.
Print Assumptions C101_optimal_transport.
Theorem C101_dampened : forall nl init d f W N D c1 c2 q1 q2 th,
  of_shape N 1 1 c1 -> of_shape N 1 1 c2 -> of_shape N D d q1 -> of_shape N D (d * f) q2 ->
  same_objects (updown_objects init d f W) th ->
  exists r, dampened_rhs nl [("c1", c1); ("c2", c2); ("q1", q1); ("q2", q2)] th = Ok r /\ dampened_solves nl c1 c2 q1 q2 th r.
Proof. exact dampened_obeys. Qed.
Print Assumptions C101_dampened.

(** One particle with q1 = 3, q2 = -5, weights 2 and 7, biases 1 and 4: q1' = 2 relu(-5) + 1, q2' = 7 * 3 + 4. *)
Example C101_case :
  let init := fun o => if String.eqb o "l1" then (fun _ _ => 2, fun _ => 1) else (fun _ _ => 7, fun _ => 4) in
  let th := updown_objects init 1 1 None in
  let s := [("q1", number 3); ("q2", number (-5))] in
  has_states [("q1", 1%nat); ("q2", 1%nat)] "" 1 1 s /\ same_objects th th /\
  maps th "l1" (of_all (Rmax 0) (features s 0 0 "q2")) 0 = 1 /\ maps th "l2" (features s 0 0 "q1") 0 = 25.
Proof.
  cbv zeta. split; [repeat (apply Forall2_cons; [cbn; repeat split|]); apply Forall2_nil|].
  split; [repeat (apply Forall2_cons; [cbn; repeat split|]); apply Forall2_nil|].
  split; cbn; unfold of_all, affine; cbn; [rewrite Rmax_left by lra|]; lra.
Qed.

(** ** C102 is false for UpdownDampenedQ2: its factor -1/2 is subtracted, so that the second state, left alone,
    grows. *)
Theorem C102_dampening_refuted : forall nl, exists init d f W,
  ~ dampens (dampened_q2_rhs nl) (updown_objects init d f W) (has_states [("q1", d); ("q2", (d * f)%nat)] "") "q2" (d * f).
Proof. intro nl. exists zero_init, 1%nat, 1%nat, None. exact (dampened_q2_not_dampening nl). Qed.
Print Assumptions C102_dampening_refuted.

(** How it grows, for all sizes. *)
Theorem C102_dampened_q2_partial : forall nl init d f W N D th X,
  same_objects (updown_objects init d f W) th -> silent th ->
  (forall t, has_states [("q1", d); ("q2", (d * f)%nat)] "" N D (X t)) -> follows (dampened_q2_rhs nl) th X ->
  forall t n i k, (n < N)%nat -> (i < D)%nat -> (k < d * f)%nat ->
    entry (X t) "q2" n i k = entry (X 0) "q2" n i k * exp (t / 2).
Proof. exact dampened_q2_grows. Qed.
Print Assumptions C102_dampened_q2_partial.

(** DampenedUpDown dampens both states if the nonlinearity has no negative values (relu).  Missing: the other
    nonlinearities, and UpdownDampenedQ2. *)
Theorem C102_dampened_updown_partial : forall nl init d f W, (forall x, 0 <= nl x) ->
  dampens (dampened_rhs nl) (updown_objects init d f W) (dampened_sizes d f) "q1" d /\
  dampens (dampened_rhs nl) (updown_objects init d f W) (dampened_sizes d f) "q2" (d * f).
Proof. exact dampened_dampens. Qed.
Print Assumptions C102_dampened_updown_partial.

(** Solutions of both models. *)
Example C102_case :
  (forall x, 0 <= Rmax 0 x) /\ same_objects (updown_objects zero_init 1 1 None) (updown_objects zero_init 1 1 None) /\
  silent (updown_objects zero_init 1 1 None) /\
  (forall t, dampened_sizes 1 1 1 1 (shrinking t)) /\ follows (dampened_rhs (Rmax 0)) (updown_objects zero_init 1 1 None) shrinking /\
  (forall t, has_states [("q1", 1%nat); ("q2", 1%nat)] "" 1 1 (growing t)) /\
  follows (dampened_q2_rhs (Rmax 0)) (updown_objects zero_init 1 1 None) growing /\
  entry (growing 2) "q2" 0 0 0 = exp (2 / 2) /\ entry (shrinking 2) "q1" 0 0 0 = exp (- (2 * 2)).
Proof.
  split; [intro x; apply Rmax_l|]. split; [exact zero_same|]. split; [exact zero_silent|]. split; [exact shrinking_sized|].
  split; [exact shrinking_follows|]. split; [exact growing_sized|]. split; [apply growing_follows|]. split; reflexivity.
Qed.

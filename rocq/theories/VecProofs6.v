(** The hand-written equations of the vector models against differentiation; witnesses. *)
From Coq Require Import List String Reals Arith Lia Lra Bool.
From Verif Require Import Base Tensor RealSum VecNet VecModel VecSpec VecProofs VecProofs2 VecProofs3 VecProofs4 VecProofs5.
Import ListNotations.
Open Scope string_scope.
Open Scope R_scope.

Section Claims.
Variable G : net.
Hypothesis HG : net_ok G.
Variable rhs : states -> pars -> result states.
Hypothesis Hc : conforms G rhs.
Variable os : pars.
Hypothesis Ho : pars_ok G os.
Hypothesis Hw : weights_ok os.
Variable costate : nat -> states -> states -> pars -> result states.
Hypothesis Hcc : forall N D, costate_conforms G N D (costate N).

Lemma claim_costate : analytic_costates_correct rhs os costate (net_states G).
Proof. intros N D s c th HN Hs Hp Hth. eapply costates_are_autodiff; eauto. Qed.

Lemma claim_stationary : energy_stationary rhs os costate (net_states G).
Proof. intros N D Q P t th r dp HN HQ HP Hth Er Ep MQ MP. eapply reduced_stationary; eauto. Qed.

Lemma claim_conserved : energy_conserved rhs os costate (net_states G).
Proof. intros N D Q P HN HQ HP Hsol. eapply red_constant; eauto. Qed.

Variable parameters : nat -> states -> states -> result pars.

Lemma claim_weights :
  (forall N D s c, (0 < N)%nat -> has_states (net_states G) "" N D s -> has_states (net_states G) "p_" N D c ->
     exists th, parameters N s c = Ok th /\ formula_ok N D G os s c th) ->
  analytic_weights_correct rhs os parameters (net_states G).
Proof.
  intros H N D s c HN Hs Hp. destruct (H N D s c HN Hs Hp) as [th [E [A [B _]]]]. exists th. split; auto.
  eapply formula_weights; eauto. clear - A. induction A; constructor; tauto.
Qed.

Lemma claim_parameters :
  (forall N s c, (0 < N)%nat -> has_states (net_states G) "" N 1 s -> has_states (net_states G) "p_" N 1 c ->
     exists th, parameters N s c = Ok th /\ same_objects os th /\ optimal_entries G N 1 s c os th) ->
  analytic_parameters_correct 1 rhs os parameters (net_states G).
Proof.
  intros H N s c HN Hs Hp. destruct (H N s c HN Hs Hp) as [th [E A]]. exists th. split; auto.
  apply (autodiff_iff G HG rhs N 1 s c os); auto.
Qed.

Lemma claim_parameters' :
  (forall N D s c, (0 < N)%nat -> has_states (net_states G) "" N D s -> has_states (net_states G) "p_" N D c ->
     exists th, parameters N s c = Ok th /\ formula_ok N D G os s c th) ->
  analytic_parameters_correct 1 rhs os parameters (net_states G).
Proof.
  intros H. apply claim_parameters. intros N s c HN Hs Hp. destruct (H N 1%nat s c HN Hs Hp) as [th [E [_ [_ A]]]].
  exists th. split; auto.
Qed.

Lemma claim_analytic D : analytic_parameters_correct D rhs os parameters (net_states G) ->
  energy_conserved rhs os costate (net_states G) ->
  energy_conserved_analytic D rhs os costate parameters (net_states G).
Proof.
  intros Hpc Hcons N Q P HN HQ HP Hsol. apply (Hcons N D Q P HN HQ HP).
  intros t. destruct (Hsol t) as [th [r [dp [Ep H]]]]. exists th, r, dp. split; auto.
  destruct (Hpc N (Q t) (P t) HN (HQ t) (HP t)) as [th' [Ep' Hth]]. rewrite Ep in Ep'. injection Ep' as <-. exact Hth.
Qed.
End Claims.



(** Everything at once. *)
Definition all_claims rhs os costate parameters names : Prop :=
  analytic_costates_correct rhs os costate names
  /\ analytic_parameters_correct 1 rhs os parameters names
  /\ energy_stationary rhs os costate names
  /\ energy_conserved rhs os costate names
  /\ energy_conserved_analytic 1 rhs os costate parameters names.

Lemma all_claims_hold G rhs os costate parameters :
  net_ok G -> conforms G rhs -> pars_ok G os -> weights_ok os ->
  (forall N D, costate_conforms G N D (costate N)) ->
  analytic_parameters_correct 1 rhs os parameters (net_states G) ->
  all_claims rhs os costate parameters (net_states G).
Proof.
  intros H1 H2 H3 H4 H5 H6. split; [eapply claim_costate; eauto|]. split; [exact H6|].
  split; [eapply claim_stationary; eauto|]. split; [eapply claim_conserved; eauto|].
  apply (claim_analytic G); auto. eapply claim_conserved; eauto.
Qed.

Section Models.
Variables nl dnl : R -> R.
Hypothesis Hnl : forall x, derivable_pt_lim nl x (dnl x).
Variable init : inits.
Variables d f : nat.
Notation e := (d * f)%nat.
Variable W : option R.
Hypothesis HW : effective W <> 0.
Variable ow : R.
Hypothesis How : ow <> 0.

Notation two := [("q1", d); ("q2", e)].
Notation twod := [("q1", d); ("q2", d)].
Notation one_state := [("q1", d)].
Notation three := [("q1", d); ("q2", d); ("q3", d)].


(** updown *)
Lemma updown_parameters_correct : analytic_parameters_correct 1 (updown_rhs nl) (updown_objects init d f W) (fun _ => updown_parameters nl init d f W) two.
Proof.
  apply (claim_parameters' (updown_net nl dnl d e)).
  - apply updown_net_ok; auto.
  - apply updown_conforms.
  - apply updown_pars_ok.
  - intros. apply updown_formula; auto.
Qed.

Lemma updown_weights_correct : analytic_weights_correct (updown_rhs nl) (updown_objects init d f W) (fun _ => updown_parameters nl init d f W) two.
Proof.
  apply (claim_weights (updown_net nl dnl d e)).
  - apply updown_net_ok; auto.
  - apply updown_conforms.
  - apply updown_pars_ok.
  - intros. apply updown_formula; auto.
Qed.

Lemma updown_claims : all_claims (updown_rhs nl) (updown_objects init d f W) (fun _ => updown_costate dnl) (fun _ => updown_parameters nl init d f W) two.
Proof.
  apply (all_claims_hold (updown_net nl dnl d e)).
  - apply updown_net_ok; auto.
  - apply updown_conforms.
  - apply updown_pars_ok.
  - apply updown_weights_ok; auto.
  - intros. apply updown_costates.
  - apply updown_parameters_correct.
Qed.

(** universal *)
Lemma universal_parameters_correct : analytic_parameters_correct 1 (universal_rhs nl) (universal_objects init d f W ow) (fun _ => universal_parameters nl init d f W ow) two.
Proof.
  apply (claim_parameters' (universal_net nl dnl d e)).
  - apply universal_net_ok; auto.
  - apply universal_conforms.
  - apply universal_pars_ok.
  - intros. apply universal_formula; auto.
Qed.

Lemma universal_weights_correct : analytic_weights_correct (universal_rhs nl) (universal_objects init d f W ow) (fun _ => universal_parameters nl init d f W ow) two.
Proof.
  apply (claim_weights (universal_net nl dnl d e)).
  - apply universal_net_ok; auto.
  - apply universal_conforms.
  - apply universal_pars_ok.
  - intros. apply universal_formula; auto.
Qed.

Lemma universal_claims : all_claims (universal_rhs nl) (universal_objects init d f W ow) (fun _ => universal_costate dnl) (fun _ => universal_parameters nl init d f W ow) two.
Proof.
  apply (all_claims_hold (universal_net nl dnl d e)).
  - apply universal_net_ok; auto.
  - apply universal_conforms.
  - apply universal_pars_ok.
  - apply universal_weights_ok; auto.
  - intros. apply universal_costates.
  - apply universal_parameters_correct.
Qed.

(** general *)
Lemma general_parameters_correct : analytic_parameters_correct 1 (general_rhs nl) (general_objects init d f W) (fun _ => general_parameters nl init d f W) two.
Proof.
  apply (claim_parameters' (general_net nl dnl d e)).
  - apply general_net_ok; auto.
  - apply general_conforms.
  - apply general_pars_ok.
  - intros. apply general_formula; auto.
Qed.

Lemma general_weights_correct : analytic_weights_correct (general_rhs nl) (general_objects init d f W) (fun _ => general_parameters nl init d f W) two.
Proof.
  apply (claim_weights (general_net nl dnl d e)).
  - apply general_net_ok; auto.
  - apply general_conforms.
  - apply general_pars_ok.
  - intros. apply general_formula; auto.
Qed.

Lemma general_claims : all_claims (general_rhs nl) (general_objects init d f W) (fun _ => general_costate dnl) (fun _ => general_parameters nl init d f W) two.
Proof.
  apply (all_claims_hold (general_net nl dnl d e)).
  - apply general_net_ok; auto.
  - apply general_conforms.
  - apply general_pars_ok.
  - apply general_weights_ok; auto.
  - intros. apply general_costates.
  - apply general_parameters_correct.
Qed.

(** symmetrized *)
Lemma symmetrized_parameters_correct : analytic_parameters_correct 1 (symmetrized_rhs nl) (symmetrized_objects init d 1 W) (fun _ => symmetrized_parameters nl init d 1 W) three.
Proof.
  apply (claim_parameters' (symmetrized_net nl dnl d)).
  - apply symmetrized_net_ok; auto.
  - apply symmetrized_conforms.
  - apply symmetrized_pars_ok.
  - intros. apply symmetrized_formula; auto.
Qed.

Lemma symmetrized_weights_correct : analytic_weights_correct (symmetrized_rhs nl) (symmetrized_objects init d 1 W) (fun _ => symmetrized_parameters nl init d 1 W) three.
Proof.
  apply (claim_weights (symmetrized_net nl dnl d)).
  - apply symmetrized_net_ok; auto.
  - apply symmetrized_conforms.
  - apply symmetrized_pars_ok.
  - intros. apply symmetrized_formula; auto.
Qed.

Lemma symmetrized_claims : all_claims (symmetrized_rhs nl) (symmetrized_objects init d 1 W) (fun _ => symmetrized_costate dnl) (fun _ => symmetrized_parameters nl init d 1 W) three.
Proof.
  apply (all_claims_hold (symmetrized_net nl dnl d)).
  - apply symmetrized_net_ok; auto.
  - apply symmetrized_conforms.
  - apply symmetrized_pars_ok.
  - apply symmetrized_weights_ok; auto.
  - intros. apply symmetrized_costates.
  - apply symmetrized_parameters_correct.
Qed.

(** periodic *)
Lemma periodic_parameters_correct : analytic_parameters_correct 1 (periodic_rhs nl) (periodic_objects init d f W) (fun _ => periodic_parameters nl init d f W) two.
Proof.
  apply (claim_parameters' (periodic_net nl dnl d e)).
  - apply periodic_net_ok; auto.
  - apply periodic_conforms.
  - apply periodic_pars_ok.
  - intros. apply periodic_formula; auto.
Qed.

Lemma periodic_weights_correct : analytic_weights_correct (periodic_rhs nl) (periodic_objects init d f W) (fun _ => periodic_parameters nl init d f W) two.
Proof.
  apply (claim_weights (periodic_net nl dnl d e)).
  - apply periodic_net_ok; auto.
  - apply periodic_conforms.
  - apply periodic_pars_ok.
  - intros. apply periodic_formula; auto.
Qed.

Lemma periodic_claims : all_claims (periodic_rhs nl) (periodic_objects init d f W) (fun _ => periodic_costate dnl) (fun _ => periodic_parameters nl init d f W) two.
Proof.
  apply (all_claims_hold (periodic_net nl dnl d e)).
  - apply periodic_net_ok; auto.
  - apply periodic_conforms.
  - apply periodic_pars_ok.
  - apply periodic_weights_ok; auto.
  - intros. apply periodic_costates.
  - apply periodic_parameters_correct.
Qed.

(** simple *)
Lemma simple_parameters_correct : analytic_parameters_correct 1 (simple_rhs nl) (simple_objects init d W) (simple_parameters nl init d W) one_state.
Proof.
  apply (claim_parameters (simple_net nl dnl d)).
  - apply simple_net_ok; auto.
  - apply simple_conforms.
  - apply simple_pars_ok.
  - intros. apply simple_formula; auto.
Qed.

Lemma simple_claims : all_claims (simple_rhs nl) (simple_objects init d W) (simple_costate nl dnl) (simple_parameters nl init d W) one_state.
Proof.
  apply (all_claims_hold (simple_net nl dnl d)).
  - apply simple_net_ok; auto.
  - apply simple_conforms.
  - apply simple_pars_ok.
  - apply simple_weights_ok; auto.
  - intros. apply simple_costates.
  - apply simple_parameters_correct.
Qed.

(** debug *)
Lemma debug_parameters_correct : analytic_parameters_correct 1 (debug_rhs nl) (debug_objects init d W) (debug_parameters nl init d W) twod.
Proof.
  apply (claim_parameters (debug_net nl dnl d)).
  - apply debug_net_ok; auto.
  - apply debug_conforms.
  - apply debug_pars_ok.
  - intros. apply debug_formula; auto.
Qed.

Lemma debug_claims : all_claims (debug_rhs nl) (debug_objects init d W) (debug_costate nl dnl) (debug_parameters nl init d W) twod.
Proof.
  apply (all_claims_hold (debug_net nl dnl d)).
  - apply debug_net_ok; auto.
  - apply debug_conforms.
  - apply debug_pars_ok.
  - apply debug_weights_ok; auto.
  - intros. apply debug_costates.
  - apply debug_parameters_correct.
Qed.
End Models.

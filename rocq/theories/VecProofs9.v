(** Collected statements about the vector models. *)
From Coq Require Import List String Reals Arith Lia Lra Bool.
From Verif Require Import Base Tensor RealSum VecNet VecModel VecInit VecSpec VecProofs VecProofs2 VecProofs3 VecProofs4 VecProofs5 VecProofs6 VecProofs7 VecProofs8.
Import ListNotations.
Open Scope string_scope.
Open Scope R_scope.

Section C.
Context (rhs : states -> pars -> result states) os costate parameters names (H : all_claims rhs os costate parameters names).
Lemma claims_costates : analytic_costates_correct rhs os costate names. Proof. apply H. Qed.
Lemma claims_parameters : analytic_parameters_correct 1 rhs os parameters names. Proof. apply H. Qed.
Lemma claims_stationary : energy_stationary rhs os costate names. Proof. apply H. Qed.
Lemma claims_conserved : energy_conserved rhs os costate names. Proof. apply H. Qed.
Lemma claims_analytic : energy_conserved_analytic 1 rhs os costate parameters names. Proof. apply H. Qed.
End C.

Section U.
Variables nl dnl : R -> R.
Hypothesis Hnl : forall x, derivable_pt_lim nl x (dnl x).
Variable init : inits.
Variables d f : nat.
Variable W : option R.
Hypothesis HW : effective W <> 0.
Variables (N D : nat) (s c : states).

Let G1 := updown_net_ok nl dnl Hnl d f.
Let G2 := updown_pars_ok nl dnl init d f W.
Let G4 := updown_conforms nl dnl d (d * f).
Let G3 := updown_weights_ok init d f W HW.

Lemma updown_autodiff_defined :
  has_states [("q1", d); ("q2", (d * f)%nat)] "" N D s -> has_states [("q1", d); ("q2", (d * f)%nat)] "p_" N D c ->
  exists th v, autodiff_parameters (updown_rhs nl) (updown_objects init d f W) s c th
    /\ reduced_lagrangian (updown_rhs nl) (updown_objects init d f W) N s c v.
Proof.
  intros Hs Hp. destruct (autodiff_exists _ G1 _ G4 _ G2 G3 N D s c Hs Hp) as [th Hth].
  exists th. eexists. split; auto. apply (reduced_value _ G1 _ G4 _ G2 G3 N D s c _ Hs Hp). reflexivity.
Qed.

Variables dp dp' : states.
Lemma updown_autodiff_unique :
  has_states [("q1", d); ("q2", (d * f)%nat)] "" N D s -> has_states [("q1", d); ("q2", (d * f)%nat)] "p_" N D c ->
  autodiff_costates (updown_rhs nl) (updown_objects init d f W) N s c dp ->
  autodiff_costates (updown_rhs nl) (updown_objects init d f W) N s c dp' ->
  same_entries dp dp'.
Proof.
  intros Hs Hp H1 H2. pose proof (autodiff_costates_unique _ G1 _ G4 _ G2 G3 N D s c dp dp' Hs Hp H1 H2) as E.
  destruct H1 as [S1 _], H2 as [S2 _]. clear - Hs S1 S2 E.
  destruct (states2 _ _ _ _ _ _ _ _ Hs) as [x [y [-> [[X0 [X1 X2]] [Y0 [Y1 Y2]]]]]].
  repeat match goal with S : Forall2 _ _ _ |- _ => inversion S; clear S; subst end.
  repeat match goal with z : (string * t3)%type |- _ => destruct z end. cbn [fst snd] in *.
  repeat match goal with H : _ /\ _ |- _ => destruct H end. subst. unfold same_shape in *.
  repeat match goal with H : _ /\ _ |- _ => destruct H end.
  repeat constructor; cbn [fst snd]; auto; try congruence.
  - intros n i k [A [B C]]. apply (E O n i k); cbn; try lia; congruence.
  - intros n i k [A [B C]]. apply (E 1%nat n i k); cbn; try lia; congruence.
Qed.
End U.

(** One particle moving with unit speed. *)
Definition free_state (t : R) : states := [("q1", col 1 1 (fun _ => t)); ("q2", col 1 1 zero_)].
Definition free_costate (t : R) : states := [("p_q1", col 1 1 (fun _ => 1)); ("p_q2", col 1 1 zero_)].

Lemma free_analytic : analytic_solution (updown_rhs idf) (updown_costate onef) (updown_parameters idf init0 1 1 None) free_state free_costate.
Proof.
  intros t. do 3 eexists. split; [evalOk|]. split; [evalOk|]. split; [evalOk|]. split.
  - intros a q x o dx n i k Ex Ed [Hn [Hi Hk]].
    destruct a as [|[|a]]; [| |destruct a; discriminate]; cbn in Ex; injection Ex as <- <-; cbn in Ed; injection Ed as <- <-; cbn.
    + eapply derivable_eq; [|apply derivable_pt_lim_id]. unfold zero_, idf. field.
    + eapply derivable_eq; [|apply derivable_pt_lim_const]. unfold zero_, idf. field.
  - intros a q x o dx n i k Ex Ed [Hn [Hi Hk]].
    destruct a as [|[|a]]; [| |destruct a; discriminate]; cbn in Ex; injection Ex as <- <-; cbn in Ed; injection Ed as <- <-; cbn.
    + eapply derivable_eq; [|apply derivable_pt_lim_const]. unfold zero_, idf, onef. field.
    + eapply derivable_eq; [|apply derivable_pt_lim_const]. unfold zero_, idf, onef. field.
Qed.

Lemma one_nz : effective None <> 0. Proof. cbn. lra. Qed.

Lemma free_solution :
  (forall t, has_states [("q1", 1%nat); ("q2", 1%nat)] "" 1 1 (free_state t))
  /\ (forall t, has_states [("q1", 1%nat); ("q2", 1%nat)] "p_" 1 1 (free_costate t))
  /\ analytic_solution (updown_rhs idf) (updown_costate onef) (updown_parameters idf init0 1 1 None) free_state free_costate
  /\ shooting_solution (updown_rhs idf) (updown_costate onef) (updown_objects init0 1 1 None) free_state free_costate
  /\ exists v, v <> 0 /\ reduced_lagrangian (updown_rhs idf) (updown_objects init0 1 1 None) 1 (free_state 0) (free_costate 0) v.
Proof.
  assert (HQ : forall t, has_states [("q1", 1%nat); ("q2", 1%nat)] "" 1 1 (free_state t)) by (intros; apply (states_two 1 1 ""); apply col_shape).
  assert (HP : forall t, has_states [("q1", 1%nat); ("q2", 1%nat)] "p_" 1 1 (free_costate t)) by (intros; apply (states_two 1 1 "p_"); apply col_shape).
  split; [exact HQ|]. split; [exact HP|]. split; [exact free_analytic|].
  pose proof (updown_parameters_correct idf onef idf_derivable init0 1 1 None one_nz) as K.
  split.
  - intros t. destruct (free_analytic t) as [th [r [dp [A [B [C [E F]]]]]]]. exists th, r, dp.
    destruct (K 1%nat (free_state t) (free_costate t) ltac:(lia) (HQ t) (HP t)) as [th' [E' H']]. cbv beta in E'. rewrite A in E'. injection E' as <-.
    split; [exact H'|]. split; [exact B|]. split; [exact C|]. split; [exact E|exact F].
  - destruct (K 1%nat (free_state 0) (free_costate 0) ltac:(lia) (HQ 0) (HP 0)) as [th [E H]].
    eexists. split; [|exists th; split; [exact H|]].
    2:{ revert E. lazy -[Rplus Rmult Rdiv Rinv Rminus Ropp INR IZR v3 v2 rsum]. intros E. injection E as <-. lazy -[Rplus Rmult Rdiv Rinv Rminus Ropp INR IZR v3 v2 rsum]. reflexivity. }
    cbn. unfold zero_, idf. match goal with |- ?x <> 0 => replace x with (- (1 / 2)) by field end. lra.
Qed.

Lemma all_initial_sizes d f ini N D :
  has_states [("q1", d); ("q2", (d * f)%nat)] "" N D (updown_initial ini N D d f)
  /\ has_states [("q1", d); ("q2", d)] "" N D (second_order_initial ini N D d)
  /\ has_states [("q1", d)] "" N D (simple_initial ini N D d)
  /\ has_states [("q1", d); ("q2", (d * f)%nat); ("q3", d)] "" N D (symmetrized_initial ini N D d f)
  /\ dampened_sizes d f N D (dampened_initial ini N D d f).
Proof.
  auto using updown_initial_sizes, second_order_initial_sizes, simple_initial_sizes, symmetrized_initial_sizes, dampened_initial_sizes.
Qed.

Lemma all_data_sizes nl d f B D x mode : of_shape B D d x -> mode_of_sizes D d (d * f) mode ->
  (exists s, updown_data nl f mode x = Ok s /\ has_states [("q1", d); ("q2", (d * f)%nat)] "" B D s)
  /\ has_states [("q1", d); ("q2", d)] "" B D (second_order_data x)
  /\ has_states [("q1", d)] "" B D (simple_data x)
  /\ has_states [("q1", d); ("q2", (d * f)%nat); ("q3", d)] "" B D (symmetrized_data f x)
  /\ dampened_sizes d f B D (dampened_data f x).
Proof.
  intros Hx Hm. split; [apply updown_data_sizes; auto|]. split; [apply second_order_data_sizes; auto|].
  split; [apply simple_data_sizes; auto|]. split; [apply symmetrized_data_sizes; auto|apply dampened_data_sizes; auto].
Qed.

Lemma symmetrized_shapes_wrong : exists nl init d f W s,
  has_states [("q1", d); ("q2", (d * f)%nat); ("q3", d)] "" 1 1 s
  /\ ~ exists r, symmetrized_rhs nl s (symmetrized_objects init d f W) = Ok r /\ derivative_shapes s r.
Proof.
  exists idf, init0, 1%nat, 2%nat, None, [("q1", mkT3 1 1 1 (fun _ _ _ => 1)); ("q2", mkT3 1 1 2 (fun _ _ _ => 1)); ("q3", mkT3 1 1 1 (fun _ _ _ => 1))].
  split; [repeat constructor|]. intros [r [E H]].
  inversion H as [|? ? ? ? _ H1]; subst. inversion H1 as [|? ? ? ? _ H2]; subst. inversion H2 as [|? ? ? ? [_ [_ [_ S]]] H3]; subst.
  revert E. lazy -[Rplus Rmult Rdiv Rinv Rminus Ropp INR IZR v3 v2 rsum n2]. intros E. injection E as _ _ <- _. cbn in S. discriminate.
Qed.

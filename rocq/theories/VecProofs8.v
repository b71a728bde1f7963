(** Shapes of the right-hand sides and of the initial states and data. *)
From Coq Require Import List String Reals Arith Lia Lra Bool.
From Verif Require Import Base Tensor RealSum VecNet VecModel VecInit VecSpec VecProofs VecProofs2 VecProofs3 VecProofs4 VecProofs5.
Import ListNotations.
Open Scope string_scope.
Open Scope R_scope.

Lemma shapes_of_states names N D s r : has_states names "" N D s -> has_states names "dot_" N D r -> derivative_shapes s r.
Proof.
  intros Hs. revert r. induction Hs as [|nd [q x] names s [Eq [A [B C]]] Hs IH]; intros r Hr;
    inversion Hr as [|? [o y] ? r' [Eo [A' [B' C']]] Hr']; subst; constructor; [|apply IH; auto].
  cbn [fst snd] in *. cbn in Eq. subst. split; auto. repeat split; congruence.
Qed.

Lemma conforms_shapes G rhs os : conforms G rhs -> pars_ok G os -> shapes_preserved rhs os (net_states G).
Proof.
  intros Hc Ho N D s th Hs Hth. pose proof (same_objects_ok G os Ho th Hth) as Hok.
  destruct (Hc N D s th Hs Hok) as [r [E [Hr _]]]. exists r. split; auto. eapply shapes_of_states; eauto.
Qed.

Section Shapes.
Variable nl : R -> R.
Variable init : inits.
Variables d f : nat.
Notation e := (d * f)%nat.
Variable W : option R.
Variable ow : R.

Let d0 := (fun _ : R => 0).

Lemma updown_shapes : shapes_preserved (updown_rhs nl) (updown_objects init d f W) [("q1", d); ("q2", e)].
Proof. apply (conforms_shapes (updown_net nl d0 d e)). apply updown_conforms. apply updown_pars_ok. Qed.
Lemma universal_shapes : shapes_preserved (universal_rhs nl) (universal_objects init d f W ow) [("q1", d); ("q2", e)].
Proof. apply (conforms_shapes (universal_net nl d0 d e)). apply universal_conforms. apply universal_pars_ok. Qed.
Lemma general_shapes : shapes_preserved (general_rhs nl) (general_objects init d f W) [("q1", d); ("q2", e)].
Proof. apply (conforms_shapes (general_net nl d0 d e)). apply general_conforms. apply general_pars_ok. Qed.
Lemma simple_shapes : shapes_preserved (simple_rhs nl) (simple_objects init d W) [("q1", d)].
Proof. apply (conforms_shapes (simple_net nl d0 d)). apply simple_conforms. apply simple_pars_ok. Qed.
Lemma debug_shapes : shapes_preserved (debug_rhs nl) (debug_objects init d W) [("q1", d); ("q2", d)].
Proof. apply (conforms_shapes (debug_net nl d0 d)). apply debug_conforms. apply debug_pars_ok. Qed.
Lemma dampened_q2_shapes : shapes_preserved (dampened_q2_rhs nl) (updown_objects init d f W) [("q1", d); ("q2", e)].
Proof. apply (conforms_shapes (dampened_q2_net nl d0 d e)). apply dampened_q2_conforms. apply dampened_q2_pars_ok. Qed.
Lemma periodic_shapes : shapes_preserved (periodic_rhs nl) (periodic_objects init d f W) [("q1", d); ("q2", e)].
Proof. apply (conforms_shapes (periodic_net nl d0 d e)). apply periodic_conforms. apply periodic_pars_ok. Qed.
Lemma second_order_shapes : shapes_preserved (second_order_rhs nl) (second_order_objects init d W) [("q1", d); ("q2", d)].
Proof.
  apply (conforms_shapes (updown_net nl d0 d d)). apply updown_conforms.
  unfold pars_ok, second_order_objects, debug_objects. repeat (apply Forall2_cons; [unfold layer_ok; cbn; eauto 8|]). apply Forall2_nil.
Qed.

(** Symmetrized and optimal transport models: only without inflation. *)
Lemma symmetrized_shapes : shapes_preserved (symmetrized_rhs nl) (symmetrized_objects init d 1 W) [("q1", d); ("q2", d); ("q3", d)].
Proof. apply (conforms_shapes (symmetrized_net nl d0 d)). apply symmetrized_conforms. apply symmetrized_pars_ok. Qed.
Lemma ot_shapes : shapes_preserved (ot_rhs nl) (ot_objects init d 1 W) [("q1", d); ("q2", d)].
Proof.
  apply (conforms_shapes (updown_net nl d0 d d)). apply updown_conforms.
  unfold pars_ok, ot_objects. repeat (apply Forall2_cons; [unfold layer_ok; cbn; rewrite ?Nat.mul_1_r; eauto 8|]). apply Forall2_nil.
Qed.

Lemma same_layers o i a b w os th : same_objects ((o, snn_linear i a b true w) :: os) th ->
  exists m th', th = (o, m) :: th' /\ m0 (lin_weight m) = b /\ m1 (lin_weight m) = a
    /\ (exists z, lin_bias m = Some z /\ m0 z = 1%nat /\ m1 z = b) /\ same_objects os th'.
Proof.
  intros H. apply conses in H. destruct H as [[o' m] [th' [-> [[E [[A B] [C _]]] H]]]]. cbn in *. subst.
  exists m, th'. repeat split; auto. destruct (lin_bias m) as [z|]; [|contradiction]. destruct C. eauto.
Qed.

Lemma same_nil th : same_objects [] th -> th = [].
Proof. intros H. inversion H. reflexivity. Qed.

Ltac split_same H :=
  repeat (let m := fresh "ly" in let r := fresh "th" in let A := fresh "A" in let B := fresh "B" in let C := fresh "C" in
    apply same_layers in H; destruct H as [m [r [-> [A [B [C H]]]]]]);
  apply same_nil in H; rewrite H in *; clear H.

Lemma symmetrized_inflated N D s th : e <> d ->
  has_states [("q1", d); ("q2", e); ("q3", d)] "" N D s -> same_objects (symmetrized_objects init d f W) th ->
  exists r x, symmetrized_rhs nl s th = Ok r /\ nth_error r 2 = Some ("dot_q3", x) /\ n2 x = e.
Proof.
  intros Hne Hs Hth. conf Hs Hs. owns. unfold symmetrized_objects in Hth. split_same Hth.
  unfold symmetrized_rhs. steps. do 2 eexists. split; [reflexivity|]. split; [reflexivity|].
  match goal with H : is3 _ _ _ _ ?y |- n2 ?y = _ => exact (proj2 (proj2 (proj1 H))) end.
Qed.

Lemma ot_inflated N D s th : e <> d ->
  has_states [("q1", d); ("q2", d)] "" N D s -> same_objects (ot_objects init d f W) th ->
  ot_rhs nl s th = Raise RuntimeError.
Proof.
  intros Hne Hs Hth. conf Hs Hs. owns. unfold ot_objects in Hth. split_same Hth.
  unfold ot_rhs, updown_rhs. sdi. let E := fresh "E" in let H := fresh "H" in fwd E H; sdi.
  unfold forward, f_linear, matmul32. cbn [m0 tr]. destruct H as [[_ [_ Hx]] _]. rewrite Hx, B0.
  destruct (Nat.eqb_spec d e); [congruence|]. reflexivity.
Qed.

(** DampenedUpDown: the dampening states have one entry per particle. *)
Definition dampened_sizes (N D : nat) (s : states) : Prop :=
  exists c1 c2 q1 q2, s = [("c1", c1); ("c2", c2); ("q1", q1); ("q2", q2)]
    /\ of_shape N 1 1 c1 /\ of_shape N 1 1 c2 /\ of_shape N D d q1 /\ of_shape N D e q2.

Lemma zip3_column op x y N D k : of_shape N 1 1 x -> of_shape N D k y -> exists z, zip3 op x y = Ok z /\ of_shape N D k z.
Proof.
  intros [X0 [X1 X2]] [Y0 [Y1 Y2]]. unfold zip3. rewrite X0, X1, X2, Y0, Y1, Y2, !bdim_1_l. unfold bdim. rewrite Nat.eqb_refl.
  cbn [bind]. eexists. split; [reflexivity|]. repeat split.
Qed.

Lemma dampened_shapes N D s th :
  dampened_sizes N D s -> same_objects (updown_objects init d f W) th ->
  exists r, dampened_rhs nl s th = Ok r /\ derivative_shapes s r.
Proof.
  intros [c1 [c2 [q1 [q2 [-> [C1 [C2 [Q1 Q2]]]]]]]] Hth. unfold updown_objects in Hth. split_same Hth.
  pose proof (own3 _ _ _ _ Q1) as O1. pose proof (own3 _ _ _ _ Q2) as O2.
  destruct (zip3_column Rmult (map3 nl c1) q1 N D d C1 Q1) as [z1 [Z1 S1]].
  destruct (zip3_column Rmult (map3 nl c2) q2 N D e C2 Q2) as [z2 [Z2 S2]].
  apply own3 in S1, S2.
  unfold dampened_rhs. sdi. rewrite Z1, Z2. sdi.
  steps. eexists. split; [reflexivity|].
  repeat match goal with H : is3 _ _ _ _ _ |- _ => destruct H as [? _] end. unfold of_shape in *.
  repeat match goal with H : _ /\ _ |- _ => destruct H end.
  repeat (apply Forall2_cons; [split; [reflexivity|cbn [snd fst]; unfold same_shape; cbn; repeat split; congruence]|]). apply Forall2_nil.
Qed.

(** ** Initial states and data *)
Section Initial.
Variable ini : string -> nat -> nat -> nat -> R.
Variables N D : nat.

Ltac ini := repeat (apply Forall2_cons; [cbn; repeat split; cbn; lia|]); apply Forall2_nil.

Lemma updown_initial_sizes : has_states [("q1", d); ("q2", e)] "" N D (updown_initial ini N D d f).
Proof. ini. Qed.
Lemma second_order_initial_sizes : has_states [("q1", d); ("q2", d)] "" N D (second_order_initial ini N D d).
Proof. ini. Qed.
Lemma simple_initial_sizes : has_states [("q1", d)] "" N D (simple_initial ini N D d).
Proof. ini. Qed.
Lemma symmetrized_initial_sizes : has_states [("q1", d); ("q2", e); ("q3", d)] "" N D (symmetrized_initial ini N D d f).
Proof. ini. Qed.
Lemma dampened_initial_sizes : dampened_sizes N D (dampened_initial ini N D d f).
Proof. do 4 eexists. split; [reflexivity|]. repeat split. Qed.

Variable x : t3.
Hypothesis Hx : of_shape N D d x.

Lemma updown_data_sizes mode : mode_of_sizes D d e mode ->
  exists s, updown_data nl f mode x = Ok s /\ has_states [("q1", d); ("q2", e)] "" N D s.
Proof.
  intros Hm. destruct Hx as [X0 [X1 X2]]. destruct mode as [|q20|l|l1 l2]; cbn in Hm; unfold updown_data.
  - eexists. split; [reflexivity|]. repeat (apply Forall2_cons; [cbn; repeat split; cbn; congruence|]). apply Forall2_nil.
  - eexists. split; [reflexivity|]. destruct Hm. repeat (apply Forall2_cons; [cbn; repeat split; cbn; congruence|]). apply Forall2_nil.
  - destruct Hm as [A [B C]]. destruct (forward_is l x N D d e true (v3 x) A B C (own3 _ _ _ _ Hx)) as [y [E [[Y0 [Y1 Y2]] _]]].
    rewrite E. cbn [bind]. eexists. split; [reflexivity|]. repeat (apply Forall2_cons; [cbn; repeat split; cbn; congruence|]). apply Forall2_nil.
  - destruct Hm as [[A [B C]] [A' [B' C']]]. destruct (forward_is l1 x N D d _ true (v3 x) A B C (own3 _ _ _ _ Hx)) as [y [E Hy]].
    rewrite E. cbn [bind].
    destruct (forward_is l2 (map3 nl y) N D _ e true _ A' B' C' (map3_is nl _ _ _ _ _ Hy)) as [y' [E' [[Y0 [Y1 Y2]] _]]].
    rewrite E'. cbn [bind]. eexists. split; [reflexivity|]. repeat (apply Forall2_cons; [cbn; repeat split; cbn; congruence|]). apply Forall2_nil.
Qed.

Ltac dat := destruct Hx as [X0 [X1 X2]]; repeat (apply Forall2_cons; [cbn; repeat split; cbn; congruence|]); apply Forall2_nil.
Lemma second_order_data_sizes : has_states [("q1", d); ("q2", d)] "" N D (second_order_data x). Proof. dat. Qed.
Lemma simple_data_sizes : has_states [("q1", d)] "" N D (simple_data x). Proof. dat. Qed.
Lemma symmetrized_data_sizes : has_states [("q1", d); ("q2", e); ("q3", d)] "" N D (symmetrized_data f x). Proof. dat. Qed.
Lemma dampened_data_sizes : dampened_sizes N D (dampened_data f x).
Proof. destruct Hx as [X0 [X1 X2]]. do 4 eexists. split; [reflexivity|]. repeat split; cbn; congruence. Qed.
End Initial.
End Shapes.

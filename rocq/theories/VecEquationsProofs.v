(** The vector models compute their equations. *)
From Coq Require Import List String Reals Arith Lia Lra Bool.
From Verif Require Import Base Tensor RealSum VecNet VecModel VecInit VecSpec VecProofs VecProofs2 VecProofs3 VecProofs4 VecProofs5 VecProofs8
  VecEquationsSpec.
Import ListNotations.
Open Scope string_scope.
Open Scope R_scope.

Section Equations.
Variable nl : R -> R.
Variable init : inits.
Variables d f : nat.
Notation e := (d * f)%nat.
Variable W : option R.
Variable ow : R.
Let d0 := (fun _ : R => 0).

Lemma maps_forward l th o (x : nat -> R) k : sd_get o th = Some l ->
  rsum (m1 (lin_weight l)) (fun j => x j * v2 (lin_weight l) k j) + bias_value l k = maps th o x k.
Proof.
  intros E. unfold maps. rewrite E. unfold affine, bias_value. f_equal. apply rsum_ext; intros. apply Rmult_comm.
Qed.

Lemma affine_is l (x : nat -> R) k inn : m1 (lin_weight l) = inn ->
  rsum inn (fun j => x j * v2 (lin_weight l) k j) + bias_value l k = affine l x k.
Proof. intros <-. unfold affine, bias_value. f_equal. apply rsum_ext; intros. apply Rmult_comm. Qed.

Ltac entries :=
  let a := fresh "a" in let Ex := fresh "Ex" in let Er := fresh "Er" in let Ee := fresh "Ee" in let R := fresh "R" in
  intros a ? ? ? ? ? ? ? ? ? Ex Er Ee R;
  repeat (destruct a as [|a]; [cbn in Ex, Er, Ee; injection Ex as <- <-; injection Er as <- <-; injection Ee as <- <-;
     match goal with Hx : is3 _ _ _ _ ?x, R : in_range ?x _ _ _, Hy : is3 _ _ _ _ ?y |- v3 ?y ?n ?i ?k = _ =>
       let T := fresh "T" in
       pose proof (proj2 Hy n i k) as T; cbv beta in T; destruct Hx as [[? [? ?]] _]; destruct R as [? [? ?]];
       rewrite T by congruence; clear T end;
     unfold maps, features, of_all; sdi;
     repeat match goal with H : m1 (lin_weight ?l) = ?n |- context [rsum ?n (fun j => @?x j * v2 (lin_weight ?l) ?k j) + bias_value ?l ?k] =>
        rewrite (affine_is l x k n H) end; try reflexivity|]);
  try match goal with X : nth_error _ _ = Some _, a : nat |- _ => cbn in X; destruct a; discriminate X end.

Ltac dshapes := repeat (apply Forall2_cons; [split; [reflexivity|
   match goal with Hx : is3 _ _ _ _ ?x, Hy : is3 _ _ _ _ ?y |- same_shape (snd (_, ?x)) (snd (_, ?y)) =>
     destruct Hx as [[? [? ?]] _]; destruct Hy as [[? [? ?]] _]; cbn [snd]; unfold same_shape; repeat split; congruence end]|]); apply Forall2_nil.

Ltac dims := repeat match goal with
  | H : context [dim ?G ?i] |- _ => let v := eval cbn in (dim G i) in change (dim G i) with v in *
  end.

Ltac run Hs Hth G P rhs :=
  let Ho := fresh "Ho" in
  pose proof (same_objects_ok G _ P _ Hth) as Ho; clear Hth;
  conf Hs Ho; owns; split_pars Ho; unfold rhs; steps; eexists; split; [reflexivity|]; dims;
  split; [dshapes|split; [reflexivity|]].

Lemma updown_obeys : obeys (updown_rhs nl) (updown_objects init d f W) [("q1", d); ("q2", e)] (updown_eqs nl).
Proof. intros N D s th Hs Hth. run Hs Hth (updown_net nl d0 d e) (updown_pars_ok nl d0 init d f W) updown_rhs. entries. Qed.
Lemma universal_obeys : obeys (universal_rhs nl) (universal_objects init d f W ow) [("q1", d); ("q2", e)] (universal_eqs nl).
Proof. intros N D s th Hs Hth. run Hs Hth (universal_net nl d0 d e) (universal_pars_ok nl d0 init d f W ow) universal_rhs. entries. Qed.
Lemma general_obeys : obeys (general_rhs nl) (general_objects init d f W) [("q1", d); ("q2", e)] (general_eqs nl).
Proof.
  intros N D s th Hs Hth. run Hs Hth (general_net nl d0 d e) (general_pars_ok nl d0 init d f W) general_rhs. entries.
  unfold general_dampening. rewrite Rmult_0_l, Rminus_0_r. reflexivity.
Qed.
Lemma simple_obeys : obeys (simple_rhs nl) (simple_objects init d W) [("q1", d)] (simple_eqs nl).
Proof. intros N D s th Hs Hth. run Hs Hth (simple_net nl d0 d) (simple_pars_ok nl d0 init d W) simple_rhs. entries. Qed.
Lemma debug_obeys : obeys (debug_rhs nl) (debug_objects init d W) [("q1", d); ("q2", d)] (debug_eqs nl).
Proof. intros N D s th Hs Hth. run Hs Hth (debug_net nl d0 d) (debug_pars_ok nl d0 init d W) debug_rhs. entries. Qed.
Lemma dampened_q2_obeys : obeys (dampened_q2_rhs nl) (updown_objects init d f W) [("q1", d); ("q2", e)] (dampened_q2_eqs nl).
Proof.
  intros N D s th Hs Hth. run Hs Hth (dampened_q2_net nl d0 d e) (dampened_q2_pars_ok nl d0 init d f W) dampened_q2_rhs. entries.
  match goal with |- ?A - _ = ?C + _ => change C with A end. unfold dampened_q2_factor. lra.
Qed.
Lemma symmetrized_obeys : obeys (symmetrized_rhs nl) (symmetrized_objects init d 1 W) [("q1", d); ("q2", d); ("q3", d)] (symmetrized_eqs nl).
Proof. intros N D s th Hs Hth. run Hs Hth (symmetrized_net nl d0 d) (symmetrized_pars_ok nl d0 init d W) symmetrized_rhs. entries. Qed.
Lemma periodic_obeys : obeys (periodic_rhs nl) (periodic_objects init d f W) [("q1", d); ("q2", e)] (periodic_eqs nl).
Proof. intros N D s th Hs Hth. run Hs Hth (periodic_net nl d0 d e) (periodic_pars_ok nl d0 init d f W) periodic_rhs. entries. Qed.
Lemma second_order_obeys : obeys (second_order_rhs nl) (second_order_objects init d W) [("q1", d); ("q2", d)] (updown_eqs nl).
Proof.
  assert (P : pars_ok (updown_net nl d0 d d) (second_order_objects init d W)).
  { unfold pars_ok, second_order_objects, debug_objects. repeat (apply Forall2_cons; [unfold layer_ok; cbn; eauto 8|]). apply Forall2_nil. }
  intros N D s th Hs Hth. unfold second_order_rhs. run Hs Hth (updown_net nl d0 d d) P updown_rhs. entries.
Qed.
Lemma ot_obeys : obeys (ot_rhs nl) (ot_objects init d 1 W) [("q1", d); ("q2", d)] (updown_eqs nl).
Proof.
  assert (P : pars_ok (updown_net nl d0 d d) (ot_objects init d 1 W)).
  { unfold pars_ok, ot_objects. repeat (apply Forall2_cons; [unfold layer_ok; cbn; rewrite ?Nat.mul_1_r; eauto 8|]). apply Forall2_nil. }
  intros N D s th Hs Hth. unfold ot_rhs. run Hs Hth (updown_net nl d0 d d) P updown_rhs. entries.
Qed.

Lemma zip3_column_is op x y N D k g h : is3 N 1 1 g x -> is3 N D k h y ->
  exists z, zip3 op x y = Ok z /\ is3 N D k (fun n i j => op (g n 0%nat 0%nat) (h n i j)) z.
Proof.
  intros [[X0 [X1 X2]] Hx] [[Y0 [Y1 Y2]] Hy]. unfold zip3. rewrite X0, X1, X2, Y0, Y1, Y2, !bdim_1_l. unfold bdim. rewrite Nat.eqb_refl.
  cbn [bind]. eexists. split; [reflexivity|]. split; [repeat split|]. cbn [v3]. intros n i j Hn Hi Hj.
  rewrite !bidx_refl, (bidx_1 D), (bidx_1 k) by assumption. rewrite Hx, Hy by (auto; lia). reflexivity.
Qed.

Lemma dampened_obeys N D c1 c2 q1 q2 th : of_shape N 1 1 c1 -> of_shape N 1 1 c2 -> of_shape N D d q1 -> of_shape N D e q2 ->
  same_objects (updown_objects init d f W) th ->
  exists r, dampened_rhs nl [("c1", c1); ("c2", c2); ("q1", q1); ("q2", q2)] th = Ok r /\ dampened_solves nl c1 c2 q1 q2 th r.
Proof.
  intros C1 C2 Q1 Q2 Hth.
  destruct (dampened_shapes nl init d f W N D [("c1", c1); ("c2", c2); ("q1", q1); ("q2", q2)] th) as [r0 [E0 D0]].
  { exists c1, c2, q1, q2. auto. } { exact Hth. }
  exists r0. split; [exact E0|]. split; [exact D0|]. revert E0.
  pose proof (same_objects_ok (updown_net nl d0 d e) _ (updown_pars_ok nl d0 init d f W) _ Hth) as Ho; clear Hth D0.
  split_pars Ho. owns.
  destruct (zip3_column_is Rmult (map3 nl c1) q1 N D d _ _ (map3_is nl _ _ _ _ _ C1) Q1) as [z1 [Z1 S1]].
  destruct (zip3_column_is Rmult (map3 nl c2) q2 N D e _ _ (map3_is nl _ _ _ _ _ C2) Q2) as [z2 [Z2 S2]].
  unfold dampened_rhs. sdi. rewrite Z1, Z2. sdi. steps. dims. intros X. injection X as <-.
  do 4 eexists. split; [reflexivity|]. split; [reflexivity|]. split; [reflexivity|].
  split; intros n i k R; unfold maps, features, of_all; sdi.
  - match goal with |- v3 ?y _ _ _ = _ => match goal with Hy : is3 _ _ _ _ y |- _ => pose proof (proj2 Hy n i k) as T end end.
    destruct Q1 as [[? [? ?]] _]. destruct R as [? [? ?]]. cbv beta in T. rewrite T by congruence.
    match goal with B : m1 (lin_weight ?l) = e |- context [affine ?l ?x k] => rewrite (affine_is l x k e B) end. reflexivity.
  - match goal with |- v3 ?y _ _ _ = _ => match goal with Hy : is3 _ _ _ _ y |- _ => pose proof (proj2 Hy n i k) as T end end.
    destruct Q2 as [[? [? ?]] _]. destruct R as [? [? ?]]. cbv beta in T. rewrite T by congruence.
    match goal with B : m1 (lin_weight ?l) = d |- context [affine ?l ?x k] => rewrite (affine_is l x k d B) end. reflexivity.
Qed.
End Equations.

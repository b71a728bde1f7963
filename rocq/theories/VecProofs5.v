(** Default layers and the hand-written parameter formulas of the vector models. *)
From Coq Require Import List String Reals Arith Lia Lra Bool.
From Verif Require Import Base Tensor RealSum VecNet VecModel VecSpec VecProofs VecProofs2 VecProofs3 VecProofs4.
Import ListNotations.
Open Scope string_scope.
Open Scope R_scope.

Section Parameters.
Variables nl dnl : R -> R.
Hypothesis Hnl : forall x, derivable_pt_lim nl x (dnl x).
Variable init : inits.
Variables d f : nat.
Notation e := (d * f)%nat.
Variable W : option R.
Hypothesis HW : effective W <> 0.
Variable ow : R.
Hypothesis How : ow <> 0.

Lemma id_derivable x : derivable_pt_lim idl x (one x).
Proof. apply derivable_pt_lim_id. Qed.

Ltac nok := repeat (apply Forall_cons; [cbn; split; [lia|split; [lia|first [exact Hnl|exact id_derivable]]]|]); apply Forall_nil.
Ltac pok := unfold pars_ok; repeat (apply Forall2_cons; [unfold layer_ok; cbn; rewrite ?Nat.mul_1_r; repeat split; eauto|]); apply Forall2_nil.
Ltac wok := unfold weights_ok; repeat (apply Forall_cons; [cbn; auto|]); apply Forall_nil.

Lemma updown_net_ok : net_ok (updown_net nl dnl d e). Proof. nok. Qed.
Lemma updown_pars_ok : pars_ok (updown_net nl dnl d e) (updown_objects init d f W). Proof. pok. Qed.
Lemma updown_weights_ok : weights_ok (updown_objects init d f W). Proof. wok. Qed.
Lemma universal_net_ok : net_ok (universal_net nl dnl d e). Proof. nok. Qed.
Lemma universal_pars_ok : pars_ok (universal_net nl dnl d e) (universal_objects init d f W ow). Proof. pok. Qed.
Lemma universal_weights_ok : weights_ok (universal_objects init d f W ow). Proof. wok. Qed.
Lemma general_net_ok : net_ok (general_net nl dnl d e). Proof. nok. Qed.
Lemma general_pars_ok : pars_ok (general_net nl dnl d e) (general_objects init d f W). Proof. pok. Qed.
Lemma general_weights_ok : weights_ok (general_objects init d f W). Proof. wok. Qed.
Lemma simple_net_ok : net_ok (simple_net nl dnl d). Proof. nok. Qed.
Lemma simple_pars_ok : pars_ok (simple_net nl dnl d) (simple_objects init d W). Proof. pok. Qed.
Lemma simple_weights_ok : weights_ok (simple_objects init d W). Proof. wok. Qed.
Lemma debug_net_ok : net_ok (debug_net nl dnl d). Proof. nok. Qed.
Lemma debug_pars_ok : pars_ok (debug_net nl dnl d) (debug_objects init d W). Proof. pok. Qed.
Lemma debug_weights_ok : weights_ok (debug_objects init d W). Proof. wok. Qed.
Lemma dampened_q2_net_ok : net_ok (dampened_q2_net nl dnl d e). Proof. nok. Qed.
Lemma dampened_q2_pars_ok : pars_ok (dampened_q2_net nl dnl d e) (updown_objects init d f W). Proof. pok. Qed.
Lemma symmetrized_net_ok : net_ok (symmetrized_net nl dnl d). Proof. nok. Qed.
Lemma symmetrized_pars_ok : pars_ok (symmetrized_net nl dnl d) (symmetrized_objects init d 1 W).
Proof. pok; eexists; cbn; repeat split; cbn; lia. Qed.
Lemma symmetrized_weights_ok : weights_ok (symmetrized_objects init d 1 W). Proof. wok. Qed.
Lemma periodic_net_ok : net_ok (periodic_net nl dnl d e). Proof. nok. Qed.
Lemma periodic_pars_ok : pars_ok (periodic_net nl dnl d e) (periodic_objects init d f W). Proof. pok. Qed.
Lemma periodic_weights_ok : weights_ok (periodic_objects init d f W). Proof. wok. Qed.

(** ** Parameter formulas *)
Section Formulas.
Variables N D : nat.
Hypothesis HN : (0 < N)%nat.

Lemma mean_entry t a b F i k : is3 N a b F t -> (i < a)%nat -> (k < b)%nat ->
  rsum (n0 t) (fun n => v3 t n i k) / INR (n0 t) = rsum N (fun n => F n i k) / INR N.
Proof. intros [[E0 _] H] Hi Hk. rewrite E0. f_equal. apply rsum_ext; auto. Qed.

(** The formula's weights are those of the net; the sizes are the default ones; biases likewise if
    the particles have dimension 1. *)
Definition formula_ok (G : net) (os : pars) (s c : states) (th : pars) : Prop :=
  Forall2 (fun x y => fst x = fst y /\ same_sizes (lin_weight (snd x)) (lin_weight (snd y))
             /\ weight_of_weight (snd x) = weight_of_weight (snd y)) os th
  /\ (forall l k j, (l < NL G)%nat -> (k < dim G (tgt G l))%nat -> (j < dim G (src G l))%nat ->
        wweight os l * wentry th l k j = gWof G N D s c l k j)
  /\ (D = 1%nat -> same_objects os th /\ optimal_entries G N D s c os th).

Ltac mm33 E H :=
  match goal with
  | |- context [bind (matmul33 ?x ?y) _] =>
      let z := fresh "z" in
      edestruct (matmul33_is x y) as [z [E H]];
      [ repeat (first [eassumption | apply map3_is | apply transpose12_is])
      | repeat (first [eassumption | apply map3_is | apply transpose12_is])
      | rewrite E; cbn [bind] ]
  end.
Ltac mms := sdi; repeat (let E := fresh "E" in let H := fresh "H" in mm33 E H; sdi).

Lemma INR_N : INR N <> 0. Proof. apply not_0_INR. lia. Qed.

Ltac means := repeat match goal with
  H : is3 N _ _ _ ?t |- context [rsum (n0 ?t) (fun n => v3 ?t n ?i ?k) / INR (n0 ?t)] =>
    rewrite (mean_entry t _ _ _ i k H) by (assumption || lia) end.
Ltac wfin := cbn; unfold gWof, gbof, gW, gb; cbn; means; unfold idl;
  match goal with |- _ = / INR N * ?r =>
    match goal with |- context [rsum N ?g / INR N] => transitivity (rsum N g / INR N);
      [field; repeat split; (exact INR_N || assumption)|
       unfold Rdiv; rewrite Rmult_comm; f_equal; apply rsum_ext; intros; apply rsum_ext; intros; ring] end end.
Ltac bfin := cbn; unfold gWof, gbof, gW, gb; cbn; means; unfold idl;
  match goal with |- _ = / INR N * ?r =>
    match goal with |- context [rsum N ?g / INR N] => transitivity (rsum N g / INR N);
      [field; repeat split; (exact INR_N || assumption)|
       unfold Rdiv; rewrite Rmult_comm; f_equal; apply rsum_ext; intros; cbn; ring] end end.
Ltac sizes := repeat match goal with H : is3 _ _ _ _ _ |- _ => destruct H as [[? [? ?]] _] end; cbn in *; lia || congruence || auto.
Ltac objs := repeat (apply Forall2_cons; [cbn; repeat split; sizes|]); apply Forall2_nil.
Ltac wcases :=
  let l := fresh "l" in let Hl := fresh in let Hk := fresh in let Hj := fresh in
  intros l ? ? Hl Hk Hj; repeat (destruct l as [|l]; [cbn in Hk, Hj; wfin|]); cbn in Hl; lia.
Ltac bcases :=
  let l := fresh "l" in let Hl := fresh in let Hb := fresh in let Hk := fresh in
  intros l ? Hl Hb Hk; repeat (first [exfalso; cbn in Hl; lia|destruct l as [|l]; [first [discriminate Hb|cbn in Hk; bfin]|]]).
Ltac stores :=
  match goal with |- exists th, ?E = Ok th /\ _ =>
    let E' := eval lazy -[mean0 tr transpose12 map2 map3 Rdiv Rmult Rinv Rplus INR IZR Nat.mul bias_of] in E in
    match E' with Ok ?t => exists t; split; [lazy -[mean0 tr transpose12 map2 map3 Rdiv Rmult Rinv Rplus INR IZR Nat.mul bias_of]; reflexivity|] end end.
Lemma and_keep (A B : Prop) : A -> (A -> B) -> A /\ B. Proof. tauto. Qed.
Ltac formula := split; [objs|]; apply and_keep; [wcases|
  let H := fresh "HWs" in intros H HD; split; [objs|split; [exact H|clear H; revert HD; intros ->; bcases]]].

Lemma updown_formula s c :
  has_states [("q1", d); ("q2", e)] "" N D s -> has_states [("q1", d); ("q2", e)] "p_" N D c ->
  exists th, updown_parameters nl init d f W s c = Ok th
    /\ formula_ok (updown_net nl dnl d e) (updown_objects init d f W) s c th.
Proof.
  intros Hs Hp. conf Hs Hs; conf Hp Hp; owns. unfold updown_parameters. mms.
  destruct W as [w|]; cbn in HW; stores; formula.
Qed.

Lemma universal_formula s c :
  has_states [("q1", d); ("q2", e)] "" N D s -> has_states [("q1", d); ("q2", e)] "p_" N D c ->
  exists th, universal_parameters nl init d f W ow s c = Ok th
    /\ formula_ok (universal_net nl dnl d e) (universal_objects init d f W ow) s c th.
Proof.
  intros Hs Hp. conf Hs Hs; conf Hp Hp; owns. unfold universal_parameters. mms.
  destruct W as [w|]; cbn in HW; stores; formula.
Qed.

Lemma general_formula s c :
  has_states [("q1", d); ("q2", e)] "" N D s -> has_states [("q1", d); ("q2", e)] "p_" N D c ->
  exists th, general_parameters nl init d f W s c = Ok th
    /\ formula_ok (general_net nl dnl d e) (general_objects init d f W) s c th.
Proof.
  intros Hs Hp. conf Hs Hs; conf Hp Hp; owns. unfold general_parameters. mms.
  destruct W as [w|]; cbn in HW; stores; formula.
Qed.

Lemma symmetrized_formula s c :
  has_states [("q1", d); ("q2", d); ("q3", d)] "" N D s -> has_states [("q1", d); ("q2", d); ("q3", d)] "p_" N D c ->
  exists th, symmetrized_parameters nl init d 1 W s c = Ok th
    /\ formula_ok (symmetrized_net nl dnl d) (symmetrized_objects init d 1 W) s c th.
Proof.
  intros Hs Hp. conf Hs Hs; conf Hp Hp; owns. unfold symmetrized_parameters. mms.
  destruct W as [w|]; cbn in HW; stores; formula.
Qed.

Lemma periodic_formula s c :
  has_states [("q1", d); ("q2", e)] "" N D s -> has_states [("q1", d); ("q2", e)] "p_" N D c ->
  exists th, periodic_parameters nl init d f W s c = Ok th
    /\ formula_ok (periodic_net nl dnl d e) (periodic_objects init d f W) s c th.
Proof.
  intros Hs Hp. conf Hs Hs; conf Hp Hp; owns. unfold periodic_parameters. mms.
  destruct W as [w|]; cbn in HW; stores; formula.
Qed.

(** The loop over particles (sm.py:1244-1247) if the particles have dimension 1. *)
Lemma bdim_1_l a : bdim 1 a = Ok a.
Proof. unfold bdim. destruct (Nat.eqb_spec 1 a); [subst; reflexivity|reflexivity]. Qed.

Lemma weight_loop_is q p : of_shape N 1 d q -> of_shape N 1 d p ->
  exists z, weight_loop nl d N q p = Ok z /\
    is2 d d (fun i k => rsum N (fun n => v3 p n 0 k * nl (v3 q n 0 i)) / INR N) z.
Proof.
  intros [Q0 [Q1 Q2]] [P0 [P1 P2]]. unfold weight_loop.
  match goal with |- exists z, bind (foldM ?F _ _) _ = _ /\ _ => set (step := F) end.
  assert (Hstep : forall a At, (a < N)%nat -> m0 At = d -> m1 At = d ->
     exists z, step At a = Ok z /\ is2 d d (fun i k => v2 At i k + v3 p a 0 k * nl (v3 q a 0 i)) z).
  { intros a At Ha A0 A1. unfold step, row. rewrite Q0, P0. destruct (Nat.ltb_spec a N); [|lia]. cbn [bind].
    unfold zip2 at 1. cbn [m0 m1 tr map2]. rewrite Q1, P1, Q2, P2, bdim_1, bdim_1_l. cbn [bind].
    unfold zip2. cbn [m0 m1 tr]. rewrite A0, A1. unfold bdim. rewrite !Nat.eqb_refl. cbn [bind].
    eexists. split; [reflexivity|]. repeat split; auto. cbn [v2 tr map2 m0 m1]. intros i k Hi Hk.
    rewrite !bidx_refl, !bidx_1 by auto. reflexivity. }
  assert (H : forall m a At, (a + m = N)%nat -> is2 d d (fun i k => rsum a (fun n => v3 p n 0 k * nl (v3 q n 0 i))) At ->
     exists z, foldM step (seq a m) At = Ok z /\ is2 d d (fun i k => rsum N (fun n => v3 p n 0 k * nl (v3 q n 0 i))) z).
  { clearbody step. induction m as [|m IH]; intros a At Ha HAt; cbn [seq foldM].
    - exists At. split; auto. replace N with a by lia. exact HAt.
    - destruct HAt as [A0 [A1 Hv]]. destruct (Hstep a At) as [z [-> [Z0 [Z1 Hz]]]]; auto; [lia|]. cbn [bind].
      apply IH; [lia|]. repeat split; auto. intros i k Hi Hk. rewrite Hz, Hv by auto. reflexivity. }
  destruct (H N O (mkT2 d d (fun _ _ => 0))) as [z [-> [Z0 [Z1 Hz]]]]; [lia|repeat split; auto|]. cbn [bind].
  destruct (Nat.eqb_spec N 0); [lia|]. eexists. split; [reflexivity|]. repeat split; auto.
  cbn. intros i k Hi Hk. rewrite Hz by auto. field. apply INR_N.
Qed.

Ltac wloop E H :=
  match goal with |- context [weight_loop nl d N ?q ?p] =>
    destruct (weight_loop_is q p) as [? [E H]]; auto; rewrite E; cbn [bind] end.
Ltac lfin := cbn; unfold gWof, gbof, gW, gb; cbn;
  repeat match goal with H : is2 d d _ ?z |- context [v2 ?z ?i ?k] => rewrite (proj2 (proj2 H) i k) by assumption end;
  repeat match goal with H : of_shape N 1 d ?p |- _ => rewrite (proj1 H); clear H end;
  match goal with |- _ = / INR N * rsum N ?r =>
    transitivity (rsum N r / INR N); [|field; exact INR_N];
    match goal with |- context [rsum N ?g] =>
      replace (rsum N g) with (rsum N r) by (apply rsum_ext; intros; ring);
      field; repeat split; (exact INR_N || assumption) end end.
Ltac lcases :=
  let l := fresh "l" in let Hl := fresh in let Hk := fresh in let Hj := fresh in
  intros l ? ? Hl Hk Hj; repeat (first [exfalso; cbn in Hl; lia|destruct l as [|l]; [cbn in Hk, Hj; lfin|]]).
Ltac lbcases :=
  let l := fresh "l" in let Hl := fresh in let Hb := fresh in let Hk := fresh in
  intros l ? Hl Hb Hk; repeat (first [exfalso; cbn in Hl; lia|destruct l as [|l]; [cbn in Hk; lfin|]]).
Ltac lsizes := repeat match goal with H : is2 d d _ ?z |- _ => destruct H as [? [? _]]
  | H : of_shape _ _ _ _ |- _ => destruct H as [? [? ?]] end; cbn in *; lia || congruence || auto.
Ltac lobjs := repeat (apply Forall2_cons; [cbn; repeat split; lsizes|]); apply Forall2_nil.

Lemma simple_formula s c : D = 1%nat ->
  has_states [("q1", d)] "" N D s -> has_states [("q1", d)] "p_" N D c ->
  exists th, simple_parameters nl init d W N s c = Ok th
    /\ same_objects (simple_objects init d W) th
    /\ optimal_entries (simple_net nl dnl d) N D s c (simple_objects init d W) th.
Proof.
  intros -> Hs Hp. conf Hs Hs; conf Hp Hp. unfold simple_parameters. sdi. wloop E H'.
  destruct W as [w|]; cbn in HW; stores; (split; [lobjs|split; [lcases|lbcases]]).
Qed.

Lemma debug_formula s c : D = 1%nat ->
  has_states [("q1", d); ("q2", d)] "" N D s -> has_states [("q1", d); ("q2", d)] "p_" N D c ->
  exists th, debug_parameters nl init d W N s c = Ok th
    /\ same_objects (debug_objects init d W) th
    /\ optimal_entries (debug_net nl dnl d) N D s c (debug_objects init d W) th.
Proof.
  intros -> Hs Hp. conf Hs Hs; conf Hp Hp. unfold debug_parameters. sdi. wloop E H'.
  match goal with |- context [weight_loop nl d N ?q ?p] =>
    destruct (weight_loop_is q p) as [? [E2 ?]]; auto; rewrite E2; cbn [bind] end.
  destruct W as [w|]; cbn in HW; stores; (split; [lobjs|split; [lcases|lbcases]]).
Qed.
End Formulas.
End Parameters.

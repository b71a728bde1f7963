(** Each shipped vector model conforms to its net. *)
From Coq Require Import List String Reals Arith Lia Lra Bool.
From Verif Require Import Base Tensor RealSum VecNet VecModel VecSpec VecProofs VecProofs2 VecProofs3.
Import ListNotations.
Open Scope string_scope.
Open Scope R_scope.

Ltac sdi := cbn [sd_item sd_get String.eqb Ascii.eqb Bool.eqb bind String.append].

(** Take apart the list of layers. *)
Ltac split_pars H :=
  unfold pars_ok in H; cbn [net_layers] in H;
  repeat (let o := fresh "o" in let m := fresh "m" in let r := fresh "os" in let E := fresh "E" in
          let P := fresh "P" in let H' := fresh "H" in
          apply conses in H; destruct H as [[o m] [r [E [P H']]]]; subst;
          let A := fresh "A" in let B := fresh "B" in let C := fresh "C" in let N := fresh "N" in
          destruct P as [N [A [B C]]]; cbn [fst snd l_name l_tgt l_src l_bias] in N, A, B, C; subst;
          rename H' into H);
  inversion H; subst; clear H.

Lemma bias_fits_true m b out : (exists b, lin_bias m = Some b /\ m0 b = 1%nat /\ m1 b = out) -> b = true -> bias_fits m b out.
Proof. intros H ->. exact H. Qed.
Lemma bias_fits_false m b out : lin_bias m = None -> b = false -> bias_fits m b out.
Proof. intros H ->. exact H. Qed.

Ltac fwd E H :=
  match goal with
  | |- context [bind (forward ?m ?x) _] =>
      let y := fresh "y" in
      edestruct (forward_is m x) as [y [E H]];
      [ eassumption | eassumption
      | first [eapply bias_fits_true; [eassumption|reflexivity] | eapply bias_fits_false; [eassumption|reflexivity]]
      | first [eassumption | apply map3_is; eassumption]
      | rewrite E; cbn [bind] ]
  end.

Ltac zipit E H :=
  match goal with
  | |- context [bind (zip3 ?f ?x ?y) _] =>
      let z := fresh "z" in
      edestruct (zip3_is f x y) as [z [E H]];
      [ repeat (first [eassumption | apply map3_is]) | repeat (first [eassumption | apply map3_is])
      | rewrite E; cbn [bind] ]
  end.

Ltac mm32 E H :=
  match goal with
  | |- context [bind (matmul32 ?x ?w) _] =>
      let y := fresh "y" in
      edestruct (matmul32_is x w) as [y [E H]]; [ eassumption | eassumption | eassumption | rewrite E; cbn [bind] ]
  end.

Ltac steps := sdi; repeat (first
  [ let E := fresh "E" in let H := fresh "H" in fwd E H; sdi
  | let E := fresh "E" in let H := fresh "H" in zipit E H; sdi
  | let E := fresh "E" in let H := fresh "H" in mm32 E H; sdi ]).

Ltac conf Hs Ho :=
  first [ destruct (states1 _ _ _ _ _ _ Hs) as [? [-> ?]]
        | destruct (states2 _ _ _ _ _ _ _ _ Hs) as [? [? [-> [? ?]]]]
        | destruct (states3 _ _ _ _ _ _ _ _ _ _ Hs) as [? [? [? [-> [? [? ?]]]]]] ].
Ltac owns := repeat match goal with H : of_shape _ _ _ _ |- _ => apply own3 in H end.

Section Instances.
Variables nl dnl : R -> R.
Variables d e : nat.

Definition idl (x : R) : R := x.
Definition one (x : R) : R := 1.

Definition updown_net : net :=
  mkNet [("q1", d); ("q2", e)]
        [mkLayer "l1" 0 1 nl dnl true; mkLayer "l2" 1 0 idl one true] (fun _ => 0).

Ltac fin := unfold net_rhs, layer_out, net_costate, hbr, bias_value, ind; cbn;
  repeat match goal with H : lin_bias _ = None |- _ => rewrite H; clear H end; cbn; unfold idl, one; ring.


Definition universal_net : net :=
  mkNet [("q1", d); ("q2", e)]
        [mkLayer "l1" 0 1 nl dnl true; mkLayer "l2" 1 0 idl one true; mkLayer "l3" 1 1 nl dnl false] (fun _ => 0).
Definition general_net : net :=
  mkNet [("q1", d); ("q2", e)]
        [mkLayer "l11" 0 1 nl dnl true; mkLayer "l12" 0 0 idl one false;
         mkLayer "l13" 0 0 nl dnl false; mkLayer "l14" 0 1 idl one false;
         mkLayer "l21" 1 0 idl one true; mkLayer "l22" 1 1 idl one false;
         mkLayer "l23" 1 1 nl dnl false; mkLayer "l24" 1 0 nl dnl false] (fun _ => 0).
Definition simple_net : net := mkNet [("q1", d)] [mkLayer "l1" 0 0 nl dnl true] (fun _ => 0).
Definition debug_net : net :=
  mkNet [("q1", d); ("q2", d)] [mkLayer "l1" 0 0 nl dnl true; mkLayer "l2" 1 1 nl dnl true] (fun _ => 0).
Definition dampened_q2_net : net :=
  mkNet [("q1", d); ("q2", e)]
        [mkLayer "l1" 0 1 nl dnl true; mkLayer "l2" 1 0 idl one true]
        (fun s => match s with 1%nat => dampened_q2_factor | _ => 0 end).
Definition symmetrized_net : net :=
  mkNet [("q1", d); ("q2", d); ("q3", d)]
        [mkLayer "l1" 0 1 nl dnl true; mkLayer "l2" 1 2 nl dnl true; mkLayer "l3" 2 0 idl one true] (fun _ => 0).
Definition periodic_net : net :=
  mkNet [("q1", d); ("q2", e)]
        [mkLayer "l1" 0 1 nl dnl true; mkLayer "l2" 1 0 idl one true; mkLayer "l3" 0 0 idl one false] (fun _ => 0).

Ltac shapes := repeat (apply Forall2_cons; [split; [reflexivity|match goal with H : is3 _ _ _ _ ?y |- of_shape _ _ _ (snd (_, ?y)) => exact (proj1 H) end]|]); apply Forall2_nil.

Ltac values :=
  let a := fresh "a" in let Ex := fresh "Ex" in let Hk := fresh "Hk" in
  intros a ? ? ? ? ? Ex ? ? Hk;
  repeat (destruct a as [|a]; [cbn in Ex; injection Ex as <- <-; cbn in Hk;
     match goal with H : is3 _ _ _ _ ?y |- v3 ?y _ _ _ = _ => rewrite (proj2 H) by assumption end; fin |]);
  cbn in Ex; destruct a; discriminate Ex.

Lemma updown_conforms : conforms updown_net (updown_rhs nl).
Proof.
  intros N D s os Hs Ho. conf Hs Ho. owns. split_pars Ho.
  unfold updown_rhs. steps. eexists. split; [reflexivity|]. split; [shapes|values].
Qed.

Lemma universal_conforms : conforms universal_net (universal_rhs nl).
Proof.
  intros N D s os Hs Ho. conf Hs Ho. owns. split_pars Ho.
  unfold universal_rhs. steps. eexists. split; [reflexivity|]. split; [shapes|values].
Qed.

Lemma general_conforms : conforms general_net (general_rhs nl).
Proof.
  intros N D s os Hs Ho. conf Hs Ho. owns. split_pars Ho.
  unfold general_rhs. steps. eexists. split; [reflexivity|]. split; [shapes|].
  unfold general_dampening in *. values.
Qed.

Lemma simple_conforms : conforms simple_net (simple_rhs nl).
Proof.
  intros N D s os Hs Ho. conf Hs Ho. owns. split_pars Ho.
  unfold simple_rhs. steps. eexists. split; [reflexivity|]. split; [shapes|values].
Qed.

Lemma debug_conforms : conforms debug_net (debug_rhs nl).
Proof.
  intros N D s os Hs Ho. conf Hs Ho. owns. split_pars Ho.
  unfold debug_rhs. steps. eexists. split; [reflexivity|]. split; [shapes|values].
Qed.

Lemma dampened_q2_conforms : conforms dampened_q2_net (dampened_q2_rhs nl).
Proof.
  intros N D s os Hs Ho. conf Hs Ho. owns. split_pars Ho.
  unfold dampened_q2_rhs. steps. eexists. split; [reflexivity|]. split; [shapes|values].
Qed.

Lemma symmetrized_conforms : conforms symmetrized_net (symmetrized_rhs nl).
Proof.
  intros N D s os Hs Ho. conf Hs Ho. owns. split_pars Ho.
  unfold symmetrized_rhs. steps. eexists. split; [reflexivity|]. split; [shapes|values].
Qed.

Lemma periodic_conforms : conforms periodic_net (periodic_rhs nl).
Proof.
  intros N D s os Hs Ho. conf Hs Ho. owns. split_pars Ho.
  unfold periodic_rhs. steps. eexists. split; [reflexivity|]. split; [shapes|values].
Qed.

(** ** Costates *)
Ltac cshapes := repeat (apply Forall2_cons; [split; [reflexivity|
   match goal with |- of_shape _ _ _ (snd (_, ?y)) => cbn [snd] end; repeat split; cbn [n0 n1 n2 map3]; 
   repeat match goal with H : is3 _ _ _ _ _ |- _ => destruct H as [[? [? ?]] _] end; assumption]|]); apply Forall2_nil.

Ltac cvalues :=
  let a := fresh "a" in let Ex := fresh "Ex" in let Hk := fresh "Hk" in
  intros a ? ? ? ? ? Ex ? ? Hk;
  repeat (destruct a as [|a]; [cbn in Ex; injection Ex as <- <-; cbn in Hk; cbn [v3 map3];
     match goal with H : is3 _ _ _ _ ?y |- context [v3 ?y _ _ _] => rewrite (proj2 H) by assumption end; fin |]);
  cbn in Ex; destruct a; discriminate Ex.

Ltac costs Hs Hp Ho := conf Hs Ho; conf Hp Ho; owns; split_pars Ho.

Lemma updown_costates N D : costate_conforms updown_net N D (updown_costate dnl).
Proof.
  intros s c th Hs Hp Ho. costs Hs Hp Ho.
  unfold updown_costate. steps. eexists. split; [reflexivity|]. split; [cshapes|cvalues].
Qed.

Lemma universal_costates N D : costate_conforms universal_net N D (universal_costate dnl).
Proof.
  intros s c th Hs Hp Ho. costs Hs Hp Ho.
  unfold universal_costate. steps. eexists. split; [reflexivity|]. split; [cshapes|cvalues].
Qed.

Lemma general_costates N D : costate_conforms general_net N D (general_costate dnl).
Proof.
  intros s c th Hs Hp Ho. costs Hs Hp Ho.
  unfold general_costate. steps. eexists. split; [reflexivity|]. split; [cshapes|cvalues].
Qed.

Lemma symmetrized_costates N D : costate_conforms symmetrized_net N D (symmetrized_costate dnl).
Proof.
  intros s c th Hs Hp Ho. costs Hs Hp Ho.
  unfold symmetrized_costate. steps. eexists. split; [reflexivity|]. split; [cshapes|cvalues].
Qed.

Lemma periodic_costates N D : costate_conforms periodic_net N D (periodic_costate dnl).
Proof.
  intros s c th Hs Hp Ho. costs Hs Hp Ho.
  unfold periodic_costate. steps. eexists. split; [reflexivity|]. split; [cshapes|cvalues].
Qed.

(** The loop over particles (sm.py:1209-1211). *)
Lemma costate_loop_is N D q p A :
  of_shape N D d q -> of_shape N D d p -> m0 A = d -> m1 A = d ->
  exists z, costate_loop dnl N q p A = Ok z /\
    is3 N D d (fun n i k => - dnl (v3 q n i k) * rsum d (fun j => v3 p n i j * v2 A j k)) z.
Proof.
  intros [Q0 [Q1 Q2]] [P0 [P1 P2]] A0 A1. unfold costate_loop.
  set (g := fun n i k => - dnl (v3 q n i k) * rsum d (fun j => v3 p n i j * v2 A j k)).
  match goal with |- exists z, foldM ?F _ _ = _ /\ _ => set (step := F) end.
  assert (Hstep : forall a acc, (a < N)%nat -> of_shape N D d acc ->
     exists acc', step acc a = Ok acc' /\ of_shape N D d acc' /\
       forall n i k, (i < D)%nat -> (k < d)%nat -> v3 acc' n i k = if Nat.eqb n a then g a i k else v3 acc n i k).
  { intros a acc Ha [S0 [S1 S2]]. unfold step, row. rewrite Q0, P0. destruct (Nat.ltb_spec a N); [|lia]. cbn [bind].
    unfold matmul22. cbn [m1]. rewrite P2, A0, Nat.eqb_refl. cbn [bind].
    unfold zip2. cbn [m0 m1 map2]. rewrite Q1, P1, Q2, A1. unfold bdim. rewrite !Nat.eqb_refl. cbn [bind].
    unfold set_row. rewrite S0. destruct (Nat.ltb_spec a N); [|lia]. cbn [negb m0 m1]. rewrite S1, S2, !Nat.eqb_refl.
    cbn [orb andb bind]. eexists. split; [reflexivity|]. split; [repeat split; auto|].
    cbn [v3]. intros n i k Hi Hk. destruct (Nat.eqb_spec n a); [|reflexivity].
    cbn [v2]. rewrite !bidx_refl. reflexivity. }
  assert (H : forall m a acc, (a + m = N)%nat -> of_shape N D d acc ->
     (forall n i k, (n < a)%nat -> (i < D)%nat -> (k < d)%nat -> v3 acc n i k = g n i k) ->
     exists z, foldM step (seq a m) acc = Ok z /\ is3 N D d g z).
  { clearbody step. induction m as [|m IH]; intros a acc Ha Hs Hv; cbn [seq foldM].
    - exists acc. split; auto. split; [exact Hs|]. intros; apply Hv; auto; lia.
    - destruct (Hstep a acc) as [acc' [-> [Hs' Hv']]]; auto; [lia|]. cbn [bind].
      apply IH; [lia|exact Hs'|]. intros n i k Hn Hi Hk. rewrite Hv' by auto.
      destruct (Nat.eqb_spec n a); [congruence|]. apply Hv; auto; lia. }
  destruct (H N O (zeros_like p)) as [z Hz]; [lia|repeat split; auto|intros; lia|]. eauto.
Qed.

Lemma unused_dot_q_ok N D q l : of_shape N D d q -> m0 (lin_weight l) = d -> m1 (lin_weight l) = d ->
  (exists b, lin_bias l = Some b /\ m0 b = 1%nat /\ m1 b = d) -> exists z, unused_dot_q nl q l = Ok z.
Proof.
  intros [Q0 [Q1 Q2]] W0 W1 [b [E [B0 B1]]]. unfold unused_dot_q, matmul32. cbn [n2 map3 m0 tr]. rewrite Q2, W1, Nat.eqb_refl.
  cbn [bind]. rewrite E. unfold zip3. cbn [n0 n1 n2 m1 tr map3]. rewrite B0, B1, W0, !bdim_1. cbn [bind].
  unfold bdim. rewrite Nat.eqb_refl. cbn [bind]. eauto.
Qed.

Lemma simple_costates N D : costate_conforms simple_net N D (simple_costate nl dnl N).
Proof.
  intros s c th Hs Hp Ho. conf Hs Ho; conf Hp Ho; split_pars Ho.
  unfold simple_costate. sdi. cbn in *.
  match goal with |- context [unused_dot_q nl ?q ?l] =>
    destruct (unused_dot_q_ok N D q l) as [? ->]; auto end. cbn [bind].
  match goal with |- context [costate_loop dnl N ?q ?p ?l] =>
    destruct (costate_loop_is N D q p l) as [? [-> ?]]; auto end. cbn [bind].
  eexists. split; [reflexivity|]. split; [cshapes|cvalues].
Qed.

Lemma debug_costates N D : costate_conforms debug_net N D (debug_costate nl dnl N).
Proof.
  intros s c th Hs Hp Ho. conf Hs Ho; conf Hp Ho; split_pars Ho.
  unfold debug_costate. sdi. 
  match goal with |- context [unused_dot_q nl ?q ?l] =>
    destruct (unused_dot_q_ok N D q l) as [? ->]; auto end. cbn [bind].
  match goal with |- context [costate_loop dnl N ?q ?p ?l] =>
    destruct (costate_loop_is N D q p l) as [? [-> ?]]; auto end. cbn [bind].
  match goal with H : of_shape _ _ _ ?q |- context [unused_dot_q nl ?q ?l] =>
    destruct (unused_dot_q_ok N D q l) as [? Eu]; auto end.
  match goal with H : of_shape _ _ _ ?q |- context [costate_loop dnl N ?q ?p ?l] =>
    destruct (costate_loop_is N D q p l) as [? [Eu' _]]; auto end.
  owns. steps. rewrite Eu. cbn [bind]. rewrite Eu'. cbn [bind]. steps.
  eexists. split; [reflexivity|]. split; [cshapes|cvalues].
Qed.
End Instances.

(** Witnesses against the hand-written equations when the particles have more than one dimension, and
    for the dampened model. *)
From Coq Require Import List String Reals Arith Lia Lra Bool.
From Verif Require Import Base Tensor RealSum VecNet VecModel VecSpec VecProofs VecProofs2 VecProofs3 VecProofs4 VecProofs5 VecProofs6.
Import ListNotations.
Open Scope string_scope.
Open Scope R_scope.

Definition idf (x : R) : R := x.
Definition onef (x : R) : R := 1.
Lemma idf_derivable x : derivable_pt_lim idf x (onef x).
Proof. apply derivable_pt_lim_id. Qed.
Definition init0 : inits := fun _ => (fun _ _ => 0, fun _ => 0).
Definition col (N D : nat) (g : nat -> R) : t3 := mkT3 N D 1 (fun _ i _ => g i).
Definition first (i : nat) : R := match i with O => 1 | _ => 0 end.
Definition second (i : nat) : R := match i with 1%nat => 1 | _ => 0 end.
Definition zero_ (i : nat) : R := 0.

Lemma states_two N D pre x y : of_shape N D 1 x -> of_shape N D 1 y ->
  has_states [("q1", 1%nat); ("q2", 1%nat)] pre N D [(pre ++ "q1", x); (pre ++ "q2", y)].
Proof. intros. repeat constructor; cbn; auto; apply H || apply H0. Qed.

Lemma col_shape N D g : of_shape N D 1 (col N D g). Proof. repeat split. Qed.

Ltac evalOk := lazy -[Rplus Rmult Rdiv Rinv Rminus Ropp INR IZR v3 v2 rsum]; reflexivity.

(** One particle of dimension 2: the bias found by differentiation adds the costate over the dimension,
    the hand-written one does not. *)
Lemma updown_bias_wrong :
  exists s c th th' r r' x x',
    has_states [("q1", 1%nat); ("q2", 1%nat)] "" 1 2 s /\ has_states [("q1", 1%nat); ("q2", 1%nat)] "p_" 1 2 c
    /\ updown_parameters idf init0 1 1 None s c = Ok th
    /\ autodiff_parameters (updown_rhs idf) (updown_objects init0 1 1 None) s c th'
    /\ updown_rhs idf s th = Ok r /\ updown_rhs idf s th' = Ok r'
    /\ nth_error r 0 = Some ("dot_q1", x) /\ nth_error r' 0 = Some ("dot_q1", x') /\ v3 x 0 1 0 = 0 /\ v3 x' 0 1 0 = 1.
Proof.
  set (s := [("q1", col 1 2 zero_); ("q2", col 1 2 zero_)]).
  set (c := [("p_q1", col 1 2 first); ("p_q2", col 1 2 zero_)]).
  assert (Hs : has_states [("q1", 1%nat); ("q2", 1%nat)] "" 1 2 s) by (apply (states_two 1 2 ""); apply col_shape).
  assert (Hp : has_states [("q1", 1%nat); ("q2", 1%nat)] "p_" 1 2 c) by (apply (states_two 1 2 "p_"); apply col_shape).
  pose proof (updown_net_ok idf onef idf_derivable 1 1) as G1.
  pose proof (updown_pars_ok idf onef init0 1 1 None) as G2.
  pose proof (updown_conforms idf onef 1 1) as G4.
  assert (G3 : weights_ok (updown_objects init0 1 1 None)) by (apply updown_weights_ok; cbn; lra).
  destruct (autodiff_exists _ G1 _ G4 _ G2 G3 1 2 s c Hs Hp) as [th' Hth'].
  pose proof Hth' as Hi. apply (autodiff_iff _ G1 _ 1 2 s c _ G4 Hs Hp G2) in Hi. destruct Hi as [HS [_ HB]].
  pose proof (same_objects_ok _ _ G2 _ HS) as Hok.
  destruct (G4 _ _ _ _ Hs Hok) as [r' [Er' [Hr' Hv']]].
  destruct (states2 _ _ _ _ _ _ _ _ Hr') as [x' [y' [-> _]]].
  exists s, c.
  eexists. exists th'. eexists. exists [("dot_" ++ "q1", x'); ("dot_" ++ "q2", y')]. eexists. exists x'.
  split; [exact Hs|]. split; [exact Hp|].
  split; [evalOk|]. split; [exact Hth'|]. split; [evalOk|]. split; [exact Er'|].
  split; [reflexivity|]. split; [reflexivity|]. split.
  - cbn. unfold zero_, idf. field.
  - rewrite (Hv' O _ x' O 1%nat O eq_refl) by (cbn; lia).
    specialize (HB O O). cbn in HB. unfold gbof, gb, bweight in HB. cbn in HB.
    unfold net_rhs, layer_out, hbr, ind. cbn. unfold zero_, idf.
    rewrite Rmult_1_l in HB. rewrite HB by (auto; lia). field.
Qed.

(** The loop of the simple model does not fit particles of other dimensions. *)
Lemma simple_loop_raises nl init d W N D s c : (0 < N)%nat -> D <> 1%nat -> d <> 1%nat -> D <> d ->
  has_states [("q1", d)] "" N D s -> has_states [("q1", d)] "p_" N D c ->
  simple_parameters nl init d W N s c = Raise RuntimeError.
Proof.
  intros HN H1 H2 H3 Hs Hp. conf Hs Hs; conf Hp Hp. unfold simple_parameters. sdi.
  destruct H as [X0 [X1 X2]], H0 as [Y0 [Y1 Y2]]. unfold weight_loop. destruct N as [|N]; [lia|].
  cbn [seq foldM]. unfold row. rewrite X0, Y0. cbn [Nat.ltb Nat.leb bind]. unfold zip2. cbn [m0 m1 tr map2].
  rewrite X1, Y1, X2, Y2. unfold bdim. rewrite (proj2 (Nat.eqb_neq d D)), (proj2 (Nat.eqb_neq d 1)), (proj2 (Nat.eqb_neq D 1)) by auto.
  reflexivity.
Qed.

Definition mat (N D K : nat) (g : nat -> nat -> R) : t3 := mkT3 N D K (fun _ => g).
Definition unit_at (a b : nat) (i k : nat) : R := if Nat.eqb i a then if Nat.eqb k b then 1 else 0 else 0.

(** If the particle dimension is the number of features, the loop runs and its result is wrong. *)
Lemma simple_weights_wrong :
  exists s c th, has_states [("q1", 2%nat)] "" 1 2 s /\ has_states [("q1", 2%nat)] "p_" 1 2 c
    /\ simple_parameters idf init0 2 None 1 s c = Ok th
    /\ ~ autodiff_weights (simple_rhs idf) (simple_objects init0 2 None) s c th.
Proof.
  set (s := [("q1", mat 1 2 2 (unit_at 0 1))]). set (c := [("p_q1", mat 1 2 2 (unit_at 0 0))]).
  assert (Hs : has_states [("q1", 2%nat)] "" 1 2 s) by (repeat constructor).
  assert (Hp : has_states [("q1", 2%nat)] "p_" 1 2 c) by (repeat constructor).
  exists s, c. eexists. split; [exact Hs|]. split; [exact Hp|]. split; [evalOk|].
  intros [_ H].
  specialize (H O "l1" _ _ eq_refl eq_refl O 1%nat ltac:(cbn; lia) ltac:(cbn; lia)).
  pose proof (weight_derivative _ (simple_net_ok idf onef idf_derivable 2) _ 1 2 s c _ (simple_conforms idf onef 2) Hs Hp
     (simple_pars_ok idf onef init0 2 None) O "l1" _ O 1%nat eq_refl ltac:(cbn; lia) ltac:(cbn; lia)) as H'.
  pose proof (has_derivative_unique _ _ _ _ H H') as E. clear - E.
  unfold gWof, gW in E. cbn in E. unfold idf in E. lra.
Qed.

(** The dampened model has the up-down costate equations, without the dampening. *)
Lemma dampened_q2_costates_wrong :
  exists s c th dp, has_states [("q1", 1%nat); ("q2", 1%nat)] "" 1 1 s /\ has_states [("q1", 1%nat); ("q2", 1%nat)] "p_" 1 1 c
    /\ autodiff_parameters (dampened_q2_rhs idf) (updown_objects init0 1 1 None) s c th
    /\ updown_costate onef s c th = Ok dp
    /\ ~ autodiff_costates (dampened_q2_rhs idf) (updown_objects init0 1 1 None) 1 s c dp.
Proof.
  set (s := [("q1", col 1 1 zero_); ("q2", col 1 1 zero_)]).
  set (c := [("p_q1", col 1 1 zero_); ("p_q2", col 1 1 first)]).
  assert (Hs : has_states [("q1", 1%nat); ("q2", 1%nat)] "" 1 1 s) by (apply (states_two 1 1 ""); apply col_shape).
  assert (Hp : has_states [("q1", 1%nat); ("q2", 1%nat)] "p_" 1 1 c) by (apply (states_two 1 1 "p_"); apply col_shape).
  pose proof (dampened_q2_net_ok idf onef idf_derivable 1 1) as G1.
  pose proof (dampened_q2_pars_ok idf onef init0 1 1 None) as G2.
  pose proof (dampened_q2_conforms idf onef 1 1) as G4.
  assert (G3 : weights_ok (updown_objects init0 1 1 None)) by (apply updown_weights_ok; cbn; lra).
  destruct (autodiff_exists _ G1 _ G4 _ G2 G3 1 1 s c Hs Hp) as [th Hth].
  pose proof Hth as Hi. apply (autodiff_iff _ G1 _ 1 1 s c _ G4 Hs Hp G2) in Hi. destruct Hi as [HS [HWt _]].
  pose proof (same_objects_ok _ _ G2 _ HS) as Hok.
  destruct (updown_costates idf onef 1 1 1 1 s c th Hs Hp Hok) as [dp [Edp [Hdp Hv]]].
  exists s, c, th, dp. split; [exact Hs|]. split; [exact Hp|]. split; [exact Hth|]. split; [exact Edp|]. intros Ha.
  destruct (costates_are_autodiff _ G1 _ G4 _ G2 G3 1 1 (le_n 1) (net_costates (dampened_q2_net idf onef 1 1) 1 1) s c th
    (net_costates_conform _ 1 1 (le_n 1)) Hs Hp Hth) as [dp' [Edp' Ha']].
  pose proof (autodiff_costates_unique _ G1 _ G4 _ G2 G3 1 1 s c dp dp' Hs Hp Ha Ha' 1%nat O O O
     ltac:(cbn; lia) ltac:(lia) ltac:(lia) ltac:(cbn; lia)) as E.
  unfold net_costates in Edp'. cbn in Edp'. injection Edp' as <-.
  destruct (states2 _ _ _ _ _ _ _ _ Hdp) as [x [y [-> _]]].
  unfold entry at 1 in E. cbn [nth_error] in E. rewrite (Hv 1%nat _ y O O O eq_refl) in E by (cbn; lia).
  cbn in E. unfold net_costate, ind, damp in E. cbn in E. unfold zero_, onef, one, dampened_q2_factor in E. cbn in E. lra.
Qed.

(** With particles of dimension 2 the reduced Lagrangian changes along the hand-written equations. *)
Lemma energy_changes :
  exists (Q P : R -> states) th r dp F v,
    (forall u, has_states [("q1", 1%nat); ("q2", 1%nat)] "" 1 2 (Q u))
    /\ (forall u, has_states [("q1", 1%nat); ("q2", 1%nat)] "p_" 1 2 (P u))
    /\ updown_parameters idf init0 1 1 None (Q 0) (P 0) = Ok th
    /\ updown_rhs idf (Q 0) th = Ok r /\ updown_costate onef (Q 0) (P 0) th = Ok dp
    /\ moves_along Q 0 r /\ moves_along P 0 dp
    /\ (forall u, reduced_lagrangian (updown_rhs idf) (updown_objects init0 1 1 None) 1 (Q u) (P u) (F u))
    /\ derivable_pt_lim F 0 v /\ v <> 0.
Proof.
  set (Q := fun u : R => [("q1", col 1 2 (fun i => match i with O => 1 | _ => u end));
                          ("q2", col 1 2 (fun i => match i with O => 2 * u | _ => 0 end))]).
  set (P := fun u : R => [("p_q1", col 1 2 (fun i => match i with O => - u | _ => 1 end));
                          ("p_q2", col 1 2 (fun i => match i with O => 1 | _ => 0 end))]).
  assert (HQ : forall u, has_states [("q1", 1%nat); ("q2", 1%nat)] "" 1 2 (Q u)) by (intros; apply (states_two 1 2 ""); apply col_shape).
  assert (HP : forall u, has_states [("q1", 1%nat); ("q2", 1%nat)] "p_" 1 2 (P u)) by (intros; apply (states_two 1 2 "p_"); apply col_shape).
  pose proof (updown_net_ok idf onef idf_derivable 1 1) as G1.
  pose proof (updown_pars_ok idf onef init0 1 1 None) as G2.
  pose proof (updown_conforms idf onef 1 1) as G4.
  assert (G3 : weights_ok (updown_objects init0 1 1 None)) by (apply updown_weights_ok; cbn; lra).
  exists Q, P. do 3 eexists. exists (fun u => red (updown_net idf onef 1 1) (updown_objects init0 1 1 None) 1 2 (Q u) (P u)).
  eexists. split; [exact HQ|]. split; [exact HP|]. split; [evalOk|]. split; [evalOk|]. split; [evalOk|].
  assert (dlin : forall a b (x : R), derivable_pt_lim (fun u => a + b * u) x b).
  { intros a b x. eapply derivable_eq; [|apply (derivable_pt_lim_plus (fun _ => a) (fun u => b * u) x 0 (b * 1));
      [apply derivable_pt_lim_const|apply (derivable_pt_lim_scal (fun u => u)); apply derivable_pt_lim_id]]. ring. }
  assert (HmQ : forall a n i k, (a < 2)%nat -> (n < 1)%nat -> (i < 2)%nat -> (k < 1)%nat ->
     derivable_pt_lim (fun u => entry (Q u) a n i k) 0 (match a, i with O, 1%nat => 1 | 1%nat, O => 2 | _, _ => 0 end)).
  { intros a n i k Ha Hn Hi Hk. destruct a as [|[|a]]; [| |lia]; (destruct i as [|[|i]]; [| |lia]); cbn;
      first [apply derivable_pt_lim_const | apply derivable_pt_lim_id
            | apply (derivable_ext (fun u => 0 + 2 * u)); [intros; ring|apply dlin]]. }
  assert (HmP : forall a n i k, (a < 2)%nat -> (n < 1)%nat -> (i < 2)%nat -> (k < 1)%nat ->
     derivable_pt_lim (fun u => entry (P u) a n i k) 0 (match a, i with O, O => -1 | _, _ => 0 end)).
  { intros a n i k Ha Hn Hi Hk. destruct a as [|[|a]]; [| |lia]; (destruct i as [|[|i]]; [| |lia]); cbn;
      first [apply derivable_pt_lim_const
            | apply (derivable_ext (fun u => 0 + (-1) * u)); [intros; ring|apply dlin]]. }
  split; [|split; [|split; [|split]]].
  - intros a q x o dx n i k Ex Ed [Hn [Hi Hk]].
    destruct a as [|[|a]]; [| |destruct a; discriminate]; cbn in Ex; injection Ex as <- <-; cbn in Hn, Hi, Hk;
      cbn in Ed; injection Ed as <- <-.
    + eapply derivable_eq; [|exact (HmQ O n i k ltac:(lia) Hn Hi Hk)]. cbn. destruct i as [|[|i]]; [| |lia]; unfold idf; field.
    + eapply derivable_eq; [|exact (HmQ 1%nat n i k ltac:(lia) Hn Hi Hk)]. cbn. destruct i as [|[|i]]; [| |lia]; unfold idf; field.
  - intros a q x o dx n i k Ex Ed [Hn [Hi Hk]].
    destruct a as [|[|a]]; [| |destruct a; discriminate]; cbn in Ex; injection Ex as <- <-; cbn in Hn, Hi, Hk;
      cbn in Ed; injection Ed as <- <-.
    + eapply derivable_eq; [|exact (HmP O n i k ltac:(lia) Hn Hi Hk)]. cbn. destruct i as [|[|i]]; [| |lia]; unfold idf, onef; field.
    + eapply derivable_eq; [|exact (HmP 1%nat n i k ltac:(lia) Hn Hi Hk)]. cbn. destruct i as [|[|i]]; [| |lia]; unfold idf, onef; field.
  - intros u. apply (reduced_value _ G1 _ G4 _ G2 G3 1 2); auto.
  - apply (red_derivable _ G1 _ G3 1 2 (le_n 1) Q P
       (fun a _ i _ => match a, i with O, 1%nat => 1 | 1%nat, O => 2 | _, _ => 0 end)
       (fun a _ i _ => match a, i with O, O => -1 | _, _ => 0 end) 0).
    + intros a n i k Ha Hn Hi Hk. apply HmQ; auto. cbn in Ha. destruct a as [|[|a]]; cbn in Hk; lia.
    + intros a n i k Ha Hn Hi Hk. apply HmP; auto. cbn in Ha. destruct a as [|[|a]]; cbn in Hk; lia.
  - cbn. unfold net_costate, net_rhs, layer_out, hbr, ind, optW, optb, gW, gb, sum3. cbn. unfold idf, onef, one, idl, damp, damping; cbn.
    match goal with |- ?x <> 0 => replace x with 1 by field end. lra.
Qed.

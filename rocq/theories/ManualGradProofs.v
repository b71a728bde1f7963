(** Proofs about the comparison of hand-made equations with the package. *)
From Coq Require Import List String Reals Arith Lia Lra.
From Verif Require Import Base RealSum VecNet VecModel VecSpec VecProofs VecProofs2 VecProofs3 VecProofs4 VecProofs5 VecProofs6 VecProofs8
  StandaloneModel VecEquationsSpec VecEquationsProofs ManualGradModel ManualGradSpec.
Import ListNotations.
Open Scope string_scope.
Open Scope R_scope.

Section Proofs.
Variables (nl dnl : R -> R) (init : inits) (N d : nat).
Hypothesis Hnl : forall x, derivable_pt_lim nl x (dnl x).
Hypotheses (HN : (0 < N)%nat) (Hd : (0 < d)%nat).
Let W := Some 1.

Lemma W1 : effective W <> 0. Proof. cbn. lra. Qed.
Lemma N_pos : INR N <> 0. Proof. apply not_0_INR. lia. Qed.
Lemma d_pos : INR d <> 0. Proof. apply not_0_INR. lia. Qed.

Variables q p : t3.
Hypotheses (Hq : of_shape N 1 d q) (Hp : of_shape N 1 d p).

Definition s := [("q1", q)].
Definition c := [("p_q1", p)].
Lemma s_ok : has_states [("q1", d)] "" N 1 s. Proof. apply Forall2_cons; [split; [reflexivity|exact Hq]|apply Forall2_nil]. Qed.
Lemma c_ok : has_states [("q1", d)] "p_" N 1 c. Proof. apply Forall2_cons; [split; [reflexivity|exact Hp]|apply Forall2_nil]. Qed.

Let At_ i k := rsum N (fun n => v3 p n 0 k * nl (v3 q n 0 i)) / (INR d * INR N).
Let bt_ k := rsum N (fun n => v3 p n 0 k) / (INR d * INR N).
Let dq_ n k := rsum d (fun j => nl (v3 q n 0 j) * At_ j k) + bt_ k.
Let dp_ n k := - dnl (v3 q n 0 k) * rsum d (fun j => v3 p n 0 j * At_ k j).

Lemma manual_weight_is : exists z, manual_weight nl d N q p = Ok z /\ is2 d d At_ z.
Proof.
  destruct Hq as [Q0 [Q1 Q2]], Hp as [P0 [P1 P2]]. unfold manual_weight.
  match goal with |- exists z, bind (foldM ?F _ _) _ = _ /\ _ => set (step := F) end.
  assert (Hstep : forall a At, (a < N)%nat -> m0 At = d -> m1 At = d ->
     exists z, step At a = Ok z /\ is2 d d (fun i k => v2 At i k + v3 p a 0 k * nl (v3 q a 0 i)) z).
  { intros a At Ha A0 A1. unfold step, row. rewrite Q0, P0. destruct (Nat.ltb_spec a N); [|lia]. cbn [bind].
    unfold zip2 at 1. cbn [m0 m1 tr map2]. rewrite Q1, P1, Q2, P2, bdim_1, bdim_1_l. cbn [bind].
    unfold zip2. cbn [m0 m1 tr]. rewrite A0, A1. unfold bdim. rewrite !Nat.eqb_refl. cbn [bind].
    eexists. split; [reflexivity|]. repeat split; auto. cbn [v2 tr map2 m0 m1]. intros i k Hi Hk.
    rewrite !bidx_refl, !bidx_1 by auto. reflexivity. }
  assert (H : forall m a At, (a + m = N)%nat -> is2 d d (fun i k => rsum a (fun n => v3 p n 0 k * nl (v3 q n 0 i))) At ->
     exists z, foldM step (seq a m) At = Ok z /\ is2 d d (fun i k => rsum N (fun n => v3 p n 0 k * nl (v3 q n 0 i))) z).
  { clearbody step. induction m as [|m IH]; intros a At Ha HAt; cbn [seq foldM].
    - exists At. split; auto. replace N with a by lia. exact HAt.
    - destruct HAt as [A0 [A1 Hv]]. destruct (Hstep a At) as [z [-> [Z0 [Z1 Hz]]]]; auto; [lia|]. cbn [bind].
      apply IH; [lia|]. repeat split; auto. intros i k Hi Hk. rewrite Hz, Hv by auto. reflexivity. }
  destruct (H N O (mkT2 d d (fun _ _ => 0))) as [z [-> [Z0 [Z1 Hz]]]]; [lia|repeat split; auto|]. cbn [bind].
  unfold nr_of_particle_parameters. destruct (Nat.eqb_spec (d * N) 0); [nia|]. eexists. split; [reflexivity|]. repeat split; auto.
  cbn [map2 v2]. intros i k Hi Hk. rewrite Hz by auto. unfold At_. rewrite mult_INR. field. split; [apply N_pos|apply d_pos].
Qed.

Lemma manual_bias_is : is2 1 d (fun _ k => bt_ k) (manual_bias d N p).
Proof.
  destruct Hp as [P0 [P1 P2]]. unfold manual_bias, nr_of_particle_parameters. repeat split; cbn; auto.
  intros i k Hi Hk. assert (i = 0)%nat by lia. subst i. unfold bt_. rewrite P0, mult_INR. field. split; [apply N_pos|apply d_pos].
Qed.

Lemma add32_is x b m f g : is3 N 1 m f x -> is2 1 m g b -> exists z, add32 x b = Ok z /\ is3 N 1 m (fun n i k => f n i k + g 0%nat k) z.
Proof.
  intros [[X0 [X1 X2]] Xv] [B0 [B1 Bv]]. unfold add32, zip3. cbn [n0 n1 n2]. rewrite X0, X1, X2, B0, B1, bdim_1. cbn [bind].
  rewrite bdim_1. cbn [bind]. unfold bdim. rewrite Nat.eqb_refl. cbn [bind]. eexists. split; [reflexivity|].
  split; [repeat split|]. cbn [v3]. intros n i k Hn Hi Hk. rewrite !bidx_refl. rewrite Xv, Bv by (auto; lia).
  assert (i = 0)%nat by lia. subst i. reflexivity.
Qed.

Lemma manual_is : exists At bt dq dp, manual nl dnl d N q p = Ok (At, bt, dq, dp)
  /\ is2 d d At_ At /\ is2 1 d (fun _ k => bt_ k) bt /\ is3 N 1 d (fun n _ k => dq_ n k) dq /\ is3 N 1 d (fun n _ k => dp_ n k) dp.
Proof.
  unfold manual. destruct manual_weight_is as [At [-> HA]]. cbn [bind]. pose proof manual_bias_is as HB.
  unfold manual_dot_q.
  destruct (matmul32_is (map3 nl q) At N 1 d d (fun n i k => nl (v3 q n i k)) (proj1 HA) (proj1 (proj2 HA))) as [y [-> Hy]].
  { apply map3_is, own3, Hq. } cbn [bind].
  destruct (add32_is _ _ _ _ _ Hy HB) as [dq [-> Hdq]]. cbn [bind].
  unfold manual_dot_p. destruct (costate_loop_is dnl d N 1 q p (tr At) Hq Hp) as [dp [-> Hdp]].
  { apply HA. } { apply HA. } cbn [bind].
  do 4 eexists. split; [reflexivity|]. split; [exact HA|]. split; [exact HB|]. split.
  - destruct Hdq as [S V]. split; [exact S|]. intros n i k Hn Hi Hk. rewrite V by auto. assert (i = 0)%nat by lia. subst i.
    unfold dq_. f_equal. apply rsum_ext; intros j Hj. f_equal. apply HA; auto.
  - destruct Hdp as [S V]. split; [exact S|]. intros n i k Hn Hi Hk. rewrite V by auto. assert (i = 0)%nat by lia. subst i.
    unfold dp_. f_equal. apply rsum_ext; intros j Hj. f_equal. apply HA; auto.
Qed.

Let G1 := simple_net_ok nl dnl Hnl d.
Let G2 := simple_pars_ok nl dnl init d W.
Let G4 := simple_conforms nl dnl d.
Let G3 := simple_weights_ok init d W W1.

Lemma package_is A b rq rp : package_computes nl init N d q p A b rq rp ->
  (forall i k, (i < d)%nat -> (k < d)%nat -> v2 A i k = INR d * At_ k i)
  /\ (forall k, (k < d)%nat -> v2 b 0 k = INR d * bt_ k)
  /\ (forall n k, (n < N)%nat -> (k < d)%nat -> v3 rq n 0 k = INR d * dq_ n k)
  /\ (forall n k, (n < N)%nat -> (k < d)%nat -> v3 rp n 0 k = INR d * dp_ n k).
Proof.
  intros [l [<- [Eb [Hth [Hr Hdp]]]]]. pose proof Hth as HI.
  apply (autodiff_iff _ G1 _ N 1 s c _ G4 s_ok c_ok G2) in HI. destruct HI as [HS [HWt HBt]].
  assert (EA : forall i k, (i < d)%nat -> (k < d)%nat -> v2 (lin_weight l) i k = INR d * At_ k i).
  { intros i k Hi Hk. specialize (HWt O i k ltac:(cbn; lia) Hi Hk). revert HWt.
    unfold wweight, wentry, gWof, gW. cbn. rewrite Rmult_1_l. intros ->.
    rewrite Rplus_0_r || idtac. unfold At_.
    match goal with |- / INR N * rsum N ?r = _ => replace (rsum N r) with (rsum N (fun n => v3 p n 0 i * nl (v3 q n 0 k))) by (apply rsum_ext; intros; ring) end.
    field. split; [apply N_pos|apply d_pos]. }
  assert (EB : forall k, (k < d)%nat -> v2 b 0 k = INR d * bt_ k).
  { intros k Hk. specialize (HBt O k ltac:(cbn; lia) eq_refl Hk). revert HBt.
    unfold bweight, bentry, gbof, gb. cbn. rewrite Eb. cbn. rewrite Rmult_1_l. intros ->. unfold bt_.
    match goal with |- / INR N * rsum N ?r = _ => replace (rsum N r) with (rsum N (fun n => v3 p n 0 k)) by (apply rsum_ext; intros; ring) end.
    field. split; [apply N_pos|apply d_pos]. }
  assert (L : m0 (lin_weight l) = d /\ m1 (lin_weight l) = d).
  { inversion HS as [|? ? ? ? [_ [[M0 M1] _]] _]; subst. cbn in M0, M1. auto. }
  split; [exact EA|]. split; [exact EB|]. split.
  - intros n k Hn Hk. destruct (simple_obeys nl init d W N 1%nat s _ s_ok HS) as [r [Er [_ [_ V]]]].
    unfold s in Er. rewrite Hr in Er. injection Er as <-.
    rewrite (V O "q1" q "dot_q1" rq "q1" _ n 0%nat k eq_refl eq_refl eq_refl).
    + unfold maps, features, of_all. cbn. unfold affine. rewrite Eb, EB, (proj2 L) by auto. unfold dq_.
      rewrite Rmult_plus_distr_l, <- rsum_scal. f_equal. apply rsum_ext. intros j Hj. rewrite EA by auto. ring.
    + destruct Hq as [? [? ?]]. repeat split; lia.
  - intros n k Hn Hk.
    assert (HC : exists dp, simple_costate nl dnl N s c [("l1", l)] = Ok dp
        /\ autodiff_costates (simple_rhs nl) (simple_objects init d W) N s c dp).
    { apply (proj1 (simple_claims nl dnl Hnl init d W W1) N 1%nat s c); auto; [apply s_ok|apply c_ok]. }
    destruct HC as [dp [Edp Hdp']].
    pose proof (autodiff_costates_unique _ G1 _ G4 _ G2 G3 N 1 s c _ _ s_ok c_ok Hdp Hdp' O n 0%nat k
      ltac:(cbn; lia) Hn ltac:(lia) Hk) as E. unfold VecProofs.entry in E. cbn [nth_error] in E. rewrite E.
    revert Edp. unfold simple_costate. cbn [sd_item s c]. cbn.
    destruct (unused_dot_q nl q l); [|discriminate]. cbn [bind].
    destruct (costate_loop_is dnl d N 1 q p (lin_weight l) Hq Hp (proj1 L) (proj2 L)) as [z [-> Hz]]. cbn [bind].
    intros Edp. injection Edp as <-. cbn [nth_error]. rewrite (proj2 Hz) by auto. unfold dp_.
    transitivity (- dnl (v3 q n 0 k) * (INR d * rsum d (fun j => v3 p n 0 j * At_ k j))); [|ring]. f_equal.
    rewrite <- rsum_scal. apply rsum_ext. intros j Hj. rewrite EA by auto. ring.
Qed.

Lemma compared : exists At bt dq dp, manual nl dnl d N q p = Ok (At, bt, dq, dp)
  /\ forall A b rq rp, package_computes nl init N d q p A b rq rp -> agree_up_to (INR d) N d At bt dq dp A b rq rp.
Proof.
  destruct manual_is as [At [bt [dq [dp [E [[_ [_ HA]] [[_ [_ HB]] [[_ HQ] [_ HP]]]]]]]]].
  exists At, bt, dq, dp. split; [exact E|]. intros A b rq rp Hpk. destruct (package_is _ _ _ _ Hpk) as [KA [KB [KQ KP]]].
  repeat split; intros.
  - rewrite HA by auto. auto.
  - rewrite HB by (auto; lia). auto.
  - rewrite HQ by (auto; lia). auto.
  - rewrite HP by (auto; lia). auto.
Qed.

Lemma package_defined : exists A b rq rp, package_computes nl init N d q p A b rq rp.
Proof.
  destruct (simple_parameters_correct nl dnl Hnl init d W W1 N s c HN s_ok c_ok) as [th [_ Hth]].
  pose proof Hth as HI. apply (autodiff_iff _ G1 _ N 1 s c _ G4 s_ok c_ok G2) in HI. destruct HI as [HS _].
  destruct (simple_obeys nl init d W N 1%nat s th s_ok HS) as [r [Er [DS _]]].
  destruct (proj1 (simple_claims nl dnl Hnl init d W W1) N 1%nat s c th HN s_ok c_ok Hth) as [dp [_ Hdp]].
  inversion HS as [|[o m] [o' l] ? ? [E1 [_ [Sb _]]] T]; subst. cbn [fst snd] in *. inversion T; subst.
  cbn in Sb. destruct (lin_bias l) as [b|] eqn:Eb; [|tauto].
  inversion DS as [|? [o2 rq] ? ? [E2 _] T2]; subst. inversion T2; subst. cbn in E2. subst o2.
  pose proof (proj1 Hdp) as DP. inversion DP as [|? [o3 rp] ? ? [E3 _] T3]; subst. inversion T3; subst. cbn in E3. subst o3.
  exists (lin_weight l), b, rq, rp, l. auto.
Qed.
End Proofs.

Lemma differs nl dnl init N d q p At bt dq dp A b rq rp k :
  (forall x, derivable_pt_lim nl x (dnl x)) -> (0 < N)%nat -> (2 <= d)%nat -> of_shape N 1 d q -> of_shape N 1 d p ->
  (k < d)%nat -> rsum N (fun n => v3 p n 0 k) <> 0 ->
  manual nl dnl d N q p = Ok (At, bt, dq, dp) -> package_computes nl init N d q p A b rq rp ->
  ~ agree_up_to 1 N d At bt dq dp A b rq rp.
Proof.
  intros Hnl HN Hd Hq Hp Hk Z E HP [_ [HB _]].
  destruct (manual_is nl dnl N d HN ltac:(lia) q p Hq Hp) as [At' [bt' [dq' [dp' [E' [_ [[_ [_ HB']] _]]]]]]].
  rewrite E in E'. injection E' as <- <- <- <-.
  destruct (package_is nl dnl init N d Hnl HN ltac:(lia) q p Hq Hp _ _ _ _ HP) as [_ [KB _]].
  specialize (HB k Hk). rewrite (KB k Hk), (HB' 0%nat k ltac:(lia) Hk) in HB. cbv beta in HB.
  assert (N0 : INR N <> 0) by (apply not_0_INR; lia).
  assert (d2 : 2 <= INR d) by (change 2 with (INR 2); apply le_INR; exact Hd).
  set (x := rsum N (fun n => v3 p n 0 k)) in *.
  assert (Y : x / (INR d * INR N) <> 0).
  { unfold Rdiv. apply Rmult_integral_contrapositive_currified; [exact Z|]. apply Rinv_neq_0_compat.
    apply Rmult_integral_contrapositive_currified; [lra|exact N0]. }
  assert (INR d = 1); [|lra]. apply (Rmult_eq_reg_r (x / (INR d * INR N))); auto.
Qed.

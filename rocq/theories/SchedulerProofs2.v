(** The scheduler under a constant metric. *)
From Coq Require Import List String ZArith QArith Qcanon Qround Bool Lia Lqa.
From Verif Require Import Base BaseFacts GridProofs SchedulerModel SchedulerSpec SchedulerProofs.
Import ListNotations.

Lemma same_not_better t a : (0 <= t)%Qc -> (0 <= a)%Qc ->
  cmp_better (mkCmp "min" "rel" t) (Fin a) (Fin a) = false.
Proof.
  intros Ht Ha. cbn. apply qltb_false. unfold Qcle in *. rewrite this_mult, this_minus.
  change (this 0%Qc) with 0%Q in *. change (this 1%Qc) with 1%Q in *. nra.
Qed.

Lemma better_than_inf t a : (t < 1)%Qc -> cmp_better (mkCmp "min" "rel" t) (Fin a) PInf = true.
Proof.
  intro Ht. cbn. destruct (1 - t ?= 0)%Qc eqn:E; [apply Qceq_alt in E|apply Qclt_alt in E|reflexivity]; exfalso.
  - apply (f_equal this) in E.
    assert (this (1 - t)%Qc == 0)%Q by (rewrite E; reflexivity). rewrite this_minus in H. qc.
  - qc.
Qed.

Section Constant.
Variables (t a : Qc) (p cd : Z).
Hypothesis Ht0 : (0 <= t)%Qc.
Hypothesis Ht1 : (t < 1)%Qc.
Hypothesis Ha : (0 <= a)%Qc.
Hypothesis Hp : (0 <= p)%Z.
Hypothesis Hcd : (0 <= cd)%Z.

(** Invariant under a constant metric [a]. *)
Record inv (s : sched) : Prop := mkInv {
  inv_cmp : s_is_better s = mkCmp "min" "rel" t;
  inv_worse : s_mode_worse s = PInf;
  inv_p : s_patience s = p;
  inv_cd : s_cooldown s = cd;
  inv_best : s_best s = PInf \/ s_best s = Fin a;
  inv_fresh : s_best s = PInf -> s_bad s = 0%Z;
  inv_cool : (0 < s_cooldown_counter s)%Z -> s_bad s = 0%Z;
  inv_bad : (0 <= s_bad s <= p)%Z;
  inv_counter : (0 <= s_cooldown_counter s)%Z }.

Definition first (s : sched) : Z := match s_best s with PInf => 1 | _ => 0 end.

(** Number of steps until the next attempt at most. *)
Definition left (s : sched) : Z := (s_cooldown_counter s + (p + 1 - s_bad s) + first s)%Z.

Lemma left_pos s : inv s -> (1 <= left s)%Z.
Proof.
  intros [? ? ? ? ? ? ? ? ?]. unfold left, first. destruct (s_best s); lia.
Qed.

Lemma count_const e s : inv s ->
  let s1 := count_epoch (Fin a) (set_epoch (Fin a) e s) in
  s_best s1 = Fin a /\
  s_bad s1 = (if (0 <? s_cooldown_counter s)%Z then 0 else match s_best s with PInf => 0 | _ => s_bad s + 1 end)%Z.
Proof.
  intro I. destruct (count_facts (Fin a) e s) as [F1 _]. cbv zeta in *.
  rewrite F1. rewrite (inv_cmp s I).
  assert (B : s_best (count_epoch (Fin a) (set_epoch (Fin a) e s))
              = if cmp_better (s_is_better s) (Fin a) (s_best s) then Fin a else s_best s).
  { unfold count_epoch. cbn [s_best s_is_better s_cooldown_counter set_epoch].
    destruct (0 <? _)%Z; reflexivity. }
  rewrite B, (inv_cmp s I).
  destruct (inv_best s I) as [-> | ->].
  - rewrite better_than_inf by exact Ht1. destruct (0 <? _)%Z; split; reflexivity.
  - rewrite same_not_better by auto. destruct (0 <? _)%Z; split; reflexivity.
Qed.

(** A step that does not attempt a reduction. *)
Lemma waiting e s l : inv s -> (1 < left s)%Z ->
  exists s', step (Fin a) e (s, l) = ((s', l), Ok tt) /\ inv s' /\
    ((left s' <= left s - 1)%Z /\
     (s_cooldown_counter s = 0%Z -> left s' = left s - 1 /\ s_cooldown_counter s' = 0)%Z) /\
    s_converged s' = s_converged s /\ config s' = config s.
Proof.
  intros I L. destruct (count_const e s I) as [B1 B2]. destruct (count_facts (Fin a) e s) as [_ F2].
  cbv zeta in *. set (s1 := count_epoch (Fin a) (set_epoch (Fin a) e s)) in *.
  assert (C1 : config s1 = config s) by (unfold s1; rewrite config_count; reflexivity).
  assert (V1 : s_converged s1 = s_converged s)
    by (unfold s1, count_epoch; destruct (0 <? _)%Z; reflexivity).
  pose proof I as [I1 I2 I3 I4 I5 I6 I7 I8 I9].
  assert (NA : (s_bad s1 <= s_patience s)%Z).
  { rewrite B2, I3. destruct (Z.ltb_spec 0 (s_cooldown_counter s)); [lia|].
    unfold left, first in L. destruct (s_best s); lia. }
  exists s1. split; [apply (step_no_attempt (Fin a) e s l NA)|].
  assert (K : s_is_better s1 = s_is_better s /\ s_mode_worse s1 = s_mode_worse s /\
              s_patience s1 = s_patience s /\ s_cooldown s1 = s_cooldown s)
    by (unfold config in C1; repeat split; congruence).
  destruct K as (K1 & K2 & K3 & K4).
  split; [|split; [|split]]; auto.
  - constructor; rewrite ?K1, ?K2, ?K3, ?K4; auto.
    + rewrite B1. discriminate.
    + rewrite F2, B2. destruct (Z.ltb_spec 0 (s_cooldown_counter s)); lia.
    + rewrite I3 in NA. split; [|exact NA]. rewrite B2.
      destruct (0 <? _)%Z; [lia|]. destruct (s_best s); lia.
    + rewrite F2. destruct (Z.ltb_spec 0 (s_cooldown_counter s)); lia.
  - unfold left, first in *. rewrite B1, F2, B2.
    destruct (Z.ltb_spec 0 (s_cooldown_counter s)).
    + split; [|lia]. destruct (s_best s) eqn:EB; try (destruct I5; discriminate); rewrite (I7 H); lia.
    + destruct (s_best s) eqn:EB; try (destruct I5; discriminate); [|rewrite (I6 eq_refl)]; lia.
Qed.

(** The step that attempts a reduction. *)
Lemma attempting e s l : inv s -> left s = 1%Z -> List.length l <= List.length (s_min_lrs s) ->
  exists s' l', step (Fin a) e (s, l) = ((s', l'), Ok tt) /\ inv s' /\ (left s' <= cd + p + 2)%Z /\
    config s' = config s /\ List.length l' = List.length l /\
    forall k old, nth_error l k = Some old ->
      exists mn new, nth_error (s_min_lrs s) k = Some mn /\ nth_error l' k = Some new /\
        reduced_group (s_factor s) (s_eps s) mn old new /\
        ((old - qmax (old * s_factor s) mn <= s_eps s)%Qc -> s_converged s' = true).
Proof.
  intros I L LL. destruct (count_const e s I) as [B1 B2]. destruct (count_facts (Fin a) e s) as [_ F2].
  pose proof (config_step (Fin a) e (s, l)) as CS.
  cbv zeta in *. set (s1 := count_epoch (Fin a) (set_epoch (Fin a) e s)) in *.
  assert (C1 : config s1 = config s) by (unfold s1; rewrite config_count; reflexivity).
  pose proof I as [I1 I2 I3 I4 I5 I6 I7 I8 I9].
  assert (NA : (s_patience s < s_bad s1)%Z).
  { rewrite B2, I3. unfold left, first in L. destruct (Z.ltb_spec 0 (s_cooldown_counter s)).
    - rewrite (I7 H) in L. destruct (s_best s); lia.
    - destruct (s_best s); lia. }
  assert (K : s_is_better s1 = s_is_better s /\ s_mode_worse s1 = s_mode_worse s /\
              s_patience s1 = s_patience s /\ s_cooldown s1 = s_cooldown s /\ s_min_lrs s1 = s_min_lrs s /\
              s_factor s1 = s_factor s /\ s_eps s1 = s_eps s)
    by (unfold config in C1; repeat split; congruence).
  destruct K as (K1 & K2 & K3 & K4 & K5 & K6 & K7).
  destruct (reduce_lr_ok l 0 s1) as [s2 [l2 [E2 [L2 N2]]]]; [rewrite K5; lia|].
  unfold step in *. cbn [fst snd] in *. fold s1 in CS |- *.
  rewrite K3 in CS |- *. apply Z.ltb_lt in NA. rewrite NA, E2 in CS |- *. cbn [fst] in CS.
  exists (set_counters (s_best s2) 0 (s_cooldown s2) s2), l2. split; [reflexivity|].
  assert (BR : s_best s2 = PInf \/ s_best s2 = Fin a).
  { assert (G : forall l i s' x r, reduce_lr i l s' = x -> r = s_best (fst (fst x)) ->
        s_mode_worse s' = PInf -> (s_best s' = PInf \/ s_best s' = Fin a) -> r = PInf \/ r = Fin a).
    { clear. induction l as [|o l IH]; intros i s' x r E -> W B; cbn [reduce_lr] in E; subst x; auto.
      destruct (list_item _ i) as [m|]; auto.
      destruct (qltb _ _).
      - specialize (IH (S i) (reset s') _ _ eq_refl eq_refl W (or_introl W)).
        destruct (reduce_lr (S i) l (reset s')) as [[? ?] ?]. exact IH.
      - specialize (IH (S i) (set_converged s') _ _ eq_refl eq_refl W B).
        destruct (reduce_lr (S i) l (set_converged s')) as [[? ?] ?]. exact IH. }
    eapply G; [exact E2|reflexivity|congruence|auto]. }
  assert (CF : s_is_better s2 = s_is_better s /\ s_mode_worse s2 = s_mode_worse s /\
               s_patience s2 = s_patience s /\ s_cooldown s2 = s_cooldown s)
    by (unfold config in CS; cbn in CS; repeat split; congruence).
  destruct CF as (G1 & G2 & G3 & G4).
  split; [|split; [|split; [|split]]]; auto.
  - constructor; cbn; rewrite ?G1, ?G2, ?G3, ?G4; auto; lia.
  - unfold left, first. cbn. rewrite G4, I4. destruct (s_best s2); lia.
  - intros k old Ho. destruct (N2 k old Ho) as [mn [new [X [Y Z]]]]. rewrite K5, K6, K7 in *.
    exists mn, new. split; [exact X|]. split; [exact Y|]. split; [exact Z|]. cbn [s_converged set_counters].
    (* the flag is set by this group *)
    intro Q. assert (G : forall l i s' s2' l2' k old mn, reduce_lr i l s' = ((s2', l2'), Ok tt) ->
        nth_error l k = Some old -> nth_error (s_min_lrs s') (i + k) = Some mn ->
        (old - qmax (old * s_factor s') mn <= s_eps s')%Qc -> s_converged s2' = true).
    { clear. induction l as [|o l IH]; intros i s' s2' l2' k old mn E Ho Hm Q; [destruct k; discriminate|].
      cbn [reduce_lr] in E. unfold list_item in E.
      destruct (nth_error (s_min_lrs s') i) as [m|] eqn:EM; [|discriminate].
      destruct k as [|k].
      - simpl in Ho. injection Ho as ->. rewrite Nat.add_0_r in Hm. rewrite EM in Hm. injection Hm as ->.
        apply qltb_false in Q. rewrite Q in E.
        destruct (reduce_lr (S i) l (set_converged s')) as [[s3 l3] r3] eqn:E3. injection E as <- _ _.
        apply (proj1 (reduce_converged _ _ _ _ _ _ E3)). reflexivity.
      - simpl in Ho. replace (i + S k)%nat with (S i + k)%nat in Hm by lia.
        destruct (qltb _ _).
        + destruct (reduce_lr (S i) l (reset s')) as [[s3 l3] r3] eqn:E3. injection E as <- _ ->.
          eapply IH; eauto.
        + destruct (reduce_lr (S i) l (set_converged s')) as [[s3 l3] r3] eqn:E3. injection E as <- _ ->.
          eapply IH; eauto. }
    eapply G; [exact E2|exact Ho|rewrite K5; exact X|rewrite K6, K7; exact Q].
Qed.

Lemma waiting_long ms : forall s l, inv s -> Forall (fun m => fst m = Fin a) ms ->
  (Z.of_nat (List.length ms) < left s)%Z -> s_cooldown_counter s = 0%Z ->
  exists s', steps ms (s, l) = ((s', l), Ok tt) /\ inv s' /\
    (left s' = left s - Z.of_nat (List.length ms))%Z /\ s_converged s' = s_converged s /\ config s' = config s.
Proof.
  induction ms as [|[m e] ms IH]; intros s l I F L C0.
  - exists s. cbn in *. repeat split; auto; try apply I. lia.
  - inversion F as [|? ? F1 F2]; subst. cbn [fst] in F1. subst m. cbn [List.length] in L.
    destruct (waiting e s l I) as [s1 [E1 [I1 [[_ L1] [V1 C1]]]]]; [lia|].
    destruct (L1 C0) as [L1' C01].
    destruct (IH s1 l I1 F2) as [s2 [E2 [I2 [L2 [V2 C2]]]]]; [lia|exact C01|].
    exists s2. cbn [steps fst snd]. rewrite E1. split; [exact E2|]. split; auto. split; [cbn [List.length]; lia|].
    split; congruence.
Qed.

(** ** Convergence *)
Lemma constant_converges ms : forall s l K lr mn rest mrest,
  inv s -> Forall (fun m => fst m = Fin a) ms -> l = lr :: rest -> s_min_lrs s = mn :: mrest ->
  List.length l <= List.length (s_min_lrs s) -> (0 < s_eps s)%Qc -> (0 <= K)%Z ->
  (this lr - this mn <= inject_Z K * this (s_eps s))%Q ->
  (left s + K * (cd + p + 2) <= Z.of_nat (List.length ms))%Z ->
  s_converged (fst (after ms (s, l))) = true.
Proof.
  induction ms as [|[m e] ms IH]; intros s l K lr mn rest mrest I F El Em LL Eps HK Q N.
  - cbn in N. pose proof (left_pos s I). nia.
  - inversion F as [|? ? F1 F2]. cbn [fst] in F1. subst m. cbn [List.length] in N.
    pose proof (left_pos s I) as LP.
    destruct (Z.eq_dec (left s) 1) as [L1|L1].
    + destruct (attempting e s l I L1 LL) as [s1 [l1 [E1 [I1 [LE [C1 [LL1 G]]]]]]].
      unfold after. cbn [steps fst snd]. rewrite E1.
      destruct (s_converged s1) eqn:V; [apply (steps_converged ms (s1, l1)); exact V|].
      destruct (G 0%nat lr) as [mn' [new [X [Y [Z W]]]]]; [rewrite El; reflexivity|].
      rewrite Em in X. injection X as <-.
      destruct Z as [[Z1 Z2]|[Z1 _]]; [|specialize (W Z1); congruence].
      assert (K8 : s_min_lrs s1 = s_min_lrs s /\ s_eps s1 = s_eps s) by (unfold config in C1; split; congruence).
      destruct K8 as [K8 K9].
      destruct l1 as [|lr1 rest1]; [discriminate|]. simpl in Y. injection Y as ->.
      assert (M : (mn <= new)%Qc) by (rewrite Z2; apply qmax_spec).
      rewrite <- Z2 in Z1. unfold Qclt, Qcle in Z1, M, Eps. rewrite this_minus in Z1.
      change (this 0%Qc) with 0%Q in Eps.
      assert (Q2 : (inject_Z (K - 1) * this (s_eps s) == inject_Z K * this (s_eps s) - this (s_eps s))%Q).
      { unfold Zminus. rewrite inject_Z_plus. change (inject_Z (-(1))) with (-(1))%Q. ring. }
      assert (K1 : (1 <= K)%Z).
      { destruct (Z_le_gt_dec 1 K) as [HH|HH]; auto. exfalso.
        assert (K = 0%Z) as -> by lia. change (inject_Z 0) with 0%Q in Q. lra. }
      apply (IH s1 (new :: rest1) (K - 1)%Z new mn rest1 mrest); auto; try lia.
      * congruence.
      * rewrite K8. lia.
      * rewrite K9. exact Eps.
      * rewrite K9, Q2. lra.
    + destruct (waiting e s l I) as [s1 [E1 [I1 [[LE _] [V1 C1]]]]]; [lia|].
      assert (K8 : s_min_lrs s1 = s_min_lrs s /\ s_eps s1 = s_eps s) by (unfold config in C1; split; congruence).
      destruct K8 as [K8 K9].
      unfold after. cbn [steps fst snd]. rewrite E1.
      apply (IH s1 l K lr mn rest mrest); auto; try congruence.
      lia.
Qed.

End Constant.

Lemma new_inv n f p t cd mn eps a s : (0 <= p)%Z ->
  new_sched n "min" f p t "rel" cd mn eps = Ok s -> inv t a p cd s /\ left p s = (p + 2)%Z.
Proof.
  intros Hp E. apply new_sched_facts in E.
  destruct E as (E1 & E2 & E3 & E4 & E5 & E6 & E7 & E8 & E9 & E10 & E11 & E12 & E13 & E14 & E15 & E16).
  assert (W : s_mode_worse s = PInf).
  { rewrite E14, E15 in E13. cbn in E13. congruence. }
  split.
  - constructor; auto; try lia. left. congruence.
  - unfold left, first. rewrite E11, W, E1, E2. lia.
Qed.

Lemma constant_metric_reduces n f p t cd mn eps a s l ms e :
  (0 <= t)%Qc -> (t < 1)%Qc -> (0 <= a)%Qc -> (0 <= p)%Z -> (0 <= cd)%Z ->
  new_sched n "min" f p t "rel" cd mn eps = Ok s -> List.length l = n ->
  Forall (fun m => fst m = Fin a) ms -> Z.of_nat (List.length ms) = (p + 1)%Z ->
  snd (after ms (s, l)) = l /\
  let sl' := after (ms ++ [(Fin a, e)]) (s, l) in
  forall k old, nth_error l k = Some old ->
    exists mn cand new, nth_error (s_min_lrs s) k = Some mn /\ nth_error (snd sl') k = Some new /\
      reduced f old mn cand /\
      ((eps < old - cand)%Qc /\ new = cand \/
       (old - cand <= eps)%Qc /\ new = old /\ has_convergence_been_reached (fst sl') = true).
Proof.
  intros H1 H2 H3 H4 H5 E L F N. destruct (new_inv _ _ _ _ _ _ _ a _ H4 E) as [I LE].
  apply new_sched_facts in E.
  destruct E as (E1 & E2 & E3 & E4 & E5 & E6 & E7 & E8 & E9 & E10 & E11 & E12 & E13 & E14 & E15 & E16).
  destruct (waiting_long t a p cd H1 H2 H3 H4 ms s l I F) as [s1 [X [I1 [L1 [V1 C1]]]]]; [lia|exact E2|].
  split; [unfold after; rewrite X; reflexivity|].
  assert (KK : s_min_lrs s1 = s_min_lrs s /\ s_factor s1 = s_factor s /\ s_eps s1 = s_eps s)
    by (unfold config in C1; repeat split; congruence). destruct KK as (K1 & K2 & K3).
  destruct (attempting t a p cd H1 H2 H3 H4 H5 e s1 l I1) as [s2 [l2 [X2 [I2 [L2 [C2 [LL G]]]]]]];
    [lia|rewrite K1; lia|].
  cbv zeta. unfold after. rewrite steps_app, X. cbn [steps fst snd]. rewrite X2. cbn [fst snd].
  intros k old Ho. destruct (G k old Ho) as [mn' [new [A [B [C D]]]]].
  exists mn', (qmax (old * f) mn'), new. rewrite K1 in A. rewrite K2, K3, E6, E7 in *.
  split; auto. split; auto. split.
  - destruct (qmax_spec (old * f) mn') as [Y1 [Y2 Y3]]. repeat split; auto.
  - destruct C as [C|[C1' C2']]; [left|right]; auto.
Qed.

Lemma constant_metric_converges n f p t cd mn eps a s l :
  (0 <= t)%Qc -> (t < 1)%Qc -> (0 <= a)%Qc -> (0 <= p)%Z -> (0 <= cd)%Z -> (0 < eps)%Qc -> 0 < n ->
  new_sched n "min" f p t "rel" cd mn eps = Ok s -> List.length l = n ->
  exists N, forall ms, Forall (fun m => fst m = Fin a) ms -> N <= List.length ms ->
    has_convergence_been_reached (fst (after ms (s, l))) = true.
Proof.
  intros H1 H2 H3 H4 H5 H6 Hn E L. destruct (new_inv _ _ _ _ _ _ _ a _ H4 E) as [I LE].
  apply new_sched_facts in E.
  destruct E as (E1 & E2 & E3 & E4 & E5 & E6 & E7 & E8 & E9 & E10 & E11 & E12 & E13 & E14 & E15 & E16).
  destruct l as [|lr rest]; [simpl in L; lia|].
  destruct (s_min_lrs s) as [|m0 mrest] eqn:EM; [simpl in E10; lia|].
  set (K := Z.max 0 (Qceiling ((this lr - this m0) / this eps))).
  exists (Z.to_nat (p + 2 + K * (cd + p + 2))). intros ms F N.
  apply (constant_converges t a p cd H1 H2 H3 H4 H5 ms s (lr :: rest) K lr m0 rest mrest); auto.
  - rewrite EM, L, E10. lia.
  - rewrite E6. exact H6.
  - unfold K. lia.
  - rewrite E6. unfold Qclt in H6. change (this 0%Qc) with 0%Q in H6.
    assert (QK : ((this lr - this m0) / this eps <= inject_Z K)%Q).
    { eapply Qle_trans; [apply Qle_ceiling|]. rewrite <- Zle_Qle. unfold K. lia. }
    assert (D : ((this lr - this m0) == ((this lr - this m0) / this eps) * this eps)%Q) by (field; lra).
    rewrite D. apply Qmult_le_compat_r; [exact QK|lra].
  - lia.
Qed.

(** A negative constant counts as an improvement forever. *)
Lemma negative_never_reduced t q ms : forall s l, (0 < t)%Qc -> (q < 0)%Qc ->
  s_is_better s = mkCmp "min" "rel" t -> s_best s = PInf /\ (t < 1)%Qc \/ s_best s = Fin q ->
  (0 <= s_patience s)%Z -> s_bad s = 0%Z -> Forall (fun m => fst m = Fin q) ms ->
  snd (after ms (s, l)) = l /\ s_converged (fst (after ms (s, l))) = s_converged s.
Proof.
  induction ms as [|[m e] ms IH]; intros s l Ht Hq C B P Z F; [split; reflexivity|].
  inversion F as [|? ? F1 F2]; subst. cbn [fst] in F1. subst m.
  assert (BT : cmp_better (s_is_better s) (Fin q) (s_best s) = true).
  { rewrite C. destruct B as [[-> T1]| ->]; [apply better_than_inf; auto|].
    cbn. apply qltb_true. unfold Qclt in *. rewrite this_mult, this_minus.
    change (this 0%Qc) with 0%Q in *. change (this 1%Qc) with 1%Q in *. nra. }
  destruct (count_facts (Fin q) e s) as [G1 G2]. cbv zeta in *. rewrite BT in G1.
  assert (Z1 : s_bad (count_epoch (Fin q) (set_epoch (Fin q) e s)) = 0%Z) by (rewrite G1; destruct (0 <? _)%Z; reflexivity).
  unfold after. cbn [steps fst snd]. rewrite (step_no_attempt (Fin q) e s l) by (cbv zeta; lia).
  destruct (IH (count_epoch (Fin q) (set_epoch (Fin q) e s)) l) as [X Y]; auto.
  - unfold count_epoch. destruct (0 <? _)%Z; exact C.
  - right. unfold count_epoch. cbn [s_is_better s_best set_epoch]. rewrite BT. destruct (0 <? _)%Z; reflexivity.
  - unfold count_epoch. destruct (0 <? _)%Z; exact P.
  - unfold after in X, Y. rewrite X, Y. split; auto. unfold count_epoch. destruct (0 <? _)%Z; reflexivity.
Qed.

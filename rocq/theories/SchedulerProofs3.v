(** What counts as an improvement. *)
From Coq Require Import List String ZArith QArith Qcanon Bool Lia.
From Verif Require Import Base BaseFacts SchedulerModel SchedulerSpec SchedulerProofs.
Import ListNotations.
Open Scope string_scope.
Open Scope list_scope.

Lemma qltb_spec a b : qltb a b = true <-> (a < b)%Qc.
Proof. unfold qltb, Qclt, Qccompare. rewrite Qlt_alt. destruct (this a ?= this b)%Q; split; congruence. Qed.

Lemma num_ltb_below a b : num_ltb a b = true <-> below a b.
Proof.
  split.
  - destruct a, b; cbn; try discriminate; intros H; constructor. apply qltb_spec, H.
  - intros []; cbn; auto. apply qltb_spec; auto.
Qed.

Lemma factor_sign (q : Qc) : ((q ?= 0)%Qc = Gt <-> (0 < q)%Qc) /\ ((q ?= 0)%Qc = Lt <-> (q < 0)%Qc).
Proof.
  split; split; intros H.
  - apply Qcgt_alt in H. exact H.
  - apply Qcgt_alt. exact H.
  - apply Qclt_alt in H. exact H.
  - apply Qclt_alt. exact H.
Qed.

Lemma shift_lt (a b : Qc) : (0 < b - a)%Qc <-> (a < b)%Qc.
Proof. symmetry. apply Qclt_minus_iff. Qed.

Lemma min_pos th : (0 < 1 - th)%Qc <-> (th < 1)%Qc.
Proof. apply shift_lt. Qed.
Lemma min_neg th : (1 - th < 0)%Qc <-> (1 < th)%Qc.
Proof. rewrite Qclt_minus_iff, (Qclt_minus_iff 1 th). replace (0 + - (1 - th))%Qc with (th + - (1))%Qc by ring. tauto. Qed.
Lemma max_pos th : (0 < th + 1)%Qc <-> (-(1) < th)%Qc.
Proof. rewrite Qclt_minus_iff, (Qclt_minus_iff (-(1)) th). replace (th + 1 + - 0)%Qc with (th + - - (1))%Qc by ring. tauto. Qed.
Lemma max_neg th : (th + 1 < 0)%Qc <-> (th < -(1))%Qc.
Proof. rewrite Qclt_minus_iff, (Qclt_minus_iff th (-(1))). replace (0 + - (th + 1))%Qc with (- (1) + - th)%Qc by ring. tauto. Qed.

(** Scaling the best value gives the bar. *)
Lemma scale_bar mode tmode th best bar : tmode = "rel" ->
  (mode = "min" -> num_scale best (1 - th)%Qc = bar /\ bar <> NaN -> is_bar mode tmode th best bar) /\
  (mode = "max" -> num_scale best (th + 1)%Qc = bar /\ bar <> NaN -> is_bar mode tmode th best bar).
Proof.
  intros T. split; intros M (E & N).
  - destruct best as [b| | |]; cbn in E.
    + subst bar. replace (b * (1 - th))%Qc with (b - b * th)%Qc by ring. constructor; auto.
    + destruct (factor_sign (1 - th)%Qc) as (P & Q). destruct (1 - th ?= 0)%Qc; subst bar; [congruence| |].
      * apply bar_inf_neg; auto; try (left; reflexivity); try (right; reflexivity); [discriminate|].
        left. split; [auto|]. apply min_neg, Q; reflexivity.
      * apply bar_inf_rel; auto; [left; reflexivity|]. left. split; [auto|]. apply min_pos, P; reflexivity.
    + destruct (factor_sign (1 - th)%Qc) as (P & Q). destruct (1 - th ?= 0)%Qc; subst bar; [congruence| |].
      * apply bar_inf_neg; auto; try (left; reflexivity); try (right; reflexivity); [discriminate|].
        left. split; [auto|]. apply min_neg, Q; reflexivity.
      * apply bar_inf_rel; auto; [right; reflexivity|]. left. split; [auto|]. apply min_pos, P; reflexivity.
    + congruence.
  - destruct best as [b| | |]; cbn in E.
    + subst bar. replace (b * (th + 1))%Qc with (b + b * th)%Qc by ring. constructor; auto.
    + destruct (factor_sign (th + 1)%Qc) as (P & Q). destruct (th + 1 ?= 0)%Qc; subst bar; [congruence| |].
      * apply bar_inf_neg; auto; try (left; reflexivity); try (right; reflexivity); [discriminate|].
        right. split; [auto|]. apply max_neg, Q; reflexivity.
      * apply bar_inf_rel; auto; [left; reflexivity|]. right. split; [auto|]. apply max_pos, P; reflexivity.
    + destruct (factor_sign (th + 1)%Qc) as (P & Q). destruct (th + 1 ?= 0)%Qc; subst bar; [congruence| |].
      * apply bar_inf_neg; auto; try (left; reflexivity); try (right; reflexivity); [discriminate|].
        right. split; [auto|]. apply max_neg, Q; reflexivity.
      * apply bar_inf_rel; auto; [right; reflexivity|]. right. split; [auto|]. apply max_pos, P; reflexivity.
    + congruence.
Qed.

(** The bar computed by [_cmp]. *)
Definition the_bar (mode tmode : string) (th : Qc) (best : num) : num :=
  if (mode =? "min")%string && (tmode =? "rel")%string then num_scale best (1 - th)%Qc
  else if (mode =? "min")%string && (tmode =? "abs")%string then num_shift best (- th)%Qc
  else if (mode =? "max")%string && (tmode =? "rel")%string then num_scale best (th + 1)%Qc
  else num_shift best th.

Lemma bar_the_bar mode tmode th best bar : is_bar mode tmode th best bar ->
  (mode = "min" \/ mode = "max") -> the_bar mode tmode th best = bar.
Proof.
  intros H M. destruct H as [b -> ->|b -> ->|b -> ->|b -> ->|b -> I|b -> I C|b b' -> I I' D C]; cbn.
  - f_equal. ring.
  - f_equal. ring.
  - reflexivity.
  - reflexivity.
  - destruct M as [-> | ->]; destruct I as [-> | ->]; reflexivity.
  - destruct C as [(-> & C)|(-> & C)]; unfold the_bar; cbn.
    + apply min_pos in C. apply (proj1 (factor_sign _)) in C. destruct I as [-> | ->]; cbn; rewrite C; reflexivity.
    + apply max_pos in C. apply (proj1 (factor_sign _)) in C. destruct I as [-> | ->]; cbn; rewrite C; reflexivity.
  - destruct C as [(-> & C)|(-> & C)]; unfold the_bar; cbn.
    + apply min_neg in C. apply (proj2 (factor_sign _)) in C.
      destruct I as [-> | ->], I' as [-> | ->]; try congruence; cbn; rewrite C; reflexivity.
    + apply max_neg in C. apply (proj2 (factor_sign _)) in C.
      destruct I as [-> | ->], I' as [-> | ->]; try congruence; cbn; rewrite C; reflexivity.
Qed.

Lemma better_improves mode tmode th a best :
  (mode = "min" \/ mode = "max") -> (tmode = "rel" \/ tmode = "abs") ->
  (cmp_better (mkCmp mode tmode th) a best = true <-> improvement mode tmode th a best).
Proof.
  intros M T. split.
  - intros H. unfold cmp_better in H. cbn [c_mode c_tmode c_threshold] in H.
    destruct M as [-> | ->], T as [-> | ->]; cbn in H; apply num_ltb_below in H.
    + exists (num_scale best (1 - th)%Qc). split; [|left; auto].
      apply (proj1 (scale_bar "min" "rel" th best _ eq_refl)); auto. split; [reflexivity|]. intros E. rewrite E in H. inversion H.
    + exists (num_shift best (- th)%Qc). split; [|left; auto].
      destruct best; cbn in *; try (apply bar_inf_abs; [reflexivity|unfold infinite; auto]).
      * apply bar_min_abs; reflexivity.
      * inversion H.
    + exists (num_scale best (th + 1)%Qc). split; [|right; auto].
      apply (proj2 (scale_bar "max" "rel" th best _ eq_refl)); auto. split; [reflexivity|]. intros E. rewrite E in H. inversion H.
    + exists (num_shift best th). split; [|right; auto].
      destruct best; cbn in *; try (apply bar_inf_abs; [reflexivity|unfold infinite; auto]).
      * apply bar_max_abs; reflexivity.
      * inversion H.
  - intros (bar & B & C). apply bar_the_bar in B; [|exact M]. subst bar.
    unfold the_bar in C. unfold cmp_better. cbn [c_mode c_tmode c_threshold].
    destruct C as [(-> & C)|(-> & C)], T as [-> | ->]; cbn in *; apply num_ltb_below; exact C.
Qed.

Lemma not_better mode tmode th a best :
  (mode = "min" \/ mode = "max") -> (tmode = "rel" \/ tmode = "abs") ->
  (cmp_better (mkCmp mode tmode th) a best = false <-> ~ improvement mode tmode th a best).
Proof.
  intros M T. rewrite <- (better_improves mode tmode th a best M T).
  destruct (cmp_better _ _ _); split; congruence.
Qed.

Lemma new_sched_modes n mode f p th tm cd mn eps s : new_sched n mode f p th tm cd mn eps = Ok s ->
  (mode = "min" \/ mode = "max") /\ (tm = "rel" \/ tm = "abs").
Proof.
  unfold new_sched. destruct (qltb f 1); [|discriminate]. cbn [negb]. intros E.
  apply bind_ok in E as [mins [_ E]]. apply bind_ok in E as [[w c] [EI _]]. unfold init_is_better in EI.
  destruct (mode =? "min")%string eqn:E1; [apply String.eqb_eq in E1|];
    (destruct (mode =? "max")%string eqn:E2; [apply String.eqb_eq in E2|]); try discriminate;
    (destruct (tm =? "rel")%string eqn:E3; [apply String.eqb_eq in E3|]);
    (destruct (tm =? "abs")%string eqn:E4; [apply String.eqb_eq in E4|]); try discriminate; auto.
Qed.

Lemma config_run_all ms : forall sl, config (fst (run_all ms sl)) = config (fst sl).
Proof.
  induction ms as [|m ms IH]; intros sl; [reflexivity|]. cbn [run_all fold_left].
  change (config (fst (run_all ms (fst (step (fst m) (snd m) sl)))) = config (fst sl)).
  rewrite IH. apply config_step.
Qed.

Lemma bad_run_epochs mode tm th ms : (mode = "min" \/ mode = "max") -> (tm = "rel" \/ tm = "abs") ->
  forall sl, s_is_better (fst sl) = mkCmp mode tm th -> bad_run ms sl -> bad_epochs mode tm th ms sl.
Proof.
  intros M T. induction ms as [|m ms IH]; intros sl C B; [exact I|].
  destruct B as (B1 & B2 & B3). rewrite C in B1. split; [apply not_better; auto|]. split; [exact B2|].
  apply IH; [|exact B3]. pose proof (config_step (fst m) (snd m) sl) as K. unfold config in K. congruence.
Qed.

Lemma reduced_after_bad_epochs n mode f p th tm cd mn eps s0 l0 ms m sl :
  new_sched n mode f p th tm cd mn eps = Ok s0 -> (0 <= p)%Z ->
  steps ms (s0, l0) = (sl, Ok tt) ->
  snd (fst (step (fst m) (snd m) sl)) <> snd sl ->
  exists pre w, ms ++ [m] = pre ++ w /\ (p < Z.of_nat (List.length w))%Z /\
    bad_epochs mode tm th w (run_all pre (s0, l0)).
Proof.
  intros E Hp H D. pose proof (new_sched_modes _ _ _ _ _ _ _ _ _ _ E) as (M & T).
  destruct (new_sched_facts _ _ _ _ _ _ _ _ _ _ E) as (B & _ & P & _ & _ & _ & _ & _ & _ & _ & _ & K & _).
  rewrite <- P in *. destruct (change_after_patience ms m (s0, l0) sl B Hp H D) as (pre & w & E1 & L & W).
  exists pre, w. split; [exact E1|]. split; [exact L|]. apply bad_run_epochs; auto.
  pose proof (config_run_all pre (s0, l0)) as C. unfold config in C. cbn [fst] in C. congruence.
Qed.

(** What a step makes of the best value, the counters and the learning rates. *)
Lemma step_cases n mode f p th tm cd mn eps s0 l0 ms m e s l :
  new_sched n mode f p th tm cd mn eps = Ok s0 -> (0 <= p)%Z -> steps ms (s0, l0) = ((s, l), Ok tt) ->
  (improvement mode tm th m (s_best s) ->
     exists s', step m e (s, l) = ((s', l), Ok tt) /\ s_best s' = m /\ s_bad s' = 0%Z) /\
  (~ improvement mode tm th m (s_best s) -> (0 < s_cooldown_counter s)%Z ->
     exists s', step m e (s, l) = ((s', l), Ok tt) /\ s_best s' = s_best s /\ s_bad s' = 0%Z /\
       s_cooldown_counter s' = (s_cooldown_counter s - 1)%Z) /\
  (~ improvement mode tm th m (s_best s) -> (s_cooldown_counter s <= 0)%Z -> (s_bad s < p)%Z ->
     exists s', step m e (s, l) = ((s', l), Ok tt) /\ s_best s' = s_best s /\ s_bad s' = (s_bad s + 1)%Z) /\
  (~ improvement mode tm th m (s_best s) -> (s_cooldown_counter s <= 0)%Z -> (p <= s_bad s)%Z ->
     forall sl', step m e (s, l) = (sl', Ok tt) ->
       s_bad (fst sl') = 0%Z /\ s_cooldown_counter (fst sl') = cd).
Proof.
  intros E Hp H. pose proof (new_sched_modes _ _ _ _ _ _ _ _ _ _ E) as (M & T).
  destruct (new_sched_facts _ _ _ _ _ _ _ _ _ _ E) as (_ & _ & P & D & _ & _ & _ & _ & _ & _ & _ & K & _).
  pose proof (config_steps ms (s0, l0)) as C. unfold after in C. rewrite H in C. cbn [fst] in C.
  assert (K' : s_is_better s = mkCmp mode tm th) by (unfold config in C; congruence).
  assert (P' : s_patience s = p) by (unfold config in C; congruence).
  assert (D' : s_cooldown s = cd) by (unfold config in C; congruence).
  assert (B : forall m', s_best (count_epoch m' (set_epoch m' e s)) =
    if cmp_better (s_is_better s) m' (s_best s) then m' else s_best s).
  { intros m'. unfold count_epoch. cbn. destruct (0 <? _)%Z, (cmp_better _ _ _); reflexivity. }
  destruct (count_facts m e s) as (F1 & F2). cbv zeta in F1, F2. specialize (B m). rewrite K' in *.
  split; [|split; [|split]].
  - intros I. apply better_improves in I; auto. rewrite I in *.
    assert (Z0 : s_bad (count_epoch m (set_epoch m e s)) = 0%Z) by (rewrite F1; destruct (0 <? _)%Z; reflexivity).
    eexists. split; [apply step_no_attempt; lia|]. auto.
  - intros I CD. apply not_better in I; auto. rewrite I in *. apply Z.ltb_lt in CD. rewrite CD in *.
    eexists. split; [apply step_no_attempt; lia|]. auto.
  - intros I CD LT. apply not_better in I; auto. rewrite I in *. apply Z.ltb_ge in CD. rewrite CD in *.
    eexists. split; [apply step_no_attempt; lia|]. auto.
  - intros I CD GE sl' ES. apply not_better in I; auto. rewrite I in *. apply Z.ltb_ge in CD. rewrite CD in *.
    rewrite <- D'. eapply step_attempt; [|exact ES]. lia.
Qed.

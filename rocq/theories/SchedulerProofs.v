(** Proofs about the learning rate scheduler. *)
From Coq Require Import List String ZArith QArith Qcanon Bool Lia Lqa.
From Verif Require Import Base BaseFacts GridProofs SchedulerModel SchedulerSpec.
Import ListNotations.

Ltac qc := unfold Qclt, Qcle in *;
  repeat match goal with
  | H : context [this (_ + _)%Qc] |- _ => rewrite this_plus in H
  | H : context [this (_ - _)%Qc] |- _ => rewrite this_minus in H
  | H : context [this (_ * _)%Qc] |- _ => rewrite this_mult in H
  | H : context [this (- _)%Qc] |- _ => rewrite this_opp in H
  end;
  rewrite ?this_plus, ?this_minus, ?this_mult, ?this_opp;
  change (this 0%Qc) with 0%Q in *; change (this 1%Qc) with 1%Q in *; lra.

Lemma qltb_true a b : qltb a b = true <-> (a < b)%Qc.
Proof. unfold qltb, Qclt, Qlt, Qccompare, Qcompare. unfold Z.lt. destruct (_ ?= _)%Z; split; congruence. Qed.

Lemma qltb_false a b : qltb a b = false <-> (b <= a)%Qc.
Proof.
  rewrite <- not_true_iff_false, qltb_true. split; [apply Qcnot_lt_le|apply Qcle_not_lt].
Qed.

Lemma qmax_spec a b : (a <= qmax a b)%Qc /\ (b <= qmax a b)%Qc /\ (qmax a b = a \/ qmax a b = b).
Proof.
  unfold qmax. destruct (qltb a b) eqn:E.
  - apply qltb_true in E. split; [apply Qclt_le_weak; auto|]. split; [apply Qcle_refl|auto].
  - apply qltb_false in E. split; [apply Qcle_refl|auto].
Qed.

(** The attributes that steps do not change. *)
Definition config (s : sched) :=
  (s_factor s, s_min_lrs s, s_patience s, s_cooldown s, (s_mode s, s_threshold s, s_tmode s),
   s_mode_worse s, s_is_better s, s_eps s).

Lemma config_count m s : config (count_epoch m s) = config s.
Proof. unfold count_epoch. destruct (0 <? _)%Z; reflexivity. Qed.

Lemma config_reduce lrs : forall i s, config (fst (fst (reduce_lr i lrs s))) = config s.
Proof.
  induction lrs as [|old rest IH]; intros i s; simpl; [reflexivity|].
  destruct (list_item _ i) as [m|e]; [|reflexivity].
  destruct (qltb _ _);
    match goal with |- context [reduce_lr ?i rest ?s'] => specialize (IH i s');
      destruct (reduce_lr i rest s') as [[s'' r'] r]; cbn [fst] in *; rewrite IH; reflexivity end.
Qed.

Lemma config_step m e sl : config (fst (fst (step m e sl))) = config (fst sl).
Proof.
  unfold step. destruct sl as [s lrs]. cbn [fst snd].
  set (s1 := count_epoch m (set_epoch m e s)).
  assert (E1 : config s1 = config s) by (unfold s1; rewrite config_count; reflexivity).
  destruct (_ <? _)%Z; [|exact E1].
  pose proof (config_reduce lrs 0 s1) as R.
  destruct (reduce_lr 0 lrs s1) as [[s' lrs'] [u|er]]; cbn [fst] in *; rewrite <- E1, <- R; reflexivity.
Qed.

Lemma config_steps ms : forall sl, config (fst (after ms sl)) = config (fst sl).
Proof.
  unfold after. induction ms as [|[m e] ms IH]; intro sl; simpl; [reflexivity|].
  pose proof (config_step m e sl) as H.
  destruct (step m e sl) as [sl' [u|er]]; cbn [fst] in *; [rewrite IH|]; exact H.
Qed.

(** ** What a reduction does to the learning rates *)

(** Relation between one group's old and new learning rate. *)
Definition reduced_group (factor eps mn old new : Qc) : Prop :=
  let c := qmax (old * factor)%Qc mn in
  (eps < old - c)%Qc /\ new = c \/ (old - c <= eps)%Qc /\ new = old.

Lemma reduce_lr_ok lrs : forall i s, List.length lrs + i <= List.length (s_min_lrs s) ->
  exists s' lrs', reduce_lr i lrs s = ((s', lrs'), Ok tt) /\
    List.length lrs' = List.length lrs /\
    forall k old, nth_error lrs k = Some old ->
      exists mn new, nth_error (s_min_lrs s) (i + k) = Some mn /\ nth_error lrs' k = Some new /\
                     reduced_group (s_factor s) (s_eps s) mn old new.
Proof.
  induction lrs as [|old rest IH]; intros i s L; simpl.
  - exists s, []. repeat split. intros [|k]; discriminate.
  - simpl in L. destruct (nth_error (s_min_lrs s) i) as [mn|] eqn:EM.
    2:{ apply nth_error_None in EM. lia. }
    unfold list_item. rewrite EM.
    set (p := if qltb (s_eps s) (old - qmax (old * s_factor s) mn)
              then (qmax (old * s_factor s) mn, reset s) else (old, set_converged s)).
    assert (HP : config (snd p) = config s) by (unfold p; destruct (qltb _ _); reflexivity).
    assert (HG : reduced_group (s_factor s) (s_eps s) mn old (fst p)).
    { unfold p, reduced_group. destruct (qltb _ _) eqn:Q; simpl.
      - left. apply qltb_true in Q. auto.
      - right. apply qltb_false in Q. auto. }
    assert (HM : s_min_lrs (snd p) = s_min_lrs s /\ s_factor (snd p) = s_factor s /\ s_eps (snd p) = s_eps s)
      by (unfold config in HP; repeat split; congruence).
    destruct HM as [HM [HF HE]].
    destruct (IH (S i) (snd p)) as [s' [lrs' [E [L' N]]]]; [rewrite HM; lia|].
    destruct p as [lr s1]. cbn [fst snd] in *. rewrite E. exists s', (lr :: lrs').
    split; [reflexivity|]. split; [simpl; lia|].
    intros [|k] o Ho; simpl in Ho.
    + injection Ho as <-. exists mn, lr. rewrite Nat.add_0_r. repeat split; auto.
    + destruct (N k o Ho) as [mn' [new [A [B C]]]]. exists mn', new.
      rewrite HM, HF, HE in *. replace (i + S k)%nat with (S i + k)%nat by lia. repeat split; auto.
Qed.

(** Whatever happens, learning rates only change as in [reduced_group]. *)
Definition group_step (factor eps : Qc) (mins : list Qc) (i : nat) (lrs lrs' : list Qc) : Prop :=
  List.length lrs' = List.length lrs /\
  forall k old new, nth_error lrs k = Some old -> nth_error lrs' k = Some new -> new <> old ->
    exists mn, nth_error mins (i + k) = Some mn /\ new = qmax (old * factor)%Qc mn /\ (eps < old - new)%Qc.

Lemma group_step_refl f e m i l : group_step f e m i l l.
Proof. split; auto. intros. congruence. Qed.

Lemma reduce_lr_groups lrs : forall i s,
  group_step (s_factor s) (s_eps s) (s_min_lrs s) i lrs (snd (fst (reduce_lr i lrs s))).
Proof.
  induction lrs as [|old rest IH]; intros i s; [apply group_step_refl|].
  cbn [reduce_lr].
  destruct (list_item (s_min_lrs s) i) as [mn|e] eqn:EM; [|apply group_step_refl].
  unfold list_item in EM. destruct (nth_error (s_min_lrs s) i) eqn:EN; [|discriminate]. injection EM as ->.
  set (p := if qltb (s_eps s) (old - qmax (old * s_factor s) mn)
              then (qmax (old * s_factor s) mn, reset s) else (old, set_converged s)).
  assert (HP : config (snd p) = config s) by (unfold p; destruct (qltb _ _); reflexivity).
  assert (HG : fst p <> old -> fst p = qmax (old * s_factor s) mn /\ (s_eps s < old - fst p)%Qc).
  { unfold p. destruct (qltb _ _) eqn:Q; simpl; [|congruence]. apply qltb_true in Q. auto. }
  assert (HM : s_min_lrs (snd p) = s_min_lrs s /\ s_factor (snd p) = s_factor s /\ s_eps (snd p) = s_eps s)
    by (unfold config in HP; repeat split; congruence).
  destruct HM as [HM [HF HE]]. specialize (IH (S i) (snd p)).
  destruct p as [lr s1]. cbn [fst snd] in *. rewrite HM, HF, HE in IH.
  destruct (reduce_lr (S i) rest s1) as [[s' lrs'] r]. cbn [fst snd] in *. destruct IH as [L N].
  split; [simpl; lia|]. intros [|k] o nw Ho Hn D; simpl in Ho, Hn.
  - injection Ho as <-. injection Hn as <-. exists mn. rewrite Nat.add_0_r. destruct (HG D). auto.
  - destruct (N k o nw Ho Hn D) as [mn' H]. exists mn'.
    replace (i + S k)%nat with (S i + k)%nat by lia. exact H.
Qed.

Lemma step_groups m e sl :
  group_step (s_factor (fst sl)) (s_eps (fst sl)) (s_min_lrs (fst sl)) 0 (snd sl)
             (snd (fst (step m e sl))).
Proof.
  destruct sl as [s lrs]. unfold step. cbn [fst snd].
  set (s1 := count_epoch m (set_epoch m e s)).
  assert (E1 : config s1 = config s) by (unfold s1; rewrite config_count; reflexivity).
  destruct (_ <? _)%Z; [|apply group_step_refl].
  pose proof (reduce_lr_groups lrs 0 s1) as R.
  assert (s_factor s1 = s_factor s /\ s_eps s1 = s_eps s /\ s_min_lrs s1 = s_min_lrs s) as [K1 [K2 K3]]
    by (unfold config in E1; repeat split; congruence).
  rewrite K1, K2, K3 in R.
  destruct (reduce_lr 0 lrs s1) as [[s' lrs'] [u|er]]; exact R.
Qed.

(** ** C47 *)
Lemma steps_nonincreasing ms : forall sl, (0 <= s_eps (fst sl))%Qc ->
  all_le (snd (after ms sl)) (snd sl).
Proof.
  unfold after, all_le. induction ms as [|[m e] ms IH]; intros sl H; simpl.
  - induction (snd sl); constructor; auto. apply Qcle_refl.
  - assert (S1 : Forall2 Qcle (snd (fst (step m e sl))) (snd sl)).
    { destruct (step_groups m e sl) as [L N]. revert L N. generalize (snd (fst (step m e sl))), (snd sl).
      assert (G : forall (l l' : list Qc), List.length l = List.length l' ->
        (forall k old new, nth_error l' k = Some old -> nth_error l k = Some new -> (new <= old)%Qc) ->
        Forall2 Qcle l l').
      { induction l as [|a l IHl]; intros [|b l'] L N; try discriminate; constructor.
        - apply (N 0); reflexivity.
        - apply IHl; [simpl in L; lia|]. intros k. apply (N (S k)). }
      intros l l' L N. apply G; auto. intros k old new Ho Hn.
      destruct (Qc_eq_dec new old) as [->|D]; [apply Qcle_refl|].
      destruct (N k old new Ho Hn D) as [mn [_ [_ K]]]. clear -K H. qc. }
    destruct (step m e sl) as [sl' [u|er]] eqn:ES; cbn [fst snd] in *; auto.
    assert (Heq : s_eps (fst sl') = s_eps (fst sl)).
    { pose proof (config_step m e sl) as C. rewrite ES in C. unfold config in C. cbn [fst] in C. congruence. }
    specialize (IH sl'). rewrite Heq in IH. specialize (IH H).
    clear -IH S1. revert IH S1. generalize (snd (fst (steps ms sl'))), (snd sl'), (snd sl).
    intros l1 l2 l3 H. revert l3. induction H; intros l3 H3; inversion H3; subst; constructor; auto.
    eapply Qcle_trans; eauto.
Qed.

Lemma steps_above_minimum ms : forall sl k mn,
  nth_error (s_min_lrs (fst sl)) k = Some mn ->
  (forall lr, nth_error (snd sl) k = Some lr -> (mn <= lr)%Qc) ->
  forall lr, nth_error (snd (after ms sl)) k = Some lr -> (mn <= lr)%Qc.
Proof.
  unfold after. induction ms as [|[m e] ms IH]; intros sl k mn HM H; simpl; auto.
  assert (S1 : forall lr, nth_error (snd (fst (step m e sl))) k = Some lr -> (mn <= lr)%Qc).
  { destruct (step_groups m e sl) as [L N]. intros lr Hl.
    destruct (nth_error (snd sl) k) as [old|] eqn:Ho.
    - destruct (Qc_eq_dec lr old) as [->|D]; [auto|].
      destruct (N k old lr Ho Hl D) as [mn' [A [B _]]]. simpl in A. rewrite HM in A. injection A as <-.
      rewrite B. apply qmax_spec.
    - apply nth_error_None in Ho.
      assert (k < List.length (snd (fst (step m e sl)))) by (apply nth_error_Some; congruence). lia. }
  pose proof (config_step m e sl) as C.
  destruct (step m e sl) as [sl' [u|er]]; cbn [fst snd] in *; auto.
  apply IH; auto. replace (s_min_lrs (fst sl')) with (s_min_lrs (fst sl)) by (unfold config in C; congruence).
  exact HM.
Qed.

(** ** C49 *)
Lemma reduce_converged lrs : forall i s s' lrs' r, reduce_lr i lrs s = ((s', lrs'), r) ->
  (s_converged s = true -> s_converged s' = true) /\
  (s_converged s = false -> s_converged s' = true ->
     exists k old mn, nth_error lrs k = Some old /\ nth_error (s_min_lrs s) (i + k) = Some mn /\
       (old - qmax (old * s_factor s) mn <= s_eps s)%Qc).
Proof.
  induction lrs as [|old rest IH]; intros i s s' lrs' r E; cbn [reduce_lr] in E.
  - injection E as <- _ _. split; congruence.
  - destruct (list_item (s_min_lrs s) i) as [mn|e] eqn:EM; [|injection E as <- _ _; split; congruence].
    unfold list_item in EM. destruct (nth_error (s_min_lrs s) i) eqn:EN; [|discriminate]. injection EM as ->.
    destruct (qltb (s_eps s) (old - qmax (old * s_factor s) mn)) eqn:Q.
    + destruct (reduce_lr (S i) rest (reset s)) as [[s1 l1] r1] eqn:E1. injection E as <- <- <-.
      destruct (IH _ _ _ _ _ E1) as [A B]. split; [exact A|]. intros F T.
      destruct (B F T) as [k [o [mn' [K1 [K2 K3]]]]]. exists (S k), o, mn'.
      replace (i + S k)%nat with (S i + k)%nat by lia. auto.
    + destruct (reduce_lr (S i) rest (set_converged s)) as [[s1 l1] r1] eqn:E1. injection E as <- <- <-.
      destruct (IH _ _ _ _ _ E1) as [A B]. split; [intros _; apply A; reflexivity|].
      intros _ _. exists 0%nat, old, mn. rewrite Nat.add_0_r. apply qltb_false in Q. auto.
Qed.

Lemma step_converged m e sl :
  (s_converged (fst sl) = true -> s_converged (fst (fst (step m e sl))) = true) /\
  (s_converged (fst sl) = false -> s_converged (fst (fst (step m e sl))) = true ->
     exists k old mn, nth_error (snd sl) k = Some old /\ nth_error (s_min_lrs (fst sl)) k = Some mn /\
       (old - qmax (old * s_factor (fst sl)) mn <= s_eps (fst sl))%Qc).
Proof.
  destruct sl as [s lrs]. unfold step. cbn [fst snd].
  set (s1 := count_epoch m (set_epoch m e s)).
  assert (E1 : config s1 = config s) by (unfold s1; rewrite config_count; reflexivity).
  assert (E2 : s_converged s1 = s_converged s)
    by (unfold s1, count_epoch; destruct (0 <? _)%Z; reflexivity).
  destruct (_ <? _)%Z; [|cbn [fst]; rewrite E2; split; congruence].
  destruct (reduce_lr 0 lrs s1) as [[s' lrs'] r] eqn:ER.
  destruct (reduce_converged _ _ _ _ _ _ ER) as [A B]. rewrite E2 in A, B.
  assert (s_factor s1 = s_factor s /\ s_eps s1 = s_eps s /\ s_min_lrs s1 = s_min_lrs s) as [K1 [K2 K3]]
    by (unfold config in E1; repeat split; congruence).
  rewrite K1, K2, K3 in B. destruct r; split; cbn [fst]; auto.
Qed.

Lemma steps_converged ms : forall sl,
  s_converged (fst sl) = true -> s_converged (fst (after ms sl)) = true.
Proof.
  unfold after. induction ms as [|[m e] ms IH]; intros sl H; simpl; auto.
  pose proof (proj1 (step_converged m e sl) H) as S1.
  destruct (step m e sl) as [sl' [u|er]]; cbn [fst] in *; auto.
Qed.

Lemma converged_reason m e sl :
  has_convergence_been_reached (fst sl) = false ->
  has_convergence_been_reached (fst (fst (step m e sl))) = true ->
  exists k old mn new, nth_error (snd sl) k = Some old /\ nth_error (s_min_lrs (fst sl)) k = Some mn /\
    reduced (s_factor (fst sl)) old mn new /\ (old - new <= s_eps (fst sl))%Qc.
Proof.
  intros F T. destruct (proj2 (step_converged m e sl) F T) as [k [old [mn [A [B C]]]]].
  exists k, old, mn, (qmax (old * s_factor (fst sl)) mn). split; auto. split; auto. split; auto.
  destruct (qmax_spec (old * s_factor (fst sl)) mn) as [X [Y Z]]. repeat split; auto.
Qed.

(** ** C48 *)

(** The history of an executed scheduler ends with [s_bad] bad epochs. *)
Lemma count_facts m e s :
  let s1 := count_epoch m (set_epoch m e s) in
  let better := cmp_better (s_is_better s) m (s_best s) in
  s_bad s1 = (if (0 <? s_cooldown_counter s)%Z then 0 else if better then 0 else s_bad s + 1)%Z /\
  s_cooldown_counter s1 = (if (0 <? s_cooldown_counter s)%Z then s_cooldown_counter s - 1
                           else s_cooldown_counter s)%Z.
Proof.
  cbv zeta. unfold count_epoch. simpl. destruct (0 <? _)%Z, (cmp_better _ _ _); split; reflexivity.
Qed.

Lemma step_no_attempt m e s lrs :
  let s1 := count_epoch m (set_epoch m e s) in
  (s_bad s1 <= s_patience s)%Z -> step m e (s, lrs) = ((s1, lrs), Ok tt).
Proof.
  cbv zeta. intro H. unfold step. cbn [fst snd].
  replace (s_patience (count_epoch _ _)) with (s_patience s)
    by (unfold count_epoch; destruct (0 <? _)%Z; reflexivity).
  destruct (Z.ltb_spec (s_patience s) (s_bad (count_epoch m (set_epoch m e s)))); [lia|reflexivity].
Qed.

(** After an attempted reduction that succeeds the counters restart. *)
Lemma step_attempt m e s lrs sl' :
  (s_patience s < s_bad (count_epoch m (set_epoch m e s)))%Z -> step m e (s, lrs) = (sl', Ok tt) ->
  s_bad (fst sl') = 0%Z /\ s_cooldown_counter (fst sl') = s_cooldown s.
Proof.
  intros H E. unfold step in E. cbn [fst snd] in E.
  replace (s_patience (count_epoch _ _)) with (s_patience s) in E
    by (unfold count_epoch; destruct (0 <? _)%Z; reflexivity).
  apply Z.ltb_lt in H. rewrite H in E.
  set (s1 := count_epoch m (set_epoch m e s)) in *.
  pose proof (config_reduce lrs 0 s1) as C. unfold s1 in C at 2. rewrite config_count in C.
  destruct (reduce_lr 0 lrs s1) as [[s2 l2] [u|er]]; [|discriminate]. injection E as <-.
  cbn [fst] in *. split; [reflexivity|]. simpl. unfold config in C. simpl in C. congruence.
Qed.

(** Between reductions, [s_bad] counts the trailing bad epochs. *)
Fixpoint bad_run (ms : list (num * option Z)) (sl : sched * list Qc) : Prop :=
  match ms with
  | [] => True
  | m :: rest =>
      cmp_better (s_is_better (fst sl)) (fst m) (s_best (fst sl)) = false /\
      (s_cooldown_counter (fst sl) <= 0)%Z /\
      bad_run rest (fst (step (fst m) (snd m) sl))
  end.

Lemma bad_run_app w1 : forall w2 sl, bad_run (w1 ++ w2) sl <->
  bad_run w1 sl /\ bad_run w2 (run_all w1 sl).
Proof. induction w1 as [|m w1 IH]; intros; simpl; [tauto|]. rewrite IH. tauto. Qed.

Lemma steps_run_all ms : forall sl sl', steps ms sl = (sl', Ok tt) -> run_all ms sl = sl'.
Proof.
  induction ms as [|m ms IH]; intros sl sl' E; simpl in *; [congruence|].
  destruct (step (fst m) (snd m) sl) as [sl1 [u|er]]; [|discriminate]. apply IH in E. exact E.
Qed.

Lemma steps_app ms1 : forall ms2 sl, steps (ms1 ++ ms2) sl =
  match steps ms1 sl with
  | (sl', Ok _) => steps ms2 sl'
  | (sl', Raise e) => (sl', Raise e)
  end.
Proof.
  induction ms1 as [|m ms1 IH]; intros; simpl; [reflexivity|].
  destruct (step (fst m) (snd m) sl) as [sl1 [u|er]]; auto.
Qed.

Lemma bad_window ms : forall sl sl', s_bad (fst sl) = 0%Z -> steps ms sl = (sl', Ok tt) ->
  exists pre w, ms = pre ++ w /\ Z.of_nat (List.length w) = s_bad (fst sl') /\
    bad_run w (run_all pre sl).
Proof.
  induction ms as [|m ms IH] using rev_ind; intros sl sl' B E.
  - injection E as <-. exists [], []. rewrite B. simpl. auto.
  - rewrite steps_app in E. destruct (steps ms sl) as [sl1 [[]|er]] eqn:E1; [|discriminate].
    simpl in E. destruct (step (fst m) (snd m) sl1) as [sl2 [[]|er]] eqn:E2; [|discriminate].
    injection E as <-. destruct (IH _ _ B E1) as [pre [w [-> [L W]]]].
    assert (R : run_all w (run_all pre sl) = sl1).
    { unfold run_all. rewrite <- fold_left_app. apply steps_run_all in E1. exact E1. }
    destruct (count_facts (fst m) (snd m) (fst sl1)) as [F1 F2].
    destruct sl1 as [s1 l1]. cbn [fst] in *.
    destruct (Z_le_gt_dec (s_bad (count_epoch (fst m) (set_epoch (fst m) (snd m) s1))) (s_patience s1)) as [H|H].
    + rewrite (step_no_attempt _ _ _ l1 H) in E2. injection E2 as <-. cbn [fst]. rewrite F1.
      destruct (Z.ltb_spec 0 (s_cooldown_counter s1)).
      { exists (pre ++ w ++ [m]), []. rewrite app_nil_r, app_assoc. simpl. auto. }
      destruct (cmp_better (s_is_better s1) (fst m) (s_best s1)) eqn:EB.
      { exists (pre ++ w ++ [m]), []. rewrite app_nil_r, app_assoc. simpl. auto. }
      exists pre, (w ++ [m]). rewrite app_assoc. split; auto. rewrite app_length. simpl. split; [lia|].
      apply bad_run_app. split; auto. rewrite R. simpl. auto.
    + assert (HA : (s_patience s1 < s_bad (count_epoch (fst m) (set_epoch (fst m) (snd m) s1)))%Z) by lia.
      destruct (step_attempt _ _ _ _ _ HA E2) as [-> _].
      exists (pre ++ w ++ [m]), []. rewrite app_nil_r, app_assoc. simpl. auto.
Qed.

Lemma change_is_attempt m e s lrs :
  snd (fst (step m e (s, lrs))) <> lrs ->
  (s_patience s < s_bad (count_epoch m (set_epoch m e s)))%Z.
Proof.
  intro D. apply Z.nle_gt. intro H. rewrite (step_no_attempt m e s lrs H) in D. apply D. reflexivity.
Qed.

(** A change of learning rate ends [patience]+1 bad epochs. *)
Lemma change_after_patience ms m sl sl' :
  s_bad (fst sl) = 0%Z -> (0 <= s_patience (fst sl))%Z -> steps ms sl = (sl', Ok tt) ->
  snd (fst (step (fst m) (snd m) sl')) <> snd sl' ->
  exists pre w, ms ++ [m] = pre ++ w /\ (s_patience (fst sl) < Z.of_nat (List.length w))%Z /\
    bad_run w (run_all pre sl).
Proof.
  intros B P E D. destruct (bad_window _ _ _ B E) as [pre [w [-> [L W]]]].
  assert (R : run_all w (run_all pre sl) = sl').
  { unfold run_all. rewrite <- fold_left_app. apply steps_run_all in E. exact E. }
  pose proof (config_steps (pre ++ w) sl) as C. unfold after in C. rewrite E in C. cbn [fst] in C.
  destruct sl' as [s l]. cbn [fst snd] in *. apply change_is_attempt in D.
  assert (PE : s_patience s = s_patience (fst sl)) by (unfold config in C; congruence).
  destruct (count_facts (fst m) (snd m) s) as [F1 _]. rewrite F1 in D.
  destruct (Z.ltb_spec 0 (s_cooldown_counter s)); [lia|].
  destruct (cmp_better (s_is_better s) (fst m) (s_best s)) eqn:EB; [lia|].
  exists pre, (w ++ [m]). rewrite app_assoc. split; auto. rewrite app_length. simpl. split; [lia|].
  apply bad_run_app. split; auto. rewrite R. simpl. auto.
Qed.

(** The potential that grows by at most one per step. *)
Lemma potential_step m e s lrs sl' : (0 <= s_bad s)%Z -> (0 <= s_cooldown_counter s)%Z ->
  (0 <= s_patience s)%Z -> (0 <= s_cooldown s)%Z -> step m e (s, lrs) = (sl', Ok tt) ->
  (0 <= s_bad (fst sl'))%Z /\ (0 <= s_cooldown_counter (fst sl'))%Z /\
  (s_bad (fst sl') - s_cooldown_counter (fst sl') <= s_bad s - s_cooldown_counter s + 1)%Z.
Proof.
  intros B C P D E. destruct (count_facts m e s) as [F1 F2]. cbv zeta in *.
  destruct (Z_le_gt_dec (s_bad (count_epoch m (set_epoch m e s))) (s_patience s)) as [H|H].
  - rewrite (step_no_attempt _ _ _ _ H) in E. injection E as <-. cbn [fst]. rewrite F1, F2.
    destruct (Z.ltb_spec 0 (s_cooldown_counter s)), (cmp_better (s_is_better s) m (s_best s)); lia.
  - assert (HA : (s_patience s < s_bad (count_epoch m (set_epoch m e s)))%Z) by lia.
    destruct (step_attempt _ _ _ _ _ HA E) as [-> ->].
    rewrite F1 in HA. destruct (Z.ltb_spec 0 (s_cooldown_counter s)), (cmp_better (s_is_better s) m (s_best s)); lia.
Qed.

Lemma potential_steps ms : forall sl sl', (0 <= s_bad (fst sl))%Z -> (0 <= s_cooldown_counter (fst sl))%Z ->
  (0 <= s_patience (fst sl))%Z -> (0 <= s_cooldown (fst sl))%Z -> steps ms sl = (sl', Ok tt) ->
  (0 <= s_bad (fst sl'))%Z /\ (0 <= s_cooldown_counter (fst sl'))%Z /\
  (s_bad (fst sl') - s_cooldown_counter (fst sl')
     <= s_bad (fst sl) - s_cooldown_counter (fst sl) + Z.of_nat (List.length ms))%Z.
Proof.
  induction ms as [|m ms IH]; intros sl sl' B C P D E.
  - injection E as <-. simpl. lia.
  - cbn [steps] in E. destruct (step (fst m) (snd m) sl) as [sl1 [[]|er]] eqn:E1; [|discriminate].
    pose proof (config_step (fst m) (snd m) sl) as K. rewrite E1 in K. cbn [fst] in K.
    assert (K1 : s_patience (fst sl1) = s_patience (fst sl) /\ s_cooldown (fst sl1) = s_cooldown (fst sl))
      by (unfold config in K; split; congruence). destruct K1 as [K1 K2].
    destruct sl as [s l]. cbn [fst] in *.
    destruct (potential_step _ _ _ _ _ B C P D E1) as [X [Y Z]].
    destruct (IH sl1 sl') as [X' [Y' Z']]; auto; try lia. cbn [List.length]. lia.
Qed.

Lemma changes_far_apart s0 l0 ms m1 mid m2 sl sl1 sl2 :
  s_bad s0 = 0%Z -> s_cooldown_counter s0 = 0%Z -> (0 <= s_patience s0)%Z -> (0 <= s_cooldown s0)%Z ->
  steps ms (s0, l0) = (sl, Ok tt) -> step (fst m1) (snd m1) sl = (sl1, Ok tt) -> snd sl1 <> snd sl ->
  steps mid sl1 = (sl2, Ok tt) -> snd (fst (step (fst m2) (snd m2) sl2)) <> snd sl2 ->
  (s_cooldown s0 + s_patience s0 <= Z.of_nat (List.length mid))%Z.
Proof.
  intros B C P D E E1 D1 E2 D2.
  pose proof (config_steps ms (s0, l0)) as K. unfold after in K. rewrite E in K. cbn [fst] in K.
  pose proof (config_step (fst m1) (snd m1) sl) as K1. rewrite E1 in K1. cbn [fst] in K1.
  pose proof (config_steps mid sl1) as K2. unfold after in K2. rewrite E2 in K2. cbn [fst] in K2.
  assert (HP : s_patience (fst sl) = s_patience s0 /\ s_patience (fst sl1) = s_patience s0 /\
               s_patience (fst sl2) = s_patience s0 /\ s_cooldown (fst sl) = s_cooldown s0 /\
               s_cooldown (fst sl1) = s_cooldown s0).
  { unfold config in *. repeat split; congruence. }
  destruct HP as (P0 & P1 & P2 & C0 & C1).
  assert (A : s_bad (fst sl1) = 0%Z /\ s_cooldown_counter (fst sl1) = s_cooldown s0).
  { destruct sl as [s l]. cbn [fst snd] in *. pose proof (change_is_attempt (fst m1) (snd m1) s l) as A.
    rewrite E1 in A. cbn [fst snd] in A. destruct (step_attempt _ _ _ _ _ (A D1) E1) as [A1 A2].
    rewrite A1, A2. auto. }
  destruct A as [A1 A2].
  destruct (potential_steps mid sl1 sl2 ltac:(lia) ltac:(lia) ltac:(lia) ltac:(lia) E2) as [X [Y Z]].
  destruct sl2 as [s2 l2]. cbn [fst snd] in *. apply change_is_attempt in D2.
  destruct (count_facts (fst m2) (snd m2) s2) as [F _]. cbv zeta in F. rewrite F in D2. clear -D2 X Y Z A1 A2 P2 P D.
  destruct (Z.ltb_spec 0 (s_cooldown_counter s2)), (cmp_better (s_is_better s2) (fst m2) (s_best s2)); lia.
Qed.

(** A new scheduler. *)
Lemma new_sched_facts n mode f p th tm cd mn eps s :
  new_sched n mode f p th tm cd mn eps = Ok s ->
  s_bad s = 0%Z /\ s_cooldown_counter s = 0%Z /\ s_patience s = p /\ s_cooldown s = cd /\
  s_converged s = false /\ s_eps s = eps /\ s_factor s = f /\ (f < 1)%Qc /\
  s_min_lrs s = match mn with MinScalar q => repeat q n | MinList l => l end /\
  List.length (s_min_lrs s) = n /\ s_best s = s_mode_worse s /\ s_is_better s = mkCmp mode tm th /\
  init_is_better (s_mode s) (s_tmode s) (s_threshold s) = Ok (s_mode_worse s, s_is_better s) /\
  s_mode s = mode /\ s_tmode s = tm /\ s_threshold s = th.
Proof.
  unfold new_sched. destruct (qltb f 1) eqn:EF; [|discriminate]. cbn [negb].
  intro E. apply bind_ok in E as [mins [EM E]]. apply bind_ok in E as [[w c] [EI E]]. injection E as <-.
  apply qltb_true in EF. cbn.
  assert (C : c = mkCmp mode tm th).
  { unfold init_is_better in EI. destruct (negb _); [discriminate|]. destruct (negb _); [discriminate|]. congruence. }
  repeat split; auto; destruct mn; try (destruct (Nat.eqb_spec (List.length l) n); [|discriminate]);
    injection EM as <-; auto. apply repeat_length.
Qed.

(** With one minimum per group steps never raise. *)
Lemma step_ok m e sl : List.length (snd sl) = List.length (s_min_lrs (fst sl)) ->
  exists sl', step m e sl = (sl', Ok tt) /\ List.length (snd sl') = List.length (s_min_lrs (fst sl')).
Proof.
  intro L. destruct sl as [s l]. cbn [fst snd] in L.
  assert (G : exists sl', step m e (s, l) = (sl', Ok tt)).
  { unfold step. cbn [fst snd]. set (s1 := count_epoch m (set_epoch m e s)).
    assert (E1 : s_min_lrs s1 = s_min_lrs s) by (unfold s1, count_epoch; destruct (0 <? _)%Z; reflexivity).
    destruct (_ <? _)%Z; [|eauto].
    destruct (reduce_lr_ok l 0 s1) as [s' [l' [E _]]]; [rewrite E1; lia|]. rewrite E. eauto. }
  destruct G as [sl' E]. exists sl'. split; auto.
  pose proof (config_step m e (s, l)) as C. pose proof (step_groups m e (s, l)) as [LG _].
  rewrite E in C, LG. cbn [fst snd] in *. unfold config in C. rewrite LG, L. f_equal. congruence.
Qed.

Lemma steps_ok ms : forall sl, List.length (snd sl) = List.length (s_min_lrs (fst sl)) ->
  exists sl', steps ms sl = (sl', Ok tt) /\ List.length (snd sl') = List.length (s_min_lrs (fst sl')).
Proof.
  induction ms as [|m ms IH]; intros sl L; simpl; [eauto|].
  destruct (step_ok (fst m) (snd m) sl L) as [sl1 [E L1]]. rewrite E. auto.
Qed.

(** ** C50 *)

Definition consistent (s : sched) : Prop :=
  init_is_better (s_mode s) (s_tmode s) (s_threshold s) = Ok (s_mode_worse s, s_is_better s).

Definition set_current (c : option num) (s : sched) : sched :=
  mkSched (s_factor s) (s_min_lrs s) (s_patience s) (s_cooldown s) (s_cooldown_counter s) (s_mode s)
    (s_threshold s) (s_tmode s) (s_best s) (s_bad s) (s_mode_worse s) (s_is_better s) (s_eps s)
    (s_last_epoch s) (s_converged s) c.

Lemma load_save s s' : consistent s ->
  exists c, load_state_dict (state_dict s) s' = (set_current c s, Ok tt).
Proof.
  unfold consistent, load_state_dict, state_dict. cbn. intros ->. eexists. reflexivity.
Qed.

Lemma step_set_current c m e s l : step m e (set_current c s, l) = step m e (s, l).
Proof. reflexivity. Qed.

Lemma consistent_after ms sl : consistent (fst sl) -> consistent (fst (after ms sl)).
Proof.
  unfold consistent. intro H. pose proof (config_steps ms sl) as C. unfold config in C.
  assert (s_mode (fst (after ms sl)) = s_mode (fst sl) /\ s_tmode (fst (after ms sl)) = s_tmode (fst sl) /\
          s_threshold (fst (after ms sl)) = s_threshold (fst sl) /\
          s_mode_worse (fst (after ms sl)) = s_mode_worse (fst sl) /\
          s_is_better (fst (after ms sl)) = s_is_better (fst sl)) as (-> & -> & -> & -> & ->)
    by (repeat split; congruence).
  exact H.
Qed.

Lemma restored_behaves n mode f p th tm cd mn eps s0 l0 hist s l other ms :
  new_sched n mode f p th tm cd mn eps = Ok s0 -> after hist (s0, l0) = (s, l) ->
  exists s1, load_state_dict (state_dict s) other = (s1, Ok tt) /\
    observable (after ms (s1, l)) = observable (after ms (s, l)) /\
    snd (steps ms (s1, l)) = snd (steps ms (s, l)).
Proof.
  intros E H. apply new_sched_facts in E.
  assert (C : consistent s).
  { replace s with (fst (after hist (s0, l0))) by (rewrite H; reflexivity). apply consistent_after.
    cbn. unfold consistent. apply E. }
  destruct (load_save s other C) as [c EL]. exists (set_current c s). split; auto.
  destruct ms as [|m ms]; [split; reflexivity|]. unfold after. cbn [steps]. rewrite step_set_current.
  split; reflexivity.
Qed.

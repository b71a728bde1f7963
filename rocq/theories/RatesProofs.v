(** Learning rates with ReduceLROnPlateau. *)
From Coq Require Import List String ZArith QArith Qcanon Bool Lia Sorted Permutation.
From Verif Require Import Base SchedulerModel LoopProofs FunctionalModel FunctionalSpec FunctionalProofs RatesModel RatesSpec.
Import ListNotations.
Open Scope list_scope.
Open Scope Z_scope.

(** The epochs of the scheduler steps in a log. *)
Definition sched_of (e : event) : list Z := match e with Sched k => [k] | _ => [] end.
Definition scheds (log : list event) : list Z := flat_map sched_of log.

Section Plateau.
Variables (f : Qc) (loss : Z -> num).
Definition after (p : plateau) (es : list Z) : plateau := fold_left (fun p k => reduce_on_plateau f (loss k) p) es p.

Lemma after_app p l l' : after p (l ++ l') = after (after p l) l'.
Proof. apply fold_left_app. Qed.

Lemma rates_app l : forall p l', rates f loss p (l ++ l') = rates f loss p l ++ rates f loss (after p (scheds l)) l'.
Proof.
  induction l as [|e l IH]; intros p l'; [reflexivity|]. destruct e; cbn [rates scheds flat_map sched_of app after fold_left] in *; try (rewrite IH; reflexivity).
Qed.

Lemma rates_no_train l : forall p, (forall k b, ~ In (Train k b) l) -> rates f loss p l = [].
Proof.
  induction l as [|e l IH]; intros p H; [reflexivity|]. destruct e; cbn [rates].
  - destruct (H itr q1_frozen). left. reflexivity.
  - apply IH. intros k b I. apply (H k b). right. exact I.
  - apply IH. intros k b I. apply (H k b). right. exact I.
  - apply IH. intros k b I. apply (H k b). right. exact I.
Qed.

Lemma rates_train k b n : forall p l, rates f loss p (repeat (Train k b) n ++ l) = repeat (k, p_lr p) n ++ rates f loss p l.
Proof. induction n as [|n IH]; intros p l; [reflexivity|]. cbn [repeat app rates]. rewrite IH. reflexivity. Qed.

(** A day with its scheduler step. *)
Definition rate_day (P : Z -> Prop) (nb : Z) (k : Z) (d : list event) : Prop :=
  exists fixed ev sc sh P1 P3, d = repeat (Train k fixed) (Z.to_nat nb) ++ ev ++ sc ++ sh /\
    only_if P1 (Evaluate k) ev /\ only_if (P k) (Sched k) sc /\ only_if P3 (Show k) sh.

Lemma repeat_no_sched k b n : scheds (repeat (Train k b) n) = [].
Proof. induction n; [reflexivity|]. exact IHn. Qed.

Lemma day_rates P nb k d : rate_day P nb k d -> forall p, rates f loss p d = repeat (k, p_lr p) (Z.to_nat nb) /\
  (P k /\ scheds d = [k] \/ ~ P k /\ scheds d = []).
Proof.
  intros (b & ev & sc & sh & P1 & P3 & -> & H1 & H2 & H3) p. split.
  - rewrite rates_train. rewrite rates_no_train; [apply app_nil_r|]. intros i c. rewrite !in_app_iff. intros [H|[H|H]].
    + apply (only_if_train _ _ _ _ _ H1) in H. discriminate.
    + apply (only_if_train _ _ _ _ _ H2) in H. discriminate.
    + apply (only_if_train _ _ _ _ _ H3) in H. discriminate.
  - unfold scheds. rewrite !flat_map_app. fold (scheds (repeat (Train k b) (Z.to_nat nb))). rewrite repeat_no_sched.
    destruct H1 as [[_ ->]|[_ ->]], H3 as [[_ ->]|[_ ->]], H2 as [[p2 ->]|[p2 ->]]; (left; split; [exact p2|reflexivity]) || (right; split; [exact p2|reflexivity]).
Qed.

Lemma sorted_snoc l x : StronglySorted Z.lt l -> Forall (fun y => y < x) l -> StronglySorted Z.lt (l ++ [x]).
Proof.
  induction l as [|y l IH]; intros S F; [repeat constructor|]. inversion S as [|? ? S' F']; subst. inversion F as [|? ? F1 F2]; subst.
  change ((y :: l) ++ [x]) with (y :: (l ++ [x])). constructor; [apply IH; assumption|]. apply Forall_app. split; [exact F'|]. repeat constructor. exact F1.
Qed.

Lemma before_step P k es d : 0 <= k -> epochs_before P k es -> P k /\ scheds d = [k] \/ ~ P k /\ scheds d = [] -> epochs_before P (k + 1) (es ++ scheds d).
Proof.
  intros K [S I] [[p ->]|[p ->]].
  - split.
    + apply sorted_snoc; [exact S|]. apply Forall_forall. intros j J. apply I in J. lia.
    + intros j. rewrite in_app_iff, I. cbn [In]. split.
      * intros [[J q]|[<-|[]]]; split; [lia|exact q|lia|exact p].
      * intros [J q]. destruct (Z.eq_dec j k) as [->|N]; [right; left; reflexivity|]. left. split; [lia|exact q].
  - rewrite app_nil_r. split; [exact S|]. intros j. rewrite I. split; intros [J q]; split; try exact q; try lia.
    destruct (Z.eq_dec j k) as [->|N]; [contradiction|lia].
Qed.

Lemma log_rates P nb : forall days n es p, (forall k d, nth_error days k = Some d -> rate_day P nb (Z.of_nat (n + k)) d) ->
  epochs_before P (Z.of_nat n) es -> forall k r, In (k, r) (rates f loss (after p es) (List.concat days)) ->
  Z.of_nat n <= k < Z.of_nat (n + List.length days) /\ exists es', epochs_before P k es' /\ r = p_lr (after p es').
Proof.
  induction days as [|d days IH]; intros n es p D E k r H; [destruct H|].
  cbn [List.concat] in H. rewrite rates_app in H. pose proof (D 0%nat d eq_refl) as D0. rewrite Nat.add_0_r in D0.
  destruct (day_rates P nb _ d D0 (after p es)) as [R SD]. rewrite R in H. apply in_app_iff in H as [H|H].
  - apply repeat_spec in H. injection H as -> ->. split; [cbn [List.length]; lia|]. exists es. split; [exact E|reflexivity].
  - rewrite <- after_app in H. destruct (IH (S n) (es ++ scheds d) p) with (k := k) (r := r) as [K Q].
    + intros j e J. replace (S n + j)%nat with (n + S j)%nat by lia. apply D. exact J.
    + replace (Z.of_nat (S n)) with (Z.of_nat n + 1) by lia. apply before_step; [lia|exact E|exact SD].
    + exact H.
    + split; [cbn [List.length]; lia|exact Q].
Qed.

Lemma before_0 P : epochs_before P 0 [].
Proof. split; [constructor|]. intros j. split; [intros []|lia]. Qed.

Lemma made_rates P nb n log lr : made_of (rate_day P nb) n log -> forall k r, In (k, r) (rates f loss (new_plateau lr) log) ->
  0 <= k < n /\ exists es, epochs_before P k es /\ r = p_lr (after (new_plateau lr) es).
Proof.
  intros (days & -> & L & D) k r H.
  destruct (log_rates P nb days 0 [] (new_plateau lr) D (before_0 P) k r H) as [K Q]. split; [lia|exact Q].
Qed.

(** Sorted lists with the same elements are equal. *)
Lemma sorted_unique : forall l l', StronglySorted Z.lt l -> StronglySorted Z.lt l' -> (forall j, In j l <-> In j l') -> l = l'.
Proof.
  induction l as [|x l IH]; intros [|y l'] S S' H; [reflexivity|destruct (proj2 (H y) (or_introl eq_refl))|destruct (proj1 (H x) (or_introl eq_refl))|].
  inversion S as [|? ? S1 F1]; subst. inversion S' as [|? ? S2 F2]; subst. rewrite Forall_forall in F1, F2.
  assert (x = y).
  { destruct (proj1 (H x) (or_introl eq_refl)) as [E|E]; [symmetry; exact E|]. destruct (proj2 (H y) (or_introl eq_refl)) as [E'|E']; [exact E'|].
    pose proof (F2 x E). pose proof (F1 y E'). lia. }
  subst y. f_equal. apply IH; [assumption|assumption|]. intros j. split; intros J.
  - destruct (proj1 (H j) (or_intror J)) as [<-|K]; [pose proof (F1 x J); lia|exact K].
  - destruct (proj2 (H j) (or_intror J)) as [<-|K]; [pose proof (F2 x J); lia|exact K].
Qed.

Lemma before_unique P k l l' : epochs_before P k l -> epochs_before P k l' -> l = l'.
Proof. intros [S H] [S' H']. apply sorted_unique; [exact S|exact S'|]. intros j. rewrite H, H'. reflexivity. Qed.
End Plateau.

(** The learning rates of spiral.py and simple_functional_mapping_example.py. *)
From Coq Require Import List String ZArith QArith Qcanon Bool Lia Sorted.
From Verif Require Import Base SchedulerModel LoopProofs FunctionalModel FunctionalSpec FunctionalProofs RatesModel RatesSpec RatesProofs RatesProofs2.
Import ListNotations.
Open Scope list_scope.
Open Scope Z_scope.

Lemma made_weaken (day day' : Z -> list event -> Prop) n log : (forall k d, day k d -> day' k d) -> made_of day n log -> made_of day' n log.
Proof. intros H (days & E & L & D). exists days. split; [exact E|]. split; [exact L|]. intros k d K. apply H. apply D. exact K. Qed.

Lemma spiral_made a log : spiral_main a = Ok log -> made_of (rate_day (due a) (100 / a_batch_size a)) (a_niters a + 1) log.
Proof.
  intros H. apply spiral_main_days in H. revert H. apply made_weaken. intros k d (fx & ev & sc & sh & E & _ & H1 & H2 & H3).
  exists fx, ev, sc, sh. eexists. eexists. split; [exact E|]. split; [exact H1|]. split; [exact H2|exact H3].
Qed.
Lemma mapping_made a log : sfm_main a = Ok log -> made_of (rate_day (fun k => (a_test_freq a | k)) (500 / a_batch_size a)) (a_niters a + 1) log.
Proof.
  intros H. apply sfm_schedule in H. revert H. apply made_weaken. intros k d (fx & ev & sc & sh & E & _ & H1 & H2 & H3).
  exists fx, ev, sc, sh. eexists. eexists. split; [exact E|]. split; [exact H1|]. split; [exact H2|exact H3].
Qed.

(** Logs with the same steps have the same rates. *)
Lemma made_same f loss P nb n log log' p : made_of (rate_day P nb) n log -> made_of (rate_day P nb) n log' -> rates f loss p log = rates f loss p log'.
Proof.
  intros (days & -> & L & D) (days' & -> & L' & D'). assert (E : List.length days = List.length days') by lia. clear L L'.
  revert D D'. change (fun k : nat => Z.of_nat k) with (fun k : nat => Z.of_nat (0 + k)).
  assert (G : forall m p, (forall k d, nth_error days k = Some d -> rate_day P nb (Z.of_nat (m + k)) d) ->
              (forall k d, nth_error days' k = Some d -> rate_day P nb (Z.of_nat (m + k)) d) -> rates f loss p (List.concat days) = rates f loss p (List.concat days')).
  { clear p. revert days' E. induction days as [|d days IH]; intros [|d' days'] E m p D D'; [reflexivity|discriminate E|discriminate E|].
    cbn [List.concat]. rewrite !rates_app. pose proof (D 0%nat d eq_refl) as H. pose proof (D' 0%nat d' eq_refl) as H'.
    destruct (day_rates f loss P nb _ d H p) as [-> X]. destruct (day_rates f loss P nb _ d' H' p) as [-> X'].
    replace (scheds d') with (scheds d) by (destruct X as [[x ->]|[x ->]], X' as [[x' ->]|[x' ->]]; first [reflexivity|contradiction]).
    apply f_equal. injection E as E. apply (IH days' E (S m)).
    - intros k e K. replace (S m + k)%nat with (m + S k)%nat by lia. apply D. exact K.
    - intros k e K. replace (S m + k)%nat with (m + S k)%nat by lia. apply D'. exact K. }
  exact (G 0%nat p).
Qed.

Section Runs.
Variables (P : Z -> Prop) (f lr : Qc) (loss : Z -> num).
Hypothesis P0 : P 0.
Hypothesis F : (0 <= f)%Qc.
Hypothesis LR : (0 <= lr)%Qc.

Lemma head_0 k e es : epochs_before P k (e :: es) -> e = 0.
Proof.
  intros [S I]. assert (E : 0 <= e < k) by (apply (I e); left; reflexivity). assert (Z0 : In 0 (e :: es)) by (apply I; split; [lia|exact P0]).
  destruct Z0 as [->|Z0]; [reflexivity|]. inversion S as [|? ? _ A]; subst. rewrite Forall_forall in A. specialize (A 0 Z0). lia.
Qed.

Lemma runs_bound nb n log k r es : made_of (rate_day P nb) n log -> In (k, r) (rates f loss (new_plateau lr) log) -> epochs_before P k es ->
  exists j, r = (lr * f ^ j)%Qc /\ (11 * j <= List.length es)%nat /\ (forall q, loss 0 = Fin q -> (11 * j <= List.length es - 1)%nat).
Proof.
  intros M H E. destruct (made_rates f loss P nb n log lr M k r H) as [_ (es' & E' & ->)]. rewrite <- (before_unique P k es es' E E').
  destruct (new_count f lr loss F LR es) as (j & J1 & J2 & J3). exists j. split; [exact J1|]. split; [exact J2|]. intros q Q.
  destruct es as [|e es]; [exact J2|]. pose proof (head_0 k e es E) as ->. apply (J3 0 es q eq_refl Q).
Qed.

Lemma runs_improving nb n log k r value : made_of (rate_day P nb) n log -> In (k, r) (rates f loss (new_plateau lr) log) ->
  (forall i, 0 <= i -> P i -> loss i = Fin (value i)) ->
  (forall i j, 0 <= i < j -> P i -> P j -> (value j < value i * (1 - Q2Qc (1 # 10000)))%Qc) -> r = lr.
Proof.
  intros M H V I. destruct (made_rates f loss P nb n log lr M k r H) as [_ (es & [S E] & ->)].
  rewrite (improving_constant f loss value es); [reflexivity| | | |reflexivity|].
  - intros i J. apply E in J. apply V; [lia|apply J].
  - intros q Q. discriminate Q.
  - left. reflexivity.
  - intros i j l1 l2 l3 ->.
    assert (A : In i (l1 ++ i :: l2 ++ j :: l3)) by (apply in_or_app; right; left; reflexivity).
    assert (B : In j (l1 ++ i :: l2 ++ j :: l3)) by (apply in_or_app; right; right; apply in_or_app; right; left; reflexivity).
    apply E in A, B. apply I; [|apply A|apply B]. split; [lia|]. clear - S. induction l1 as [|x l1 IH].
    + change ([] ++ i :: l2 ++ j :: l3) with (i :: (l2 ++ j :: l3)) in S. inversion S as [|? ? _ A]; subst. rewrite Forall_forall in A. apply A. apply in_or_app. right. left. reflexivity.
    + apply IH. inversion S. assumption.
Qed.

Lemma runs_stagnating nb n log k r es value : made_of (rate_day P nb) n log -> In (k, r) (rates f loss (new_plateau lr) log) -> epochs_before P k es ->
  (forall i, 0 <= i -> P i -> loss i = Fin (value i)) ->
  (forall i, 0 < i -> P i -> (value 0%Z * (1 - Q2Qc (1 # 10000)) <= value i)%Qc) ->
  (forall i, (i < (List.length es - 1) / 11)%nat -> (Q2Qc (1 # 100000000) < lr * f ^ i - lr * f ^ (S i))%Qc) ->
  r = (lr * f ^ ((List.length es - 1) / 11))%Qc.
Proof.
  intros M H E V I EP. destruct (made_rates f loss P nb n log lr M k r H) as [_ (es' & E' & ->)]. rewrite <- (before_unique P k es es' E E').
  destruct es as [|e es]; [cbn; ring|]. pose proof (head_0 k e es E) as ->.
  change (after f loss (new_plateau lr) (0 :: es)) with (after f loss (reduce_on_plateau f (loss 0) (new_plateau lr)) es).
  rewrite (V 0 ltac:(lia) P0). change (reduce_on_plateau f (Fin (value 0%Z)) (new_plateau lr)) with (mkPlateau (Fin (value 0%Z)) 0 lr).
  replace lr with (lr * f ^ 0)%Qc at 1 by (cbn; ring).
  assert (Q : (0 + Z.of_nat (List.length es)) / 11 = Z.of_nat (List.length es / 11)) by (rewrite Z.add_0_l, Nat2Z.inj_div; reflexivity).
  assert (N : (List.length (0%Z :: es) - 1)%nat = List.length es) by (cbn [List.length]; lia). rewrite N in *.
  rewrite (stagnating f lr loss F LR (value 0%Z) es).
  - rewrite Q, Nat2Z.id, Nat.add_0_l. reflexivity.
  - intros i J. destruct E as [S E]. assert (A : In i (0 :: es)) by (right; exact J). apply E in A. exists (value i). split; [apply V; [lia|apply A]|].
    apply I; [|apply A]. inversion S as [|? ? _ B]; subst. rewrite Forall_forall in B. apply B. exact J.
  - lia.
  - intros i J. apply EP. rewrite Q in J. lia.
Qed.
End Runs.

Lemma factor_s : (0 <= spiral_factor)%Qc.
Proof. discriminate. Qed.
Lemma factor_m : (0 <= mapping_factor)%Qc.
Proof. discriminate. Qed.
Lemma due_0 a : due a 0.
Proof. left. apply Z.divide_0_r. Qed.
Lemma test_0 a : (a_test_freq a | 0).
Proof. apply Z.divide_0_r. Qed.

Definition spiral_bound a log lr loss k r es (H : spiral_main a = Ok log) (LR : (0 <= lr)%Qc) :=
  runs_bound (due a) spiral_factor lr loss (due_0 a) factor_s LR _ _ log k r es (spiral_made a log H).
Definition mapping_bound a log lr loss k r es (H : sfm_main a = Ok log) (LR : (0 <= lr)%Qc) :=
  runs_bound (fun k => (a_test_freq a | k)) mapping_factor lr loss (test_0 a) factor_m LR _ _ log k r es (mapping_made a log H).
Definition spiral_improving a log lr loss k r value (H : spiral_main a = Ok log) :=
  runs_improving (due a) spiral_factor lr loss _ _ log k r value (spiral_made a log H).
Definition mapping_improving a log lr loss k r value (H : sfm_main a = Ok log) :=
  runs_improving (fun k => (a_test_freq a | k)) mapping_factor lr loss _ _ log k r value (mapping_made a log H).
Definition spiral_stagnating a log lr loss k r es value (H : spiral_main a = Ok log) (LR : (0 <= lr)%Qc) :=
  runs_stagnating (due a) spiral_factor lr loss (due_0 a) factor_s LR _ _ log k r es value (spiral_made a log H).
Definition mapping_stagnating a log lr loss k r es value (H : sfm_main a = Ok log) (LR : (0 <= lr)%Qc) :=
  runs_stagnating (fun k => (a_test_freq a | k)) mapping_factor lr loss (test_0 a) factor_m LR _ _ log k r es value (mapping_made a log H).

Lemma mapping_frequency a a' log log' p loss : sfm_main a = Ok log -> sfm_main a' = Ok log' ->
  a_test_freq a = a_test_freq a' -> a_niters a = a_niters a' -> a_batch_size a = a_batch_size a' ->
  rates mapping_factor loss p log = rates mapping_factor loss p log'.
Proof.
  intros H H' E1 E2 E3. apply mapping_made in H, H'. rewrite <- E1, <- E2, <- E3 in H'. exact (made_same _ _ _ _ _ _ _ _ H H').
Qed.

(** Improvements now and then keep the learning rate. *)
From Coq Require Import List String ZArith QArith Qcanon Bool Lia Sorted.
From Verif Require Import Base SchedulerModel LoopProofs FunctionalModel FunctionalSpec FunctionalProofs RatesModel RatesSpec RatesProofs RatesProofs2 RatesProofs3.
Import ListNotations.
Open Scope list_scope.
Open Scope Z_scope.

Section Often.
Variables (f : Qc) (loss : Z -> num) (value : Z -> Qc).

(** The bad epochs are the last ones, and none of them is an improvement. *)
Definition counted (pre : list Z) (p : plateau) : Prop :=
  (p_best p = PInf /\ pre = [] \/ exists y, In y pre /\ p_best p = Fin (value y)) /\
  exists a b, pre = a ++ b /\ Z.of_nat (List.length b) = p_bad p /\ (List.length b <= 10)%nat /\
    forall b1 x b2, b = b1 ++ x :: b2 -> ~ improves value (a ++ b1) x.

Lemma snoc_split {A : Type} (b : list A) x b1 y b2 : b ++ [x] = b1 ++ y :: b2 -> b1 = b /\ y = x \/ exists b3, b = b1 ++ y :: b3.
Proof.
  destruct (exists_last (l := y :: b2)) as (l & z & E); [discriminate|]. rewrite E, app_assoc. intros H. apply app_inj_tail in H as [H <-].
  destruct l as [|u l].
  - left. injection E as -> _. rewrite app_nil_r in H. split; [symmetry; exact H|reflexivity].
  - right. injection E as <- _. exists l. exact H.
Qed.

Lemma often_constant rest : forall pre p, (forall k, In k rest -> loss k = Fin (value k)) -> often_improving value (pre ++ rest) ->
  counted pre p -> p_lr (after f loss p rest) = p_lr p.
Proof.
  induction rest as [|k rest IH]; intros pre p V O (B & a & b & E & L & T & N); [reflexivity|].
  change (after f loss p (k :: rest)) with (after f loss (reduce_on_plateau f (loss k) p) rest).
  assert (V' : forall i, In i rest -> loss i = Fin (value i)) by (intros i I; apply V; right; exact I).
  assert (O' : often_improving value ((pre ++ [k]) ++ rest)) by (rewrite <- app_assoc; exact O).
  assert (K : In k (pre ++ [k])) by (apply in_or_app; right; left; reflexivity).
  unfold reduce_on_plateau. cbv zeta. rewrite (V k (or_introl eq_refl)).
  destruct (cmp_better _ (Fin (value k)) (p_best p)) eqn:C.
  - change (10 <? 0) with false. cbv iota. rewrite (IH (pre ++ [k])); [reflexivity|exact V'|exact O'|].
    split; [right; exists k; split; [exact K|reflexivity]|]. exists (pre ++ [k]), []. split; [symmetry; apply app_nil_r|].
    split; [reflexivity|]. split; [cbn; lia|]. intros [|? ?] x b2 H; discriminate H.
  - destruct B as [[B _]|(y & Y & B)]; [rewrite B in C; discriminate C|].
    assert (NK : ~ improves value (a ++ b) k).
    { intros I. rewrite <- E in I. specialize (I y Y). rewrite B in C. change (qltb (value k) (value y * (1 - Q2Qc (1 # 10000)))%Qc = false) in C.
      apply qltb_true in I. rewrite I in C. discriminate C. }
    assert (NB : forall b1 x b2, b ++ [k] = b1 ++ x :: b2 -> ~ improves value (a ++ b1) x).
    { intros b1 x b2 H. apply snoc_split in H as [[-> ->]|[b3 H]]; [exact NK|]. apply (N b1 x b3 H). }
    assert (G : (List.length b < 10)%nat).
    { destruct (Nat.lt_ge_cases (List.length b) 10) as [H|H]; [exact H|]. exfalso.
      destruct (O a (b ++ [k]) rest) as (w1 & x & w2 & W & I).
      - rewrite E, <- !app_assoc. reflexivity.
      - rewrite app_length. cbn [List.length]. lia.
      - apply (NB w1 x w2 W I). }
    replace (10 <? p_bad p + 1) with false by (symmetry; apply Z.ltb_ge; lia).
    rewrite (IH (pre ++ [k])); [reflexivity|exact V'|exact O'|].
    split.
    + right. exists y. split; [apply in_or_app; left; exact Y|exact B].
    + exists a, (b ++ [k]). split; [rewrite E, app_assoc; reflexivity|]. cbn [p_bad]. rewrite app_length. cbn [List.length].
      split; [lia|]. split; [lia|exact NB].
Qed.
End Often.

Lemma runs_often (P : Z -> Prop) f lr loss nb n log k r es value : made_of (rate_day P nb) n log ->
  In (k, r) (rates f loss (new_plateau lr) log) -> epochs_before P k es ->
  (forall i, In i es -> loss i = Fin (value i)) -> often_improving value es -> r = lr.
Proof.
  intros M H E V O. destruct (made_rates f loss P nb n log lr M k r H) as [_ (es' & E' & ->)]. rewrite <- (before_unique P k es es' E E').
  apply (often_constant f loss value es [] (new_plateau lr) V O).
  split; [left; split; reflexivity|]. exists [], []. split; [reflexivity|]. split; [reflexivity|]. split; [cbn; lia|].
  intros [|? ?] x b2 X; discriminate X.
Qed.

Definition spiral_often a log lr loss k r es value (H : spiral_main a = Ok log) :=
  runs_often (due a) spiral_factor lr loss _ _ log k r es value (spiral_made a log H).
Definition mapping_often a log lr loss k r es value (H : sfm_main a = Ok log) :=
  runs_often (fun k => (a_test_freq a | k)) mapping_factor lr loss _ _ log k r es value (mapping_made a log H).

(** Better in the sixth evaluation only: enough for thirteen of them. *)
Lemma sixth_often : often_improving (fun i => if i <? 5 then Q2Qc 1 else Q2Qc (1 # 2)) [0; 1; 2; 3; 4; 5; 6; 7; 8; 9; 10; 11; 12].
Proof.
  intros l1 w l2 E L. assert (N : (List.length l1 <= 2)%nat).
  { apply (f_equal (@List.length Z)) in E. rewrite !app_length in E. cbn [List.length] in E. lia. }
  do 11 (destruct w as [|? w]; [discriminate L|]). destruct w; [|discriminate L].
  destruct l1 as [|? [|? [|? ?]]]; cbn [app] in E |- *; [| | |cbn in N; lia]; injection E; intros; subst.
  - exists [], 0. eexists. split; [reflexivity|]. intros y [].
  - exists [1; 2; 3; 4], 5. eexists. split; [reflexivity|]. intros y Y. cbn in Y.
    repeat (destruct Y as [<-|Y]; [reflexivity|]). destruct Y.
  - exists [2; 3; 4], 5. eexists. split; [reflexivity|]. intros y Y. cbn in Y.
    repeat (destruct Y as [<-|Y]; [reflexivity|]). destruct Y.
Qed.

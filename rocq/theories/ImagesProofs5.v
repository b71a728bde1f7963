(** balls.py: which epoch is saved. *)
From Coq Require Import List String ZArith QArith Qcanon Bool Lia Arith Permutation.
From Verif Require Import Base BaseFacts Tensor TensorFacts SchedulerModel LoopModel DataModel DataProofs ResNetProofs ArgparseModel ArgparseProofs
  ExperimentModel ExperimentProofs2 AutoencoderModel AutoencoderSpec AutoencoderProofs AutoencoderProofs2 ImagesModel ImagesSpec ImagesProofs ImagesProofs2 ImagesProofs3
  ImagesProofs4.
From Verif Require CirclesModel CirclesSpec.
Import ListNotations.
Open Scope string_scope.
Open Scope list_scope.
Open Scope nat_scope.

Lemma batches_count {A} fuel (l : list A) : List.length l <= fuel ->
  List.length (batches_of fuel 25 false l) = (List.length l + 24) / 25.
Proof.
  revert l. induction fuel as [|fuel IH]; intros l L; [destruct l; [reflexivity|cbn in L; lia]|].
  cbn [batches_of]. destruct l as [|x l0]; [reflexivity|]. set (l := x :: l0) in *.
  assert (N : 1 <= List.length l) by (unfold l; cbn; lia). destruct (Nat.leb_spec 25 (List.length l)) as [G|G].
  - cbn [List.length]. rewrite IH by (rewrite skipn_length; lia). rewrite skipn_length.
    replace (List.length l + 24) with (1 * 25 + (List.length l - 25 + 24)) by lia. rewrite Nat.div_add_l by lia. reflexivity.
  - replace (List.length l + 24) with (1 * 25 + (List.length l - 1)) by lia. rewrite Nat.div_add_l by lia. rewrite Nat.div_small by lia. reflexivity.
Qed.
Lemma batches25_count X order M : Permutation order (seq 0 M) -> List.length (batches25 X order) = (M + 24) / 25.
Proof.
  intros P. unfold batches25. rewrite map_length, batches_count by lia. rewrite (Permutation_length P), seq_length. reflexivity.
Qed.

Lemma leb_fin x y : num_leb (Fin x) (Fin y) = true <-> (x <= y)%Qc.
Proof.
  cbn. unfold qltb. destruct (Qccompare y x) eqn:E; cbn.
  - apply Qceq_alt in E. subst. split; [intros _; apply Qcle_refl|reflexivity].
  - rewrite <- Qclt_alt in E. split; [discriminate|]. intros H. exfalso. exact (Qclt_not_le _ _ E H).
  - rewrite <- Qcgt_alt in E. split; [intros _; apply Qclt_le_weak, E|reflexivity].
Qed.

Section Best.
Variable value : nat -> nat -> tensor Qc -> list nat -> Qc.
Variable blk : nat -> tensor Qc -> result (tensor Qc).
Variable order : nat -> list nat.
Variable d : nat.
Variable ahead : Z.
Variables train test val : tensor Qc.
Variables M1 M2 M3 T1 T2 T3 : nat.
Hypothesis B : forall k m, 1 <= m -> block_gives (blk k) d 20 m.
Hypothesis OR : orders M1 order.
Hypothesis I1 : images train M1 T1.
Hypothesis I2 : images test M2 T2.
Hypothesis I3 : images val M3 T3.
Hypothesis L1 : 20 <= T1.
Hypothesis L2 : 20 <= T2.
Hypothesis L3 : 20 <= T3.
Hypothesis P1 : 0 < M1.
Hypothesis d2 : 2 <= d.
Hypothesis N1 : no_single M1.
Hypothesis N2 : no_single M2.
Hypothesis N3 : no_single M3.
Hypothesis P2 : 0 < M2.
Hypothesis P3 : 0 < M3.
Hypothesis C : compared ahead <> [].
Notation epochs := (balls_epochs value blk order d ahead train test val).
Notation b1 := ((M1 + 24) / 25).
Notation b2 := ((M2 + 24) / 25).
Notation b3 := ((M3 + 24) / 25).
Notation evaluate k X M := (balls_evaluate value blk d ahead k (batches25 X (seq 0 M))).
Definition rows_of (r : result (list (list num))) : list (list num) := match r with Ok l => l | Raise _ => [] end.
Definition trows (e : nat) := rows_of (evaluate (e * (b1 + b2 + b3) + b1) test M2).
Definition vrows (e : nat) := rows_of (evaluate (e * (b1 + b2 + b3) + b1 + b2) val M3).
Definition verr (e : nat) : Qc := match np_mean (List.concat (vrows e)) with Fin q => q | _ => 0%Qc end.

Lemma trows_ok e : evaluate (e * (b1 + b2 + b3) + b1) test M2 = Ok (trows e).
Proof.
  unfold trows. destruct (evaluate_ok value blk d ahead M1 T1 T2 T3 B L1 L2 L3 P1 test M2 T2 (e * (b1 + b2 + b3) + b1) I2 L2 P2 N2 d2) as (r & E & _).
  rewrite (samples_images test M2 T2 I2) in E. rewrite E. reflexivity.
Qed.
Lemma vrows_ok e : evaluate (e * (b1 + b2 + b3) + b1 + b2) val M3 = Ok (vrows e) /\ np_mean (List.concat (vrows e)) = Fin (verr e).
Proof.
  unfold verr, vrows. destruct (evaluate_ok value blk d ahead M1 T1 T2 T3 B L1 L2 L3 P1 val M3 T3 (e * (b1 + b2 + b3) + b1 + b2) I3 L3 P3 N3 d2) as (r & E & R0 & R1).
  rewrite (samples_images val M3 T3 I3) in E. rewrite E. cbn [rows_of]. split; [reflexivity|].
  destruct (mean_some value d ahead val r R1 R0 C) as (q & ->). reflexivity.
Qed.

Definition entry (e : nat) : balls_file := (e, (Fin (verr e), vrows e), (np_mean (List.concat (trows e)), trows e)).
Definition state_ok (e : nat) (best : option num) (file : option balls_file) : Prop :=
  (e = 0 /\ best = None /\ file = None) \/
  exists j, j < e /\ best = Some (Fin (verr j)) /\ file = Some (entry j) /\
    forall i, i < e -> (verr j <= verr i)%Qc /\ (j < i -> (verr j < verr i)%Qc).

Lemma best_epochs : forall n e best file, state_ok e best file ->
  exists best' file', epochs n e (e * (b1 + b2 + b3)) best file = (Ok tt, file') /\ state_ok (e + n) best' file'.
Proof.
  induction n as [|n IH]; intros e best file H.
  { exists best, file. split; [reflexivity|]. rewrite Nat.add_0_r. exact H. }
  cbn [balls_epochs].
  destruct (train_ok value blk order d train M1 T1 B OR I1 L1 (e * (b1 + b2 + b3)) e N1 d2) as (l & ->). cbn [bind].
  rewrite (samples_images test M2 T2 I2), (samples_images val M3 T3 I3).
  rewrite (batches25_count train (order e) M1 (OR e)), !(batches25_count _ (seq 0 _) _ (Permutation_refl _)).
  rewrite trows_ok. cbn [bind]. destruct (vrows_ok e) as (-> & Q). cbn [bind]. rewrite Q.
  destruct (images_batches train M1 T1 (order e) I1 (OR e)) as (_ & _ & NE & _). specialize (NE P1).
  destruct (batches25 train (order e)) as [|b0 bs] eqn:EB; [contradiction|]. clear NE EB.
  replace (e * (b1 + b2 + b3) + b1 + b2 + b3) with (S e * (b1 + b2 + b3)) by (cbn; lia).
  replace (e + S n) with (S e + n) by lia.
  destruct H as [(-> & -> & ->)|(j & J & -> & -> & M)].
  - rewrite leb_refl. apply IH. right. exists 0. split; [lia|]. split; [reflexivity|]. split; [reflexivity|].
    intros i I. replace i with 0 by lia. split; [apply Qcle_refl|lia].
  - destruct (num_leb (Fin (verr e)) (Fin (verr j))) eqn:LE; apply IH; right.
    + apply leb_fin in LE. exists e. split; [lia|]. split; [reflexivity|]. split; [reflexivity|]. intros i I.
      split; [|lia]. destruct (Nat.eq_dec i e) as [->|D]; [apply Qcle_refl|]. eapply Qcle_trans; [exact LE|apply M; lia].
    + exists j. split; [lia|]. split; [reflexivity|]. split; [reflexivity|]. intros i I.
      destruct (Nat.eq_dec i e) as [->|D]; [|apply M; lia].
      assert (LT : (verr j < verr e)%Qc). { apply Qcnot_le_lt. intros X. apply leb_fin in X. congruence. }
      split; [apply Qclt_le_weak, LT|intros _; exact LT].
Qed.
End Best.

Lemma balls_best : forall value blocks order unusual train test val M1 M2 M3 T1 T2 T3 exists_ words ns d N f n ahead out,
  parse_args balls_parser words = Some ns -> CirclesSpec.usual ns d N f -> CirclesSpec.option_is ns "niters" (AInt n) ->
  CirclesSpec.option_is ns "evaluate_ahead" (AInt ahead) -> CirclesSpec.option_is ns "save_to" (AText out) ->
  (forall k m, 1 <= m -> block_gives (blocks ns k) (Z.to_nat d) 20 m) -> orders M1 order ->
  images train M1 T1 -> images test M2 T2 -> images val M3 T3 -> 20 <= T1 -> 20 <= T2 -> 20 <= T3 -> (1 <= n)%Z -> compared ahead <> [] ->
  forall file, balls value blocks order unusual train test val exists_ words = Some (Ok tt, Some file) ->
  let passes := fun e => e * ((M1 + 24) / 25 + (M2 + 24) / 25 + (M3 + 24) / 25) + (M1 + 24) / 25 in
  let errors := fun k X M => balls_evaluate value (blocks ns) (Z.to_nat d) ahead k (batches25 X (seq 0 M)) in
  exists trows vrows verr, (forall e, errors (passes e) test M2 = Ok (trows e) /\ errors (passes e + (M2 + 24) / 25) val M3 = Ok (vrows e) /\
      np_mean (List.concat (vrows e)) = Fin (verr e)) /\
    exists e, e < Z.to_nat n /\ file = (e, (Fin (verr e), vrows e), (np_mean (List.concat (trows e)), trows e)) /\
      forall i, i < Z.to_nat n -> (verr e <= verr i)%Qc /\ (e < i -> (verr e < verr i)%Qc).
Proof.
  intros value blocks order unusual train test val M1 M2 M3 T1 T2 T3 exists_ words ns d N f n ahead out E U O1 O2 O3 B OR I1 I2 I3 L1 L2 L3 n1 C file H passes errors.
  destruct (proj1 (balls_exactly value blocks order unusual train test val M1 M2 M3 T1 T2 T3 exists_ words ns d N f n ahead out E U O1 O2 O3 B OR I1 I2 I3 L1 L2 L3 n1)
    (ex_intro _ _ H)) as (EX & P1 & P2 & P3 & d2 & N1 & N2 & N3).
  rewrite (balls_value value blocks order unusual train test val exists_ words ns d N f n ahead out E U O1 O2 O3), EX in H.
  rewrite (samples_images train M1 T1 I1), (proj2 (Nat.eqb_neq M1 0)) in H by lia. injection H as H.
  assert (D2 : 2 <= Z.to_nat d) by lia.
  exists (trows value (blocks ns) (Z.to_nat d) ahead test M1 M2 M3), (vrows value (blocks ns) (Z.to_nat d) ahead val M1 M2 M3),
    (verr value (blocks ns) (Z.to_nat d) ahead val M1 M2 M3). split.
  - intros e. split; [eapply trows_ok; eassumption|]. eapply vrows_ok; eassumption.
  - destruct (best_epochs value (blocks ns) order (Z.to_nat d) ahead train test val M1 M2 M3 T1 T2 T3 B OR I1 I2 I3 L1 L2 L3 P1 D2 N1 N2 N3 P2 P3 C
      (Z.to_nat n) 0 None None (or_introl (conj eq_refl (conj eq_refl eq_refl)))) as (best' & file' & E' & S). cbn [Nat.mul] in E'.
    rewrite H in E'. injection E' as <-. destruct S as [(S & _)|(j & J & _ & F & M)]; [lia|]. injection F as ->.
    exists j. split; [exact J|]. split; [reflexivity|]. exact M.
Qed.

(** How often the learning rate is reduced. *)
From Coq Require Import List String ZArith QArith Qcanon Bool Lia Sorted.
From Verif Require Import Base SchedulerModel LoopProofs FunctionalModel FunctionalSpec FunctionalProofs RatesModel RatesSpec RatesProofs.
Import ListNotations.
Open Scope list_scope.
Open Scope Z_scope.

Section Counting.
Variables (f lr : Qc) (loss : Z -> num).
Hypothesis F : (0 <= f)%Qc.
Hypothesis LR : (0 <= lr)%Qc.

Lemma power_nonneg j : (0 <= lr * f ^ j)%Qc.
Proof.
  assert (0 <= f ^ j)%Qc.
  { induction j as [|j IH]; [discriminate|]. cbn [Qcpower].
    replace 0%Qc with (0 * f ^ j)%Qc by ring. apply Qcmult_le_compat_r; assumption. }
  replace 0%Qc with (0 * f ^ j)%Qc by ring. apply Qcmult_le_compat_r; assumption.
Qed.

Lemma qmax_nonneg x : (0 <= x)%Qc -> qmax x 0 = x.
Proof.
  intros H. unfold qmax. destruct (qltb x 0) eqn:E; [|reflexivity]. apply qltb_true in E. exfalso. apply (Qclt_not_le _ _ E H).
Qed.

Lemma reduce_count p l j : p_lr p = (lr * f ^ j)%Qc -> 0 <= p_bad p ->
  exists j', p_lr (reduce_on_plateau f l p) = (lr * f ^ j')%Qc /\ 0 <= p_bad (reduce_on_plateau f l p) /\
    11 * Z.of_nat j' + p_bad (reduce_on_plateau f l p) <= 11 * Z.of_nat j + p_bad p + 1 /\
    (cmp_better (mkCmp "min" "rel" (Q2Qc (1 # 10000))) l (p_best p) = true -> p_bad (reduce_on_plateau f l p) = 0 /\ j' = j).
Proof.
  intros E B. unfold reduce_on_plateau. cbv zeta. destruct (cmp_better _ l (p_best p)).
  - exists j. cbn [p_lr p_bad Z.ltb Z.compare]. split; [exact E|]. split; [lia|]. split; [lia|]. split; reflexivity.
  - destruct (Z.ltb_spec 10 (p_bad p + 1)) as [H|H].
    + cbn [p_lr p_bad]. rewrite E, qmax_nonneg.
      2:{ replace (lr * f ^ j * f)%Qc with (lr * f ^ (S j))%Qc by (cbn [Qcpower]; ring). apply power_nonneg. }
      destruct (qltb _ _).
      * exists (S j). split; [cbn [Qcpower]; ring|]. split; [lia|]. split; [lia|discriminate].
      * exists j. split; [reflexivity|]. split; [lia|]. split; [lia|discriminate].
    + exists j. cbn [p_lr p_bad]. split; [exact E|]. split; [lia|]. split; [lia|discriminate].
Qed.

Lemma after_count es : forall p j, p_lr p = (lr * f ^ j)%Qc -> 0 <= p_bad p ->
  exists j', p_lr (after f loss p es) = (lr * f ^ j')%Qc /\ 11 * Z.of_nat j' <= 11 * Z.of_nat j + p_bad p + Z.of_nat (List.length es).
Proof.
  induction es as [|k es IH]; intros p j E B.
  - exists j. split; [exact E|]. cbn. lia.
  - destruct (reduce_count p (loss k) j E B) as (j1 & E1 & B1 & C1 & _). destruct (IH _ _ E1 B1) as (j' & E' & C'). exists j'.
    split; [exact E'|]. cbn [List.length]. lia.
Qed.

Lemma first_improves q : cmp_better (mkCmp "min" "rel" (Q2Qc (1 # 10000))) (Fin q) PInf = true.
Proof. reflexivity. Qed.

Lemma new_count es : exists j, p_lr (after f loss (new_plateau lr) es) = (lr * f ^ j)%Qc /\ (11 * j <= List.length es)%nat /\
  (forall k rest q, es = k :: rest -> loss k = Fin q -> (11 * j <= List.length es - 1)%nat).
Proof.
  assert (E0 : p_lr (new_plateau lr) = (lr * f ^ 0)%Qc) by (cbn; ring).
  destruct es as [|k es].
  - exists 0%nat. split; [exact E0|]. split; [cbn; lia|]. intros k r q H. discriminate H.
  - destruct (reduce_count (new_plateau lr) (loss k) 0 E0 ltac:(cbn; lia)) as (j1 & E1 & B1 & C1 & D1).
    destruct (after_count es _ _ E1 B1) as (j & E & C). exists j. split; [exact E|]. cbn [p_bad new_plateau] in C1. split; [cbn [List.length]; lia|].
    intros k' rest q H L. injection H as <- <-. rewrite L in D1. destruct (D1 (first_improves q)) as [B0 ->]. rewrite L in C. cbn [List.length]. lia.
Qed.

(** Losses which get better every time. *)
Lemma improving_constant value es : (forall k, In k es -> loss k = Fin (value k)) ->
  forall p, (forall q, p_best p = Fin q -> forall k, In k es -> (value k < q * (1 - Q2Qc (1 # 10000)))%Qc) -> (p_best p = PInf \/ exists q, p_best p = Fin q) ->
  p_bad p = 0 -> (forall i k l1 l2 l3, es = l1 ++ i :: l2 ++ k :: l3 -> (value k < value i * (1 - Q2Qc (1 # 10000)))%Qc) ->
  p_lr (after f loss p es) = p_lr p.
Proof.
  induction es as [|k es IH]; intros V p H1 H2 B H3; [reflexivity|].
  change (after f loss p (k :: es)) with (after f loss (reduce_on_plateau f (loss k) p) es).
  assert (C : cmp_better (mkCmp "min" "rel" (Q2Qc (1 # 10000))) (loss k) (p_best p) = true).
  { rewrite (V k (or_introl eq_refl)). destruct H2 as [->|[q Q]]; [reflexivity|]. rewrite Q. apply qltb_true. apply (H1 q Q). left. reflexivity. }
  assert (R : reduce_on_plateau f (loss k) p = mkPlateau (Fin (value k)) 0 (p_lr p)).
  { unfold reduce_on_plateau. cbv zeta. rewrite C, (V k (or_introl eq_refl)). reflexivity. }
  rewrite R. rewrite IH; [reflexivity| | | |reflexivity|].
  - intros i I. apply V. right. exact I.
  - intros q Q i I. injection Q as <-. apply in_split in I as (l2 & l3 & ->). apply (H3 k i [] l2 l3). reflexivity.
  - right. eexists. reflexivity.
  - intros i j l1 l2 l3 ->. apply (H3 i j (k :: l1) l2 l3). reflexivity.
Qed.

(** Losses which do not get better any more: the rate is reduced every eleven evaluations. *)
Lemma stagnating q es : (forall k, In k es -> exists v, loss k = Fin v /\ (q * (1 - Q2Qc (1 # 10000)) <= v)%Qc) ->
  forall j b, 0 <= b <= 10 -> (forall i, (Z.of_nat i < Z.of_nat j + (b + Z.of_nat (List.length es)) / 11) -> (Q2Qc (1 # 100000000) < lr * f ^ i - lr * f ^ (S i))%Qc) ->
  p_lr (after f loss (mkPlateau (Fin q) b (lr * f ^ j)) es) = (lr * f ^ (j + Z.to_nat ((b + Z.of_nat (List.length es)) / 11)))%Qc.
Proof.
  induction es as [|k es IH]; intros V j b B H.
  - cbn [List.length]. rewrite Z.add_0_r, Z.div_small by lia. rewrite Nat.add_0_r. reflexivity.
  - change (after f loss (mkPlateau (Fin q) b (lr * f ^ j)) (k :: es)) with (after f loss (reduce_on_plateau f (loss k) (mkPlateau (Fin q) b (lr * f ^ j))) es).
    assert (V' : forall k, In k es -> exists v, loss k = Fin v /\ (q * (1 - Q2Qc (1 # 10000)) <= v)%Qc) by (intros i I; apply V; right; exact I).
    assert (R : reduce_on_plateau f (loss k) (mkPlateau (Fin q) b (lr * f ^ j)) =
                if 10 <? b + 1 then mkPlateau (Fin q) 0 (lr * f ^ (S j)) else mkPlateau (Fin q) (b + 1) (lr * f ^ j)).
    { unfold reduce_on_plateau. cbn [p_best p_bad p_lr]. destruct (V k (or_introl eq_refl)) as (v & -> & Hv).
      replace (cmp_better (mkCmp "min" "rel" (Q2Qc (1 # 10000))) (Fin v) (Fin q)) with false.
      2:{ symmetry. change (qltb v (q * (1 - Q2Qc (1 # 10000)))%Qc = false). destruct (qltb v _) eqn:E; [|reflexivity]. apply qltb_true in E.
          exfalso. apply (Qclt_not_le _ _ E Hv). }
      destruct (Z.ltb_spec 10 (b + 1)) as [G|G]; [|reflexivity]. cbv zeta.
      rewrite qmax_nonneg.
      2:{ replace (lr * f ^ j * f)%Qc with (lr * f ^ (S j))%Qc by (cbn [Qcpower]; ring). apply power_nonneg. }
      replace (lr * f ^ j * f)%Qc with (lr * f ^ (S j))%Qc by (cbn [Qcpower]; ring).
      replace (qltb _ _) with true; [reflexivity|]. symmetry. apply qltb_true. apply H.
      cbn [List.length]. assert (1 <= (b + Z.of_nat (S (List.length es))) / 11); [|lia]. apply Z.div_le_lower_bound; lia. }
    rewrite R. destruct (Z.ltb_spec 10 (b + 1)) as [G|G].
    + assert (b = 10) by lia. subst b. assert (Q : (10 + Z.of_nat (List.length (k :: es))) / 11 = 1 + (0 + Z.of_nat (List.length es)) / 11).
      { cbn [List.length]. replace (10 + Z.of_nat (S (List.length es))) with (Z.of_nat (List.length es) + 1 * 11) by lia. rewrite Z.div_add by lia.
        rewrite Z.add_0_l. lia. }
      rewrite Q in H |- *. rewrite IH; [|exact V'|lia|].
      * f_equal. f_equal. pose proof (Z.div_pos (0 + Z.of_nat (List.length es)) 11). lia.
      * intros i I. apply H. lia.
    + assert (Q : b + Z.of_nat (List.length (k :: es)) = b + 1 + Z.of_nat (List.length es)) by (cbn [List.length]; lia). rewrite Q in H |- *.
      apply IH; [exact V'|lia|exact H].
Qed.
End Counting.

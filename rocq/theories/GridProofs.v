(** Proofs about the checkpoint grids (exact rational arithmetic). *)
From Coq Require Import List Arith ZArith QArith Qcanon Qround Lia Lqa Bool Sorting.Sorted.
From Verif Require Import Base IntegratorModel IntegratorSpec IntervalProofs.
Import ListNotations.
Open Scope nat_scope.

(** * The order on Qc *)

Lemma qc_cmp_eq a b : Qccompare a b = Eq <-> a = b.
Proof. symmetry. apply Qceq_alt. Qed.

Lemma qc_cmp_opp a b : Qccompare b a = CompOpp (Qccompare a b).
Proof. unfold Qccompare. symmetry. apply Qcompare_antisym. Qed.

Lemma qc_cmp_trans a b c : Qccompare a b = Lt -> Qccompare b c = Lt -> Qccompare a c = Lt.
Proof. rewrite <- !Qclt_alt. apply Qclt_trans. Qed.

Lemma qc_eq_bool_true a b : Qc_eq_bool a b = true <-> a = b.
Proof.
  split; [apply Qc_eq_bool_correct|]. intros ->. unfold Qc_eq_bool.
  destruct (Qc_eq_dec b b); congruence.
Qed.

Lemma qc_eq_bool_false a b : Qc_eq_bool a b = false <-> a <> b.
Proof.
  rewrite <- qc_eq_bool_true. destruct (Qc_eq_bool a b); split; congruence.
Qed.

Lemma this_plus (a b : Qc) : (this (a + b)%Qc == this a + this b)%Q.
Proof. apply Qred_correct. Qed.
Lemma this_mult (a b : Qc) : (this (a * b)%Qc == this a * this b)%Q.
Proof. apply Qred_correct. Qed.
Lemma this_opp (a : Qc) : (this (- a)%Qc == - this a)%Q.
Proof. apply Qred_correct. Qed.
Lemma this_minus (a b : Qc) : (this (a - b)%Qc == this a - this b)%Q.
Proof. unfold Qcminus. rewrite this_plus, this_opp. reflexivity. Qed.
Lemma this_inv (a : Qc) : (this (/ a)%Qc == / this a)%Q.
Proof. apply Qred_correct. Qed.
Lemma this_div (a b : Qc) : (this (a / b)%Qc == this a / this b)%Q.
Proof. unfold Qcdiv. rewrite this_mult, this_inv. reflexivity. Qed.
Lemma this_Q2Qc q : (this (Q2Qc q) == q)%Q.
Proof. apply Qred_correct. Qed.

Definition qn (i : nat) : Qc := Q2Qc (inject_Z (Z.of_nat i)).

Lemma qn_lt i j : i < j -> (qn i < qn j)%Qc.
Proof.
  intro H. unfold Qclt, qn. rewrite !this_Q2Qc. rewrite <- Zlt_Qlt. lia.
Qed.

Lemma qc_affine_lt a d i j : (0 < d)%Qc -> i < j -> (a + qn i * d < a + qn j * d)%Qc.
Proof.
  intros Hd H. apply qn_lt in H. unfold Qclt in *.
  rewrite !this_plus, !this_mult. simpl (this 0%Qc) in Hd. nra.
Qed.

Lemma sorted_affine a d k n : (0 < d)%Qc ->
  StronglySorted Qclt (map (fun i => (a + qn i * d)%Qc) (seq k n)).
Proof.
  intro Hd. revert k; induction n as [|n IH]; simpl; intro k; constructor; auto.
  apply Forall_forall. intros x Hx. apply in_map_iff in Hx as [j [<- Hj]].
  apply in_seq in Hj. apply qc_affine_lt; auto. lia.
Qed.

Lemma qc_minus_pos a b : (a < b)%Qc -> (0 < b - a)%Qc.
Proof. unfold Qclt. intro H. rewrite this_minus. simpl (this 0%Qc). lra. Qed.

Lemma qn_pos n : 0 < n -> (0 < qn n)%Qc.
Proof. intro H. apply (qn_lt 0 n) in H. exact H. Qed.

Lemma qc_div_pos a b : (0 < a)%Qc -> (0 < b)%Qc -> (0 < a / b)%Qc.
Proof.
  unfold Qclt. intros Ha Hb. rewrite this_div. simpl (this 0%Qc) in *.
  apply Qlt_shift_div_l; auto. lra.
Qed.

(** * Grids *)

(** A grid runs from [a] to [b] and is strictly increasing. *)
Definition is_grid (a b : Qc) (cp : list Qc) : Prop :=
  exists m, cp = a :: m ++ [b] /\ StronglySorted Qclt cp.

Lemma map_seq_snoc {B} (f : nat -> B) k n :
  map f (seq k (S n)) = map f (seq k n) ++ [f (k + n)].
Proof. rewrite seq_S, map_app. reflexivity. Qed.

Lemma linspace_grid a b n : (a < b)%Qc ->
  exists cp, checkpoint_times (Some (Z.of_nat n)) None a b = Ok cp /\ is_grid a b cp /\
    List.length cp = n + 2.
Proof.
  intro H. unfold checkpoint_times, linspace.
  destruct (Z.ltb_spec (Z.of_nat n + 2) 0); [lia|].
  destruct (Z.eqb_spec (Z.of_nat n + 2) 1); [lia|].
  replace (Z.to_nat (Z.of_nat n + 2)) with (S (S n)) by lia.
  set (d := ((b - a) / Q2Qc (inject_Z (Z.of_nat n + 2 - 1)))%Qc).
  assert (Hd : d = ((b - a) / qn (S n))%Qc).
  { unfold d, qn. do 3 f_equal. lia. }
  clearbody d. subst d. set (d := ((b - a) / qn (S n))%Qc).
  assert (Hd : (0 < d)%Qc) by (apply qc_div_pos; [apply qc_minus_pos; auto|apply qn_pos; lia]).
  cbn [bind]. change (fun i : nat => (a + Q2Qc (inject_Z (Z.of_nat i)) * d)%Qc)
    with (fun i : nat => (a + qn i * d)%Qc).
  set (f := fun i : nat => (a + qn i * d)%Qc).
  assert (E0 : f 0 = a).
  { unfold f. change (qn 0) with 0%Qc. ring. }
  assert (E1 : f (S n) = b).
  { unfold f, d. field. intro E. assert (Hp : (0 < qn (S n))%Qc) by (apply qn_pos; lia).
    apply (Qclt_not_eq _ _ Hp). symmetry. exact E. }
  pose proof (sorted_affine a d 0 (S (S n)) Hd) as S. fold f in S.
  rewrite map_seq_snoc in S |- *. simpl plus in *. rewrite E1 in *.
  unfold set_last. remember (map f (seq 0 (Datatypes.S n)) ++ [b]) as l eqn:El.
  destruct l as [|x l]; [destruct (map f (seq 0 (Datatypes.S n))); discriminate|].
  rewrite El in S |- *. rewrite removelast_last. eexists. split; [reflexivity|]. split.
  - exists (map f (seq 1 n)). split; auto. simpl. rewrite E0. reflexivity.
  - rewrite app_length, map_length, seq_length. simpl. lia.
Qed.

Lemma qceiling_pos q : (0 < q)%Q -> (0 < Qceiling q)%Z.
Proof.
  intro H. pose proof (Qle_ceiling q). rewrite Zlt_Qlt. change (inject_Z 0) with 0%Q. lra.
Qed.

Lemma arange_grid a b dt : (a < b)%Qc -> (0 < dt)%Qc ->
  exists cp, checkpoint_times None (Some dt) a b = Ok cp /\ is_grid a b cp /\
    (forall i x, nth_error cp i = Some x -> x <> b -> x = (a + qn i * dt)%Qc).
Proof.
  intros H Hd. unfold checkpoint_times, arange.
  assert (Qc_eq_bool dt 0 = false) as ->.
  { apply qc_eq_bool_false. intro; subst. apply (Qclt_not_eq 0 0)%Qc; auto. }
  assert ((dt ?= 0)%Qc = Gt) as -> by (apply Qcgt_alt; auto).
  assert ((b ?= a)%Qc = Gt) as -> by (apply Qcgt_alt; auto).
  assert (Hq : (0 < this ((b - a) / dt)%Qc)%Q).
  { apply (qc_div_pos (b - a) dt); auto. apply qc_minus_pos; auto. }
  pose proof (qceiling_pos _ Hq) as Hc.
  destruct (Z.to_nat (Qceiling ((b - a) / dt)%Qc)) as [|k] eqn:Ek; [lia|].
  cbn [bind].
  change (fun i : nat => (a + Q2Qc (inject_Z (Z.of_nat i)) * dt)%Qc)
    with (fun i : nat => (a + qn i * dt)%Qc).
  set (f := fun i : nat => (a + qn i * dt)%Qc).
  assert (Hlt : (f k < b)%Qc).
  { pose proof (Qceiling_lt ((b - a) / dt)%Qc) as Hl.
    assert (Ez : (Qceiling ((b - a) / dt)%Qc - 1 = Z.of_nat k)%Z) by lia.
    rewrite Ez in Hl. rewrite this_div, this_minus in Hl.
    unfold f, Qclt. rewrite this_plus, this_mult. unfold qn. rewrite this_Q2Qc.
    unfold Qclt in Hd. simpl (this 0%Qc) in Hd.
    assert (Hm : (inject_Z (Z.of_nat k) * this dt < this b - this a)%Q).
    { apply (Qmult_lt_r _ _ (this dt)) in Hl; auto.
      rewrite <- (Qmult_div_r (this b - this a) (this dt)) by lra. 
      rewrite (Qmult_comm (this dt)). exact Hl. }
    lra. }
  pose proof (sorted_affine a dt 0 (S k) Hd) as S. fold f in S.
  assert (Esn : map f (seq 0 (Datatypes.S k)) = map f (seq 0 k) ++ [f k]) by apply map_seq_snoc.
  rewrite Esn in S |- *.
  unfold last_item. rewrite rev_app_distr. cbn [rev app bind].
  assert (Qc_eq_bool (f k) b = false) as ->.
  { apply qc_eq_bool_false. intro E. rewrite E in Hlt. apply (Qclt_not_eq b b)%Qc; auto. }
  assert (E0 : f 0 = a). { unfold f. change (qn 0) with 0%Qc. ring. }
  rewrite <- Esn in S |- *.
  unfold set_last. remember (map f (seq 0 (Datatypes.S k)) ++ [b]) as l eqn:El.
  destruct l as [|x l]; [destruct (map f (seq 0 (Datatypes.S k))); discriminate|].
  rewrite El. rewrite removelast_last. eexists. split; [reflexivity|]. split.
  - exists (map f (seq 1 k)). split; [simpl; rewrite E0; reflexivity|].
    apply StronglySorted_snoc; auto. apply Forall_forall. intros y Hy.
    apply in_map_iff in Hy as [j [<- Hj]]. apply in_seq in Hj.
    destruct (Nat.eq_dec j k) as [->|]; auto.
    apply Qclt_trans with (f k); auto. apply qc_affine_lt; auto. lia.
  - intros i y Hi Hy. destruct (Nat.lt_ge_cases i (Datatypes.S k)) as [L|L].
    + rewrite nth_error_app1 in Hi by (rewrite map_length, seq_length; auto).
      rewrite nth_error_map in Hi.
      rewrite (nth_error_nth' _ 0) in Hi by (rewrite seq_length; auto).
      rewrite seq_nth in Hi by auto. injection Hi as <-. reflexivity.
    + rewrite nth_error_app2 in Hi by (rewrite map_length, seq_length; auto).
      rewrite map_length, seq_length in Hi.
      destruct (i - Datatypes.S k) as [|[|]]; simpl in Hi; congruence.
Qed.

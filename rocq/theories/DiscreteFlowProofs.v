(** Proofs about the discrete networks: convergence of [ResNetRNN] to the flow of its
    shallow net. *)
From Coq Require Import List String Reals Arith Lia Lra.
From Verif Require Import Base RealSum VecModel VecSpec DiscreteNetModel DiscreteNetSpec DiscreteNetProofs.
Open Scope R_scope.

Definition lipschitz (F : R -> R) (L : R) : Prop := 0 <= L /\ forall a b, Rabs (F a - F b) <= L * Rabs (a - b).

Lemma pos_lipschitz a b : Rabs (pos a - pos b) <= Rabs (a - b).
Proof.
  unfold pos. destruct (Rle_dec 0 a), (Rle_dec 0 b); unfold Rabs;
    repeat match goal with |- context [Rcase_abs ?x] => destruct (Rcase_abs x) end; lra.
Qed.

Lemma lipschitz_sum n (G : nat -> R -> R) : (forall j, (j < n)%nat -> exists L, lipschitz (G j) L) ->
  exists L, lipschitz (fun x => rsum n (fun j => G j x)) L.
Proof.
  induction n as [|n IH]; intros H.
  - exists 0. split; [lra|]. intros a b. cbn [rsum]. rewrite Rminus_diag_eq, Rabs_R0 by reflexivity. lra.
  - destruct IH as (L1 & P1 & H1); [intros j Hj; apply H; lia|]. destruct (H n ltac:(lia)) as (L2 & P2 & H2).
    exists (L1 + L2). split; [lra|]. intros a b. cbn [rsum].
    replace (rsum n (fun j => G j a) + G n a - (rsum n (fun j => G j b) + G n b))
      with ((rsum n (fun j => G j a) - rsum n (fun j => G j b)) + (G n a - G n b)) by ring.
    eapply Rle_trans; [apply Rabs_triang|]. specialize (H1 a b). specialize (H2 a b). lra.
Qed.

Lemma shallow_lipschitz f inner outer : exists L, lipschitz (shallow f (fun t => t) inner outer) L.
Proof.
  destruct (lipschitz_sum f (fun j x => factor outer 0 j * pos (factor inner j 0 * x + offset inner j))) as (L & P & H).
  - intros j _. exists (Rabs (factor outer 0 j) * Rabs (factor inner j 0)). split.
    + apply Rmult_le_pos; apply Rabs_pos.
    + intros a b. rewrite <- Rmult_minus_distr_l, Rabs_mult, Rmult_assoc.
      apply Rmult_le_compat_l; [apply Rabs_pos|]. eapply Rle_trans; [apply pos_lipschitz|].
      rewrite <- Rabs_mult. right. f_equal. ring.
  - exists L. split; [exact P|]. intros a b. unfold shallow. eapply Rle_trans; [|apply (H a b)].
    right. f_equal. ring.
Qed.

Section Convergence.
  Variables (F y : R -> R) (L : R).
  Hypothesis HL : lipschitz F L.
  Hypothesis Hy : solves F y.

  Lemma field_bounded : exists M, 0 <= M /\ forall t, 0 <= t <= 1 -> Rabs (F (y t)) <= M.
  Proof.
    assert (Cy : forall t, 0 <= t <= 1 -> continuity_pt y t).
    { intros t Ht. apply derivable_continuous_pt. exists (F (y t)). now apply Hy. }
    destruct (continuity_ab_maj y 0 1 ltac:(lra) Cy) as (a & Ha & _).
    destruct (continuity_ab_min y 0 1 ltac:(lra) Cy) as (b & Hb & _).
    destruct HL as [PL H].
    pose (B := Rabs (y a) + Rabs (y b)).
    assert (HB : forall t, 0 <= t <= 1 -> Rabs (y t) <= B).
    { intros t Ht. unfold B. specialize (Ha t Ht). specialize (Hb t Ht). revert Ha Hb. unfold Rabs.
      repeat match goal with |- context [Rcase_abs ?x] => destruct (Rcase_abs x) end; lra. }
    assert (PB : 0 <= B) by (apply Rplus_le_le_0_compat; apply Rabs_pos).
    exists (Rabs (F 0) + L * B). split; [apply Rplus_le_le_0_compat; [apply Rabs_pos|now apply Rmult_le_pos]|].
    intros t Ht. replace (F (y t)) with (F 0 + (F (y t) - F 0)) by ring.
    eapply Rle_trans; [apply Rabs_triang|]. apply Rplus_le_compat_l. eapply Rle_trans; [apply H|].
    rewrite Rminus_0_r. apply Rmult_le_compat_l; [exact PL|]. now apply HB.
  Qed.

  Lemma flow_step M a b : (forall t, 0 <= t <= 1 -> Rabs (F (y t)) <= M) -> 0 <= a -> a < b -> b <= 1 ->
    Rabs (y b - y a - (b - a) * F (y a)) <= L * M * (b - a) ^ 2.
  Proof.
    intros HM H0 Hab H1. destruct HL as [PL H].
    destruct (MVT_cor2 y (fun t => F (y t)) a b Hab) as (c & Ec & Hc); [intros; apply Hy; lra|].
    destruct (MVT_cor2 y (fun t => F (y t)) a c ltac:(lra)) as (d & Ed & Hd); [intros; apply Hy; lra|].
    rewrite Ec. replace (F (y c) * (b - a) - (b - a) * F (y a)) with ((b - a) * (F (y c) - F (y a))) by ring.
    rewrite Rabs_mult, (Rabs_pos_eq (b - a)) by lra.
    assert (K : Rabs (F (y c) - F (y a)) <= L * (M * (b - a))).
    { eapply Rle_trans; [apply H|]. apply Rmult_le_compat_l; [exact PL|]. rewrite Ed, Rabs_mult, (Rabs_pos_eq (c - a)) by lra.
      apply Rmult_le_compat; [apply Rabs_pos|lra|apply HM; lra|lra]. }
    replace (L * M * (b - a) ^ 2) with ((b - a) * (L * (M * (b - a)))) by ring.
    apply Rmult_le_compat_l; [lra|exact K].
  Qed.

  Lemma euler_error M n k : (forall t, 0 <= t <= 1 -> Rabs (F (y t)) <= M) -> 0 <= M -> (0 < n)%nat -> (k <= n)%nat ->
    let h := 1 / INR n in
    Rabs (euler F h k (y 0) - y (INR k * h)) <= INR k * (1 + h * L) ^ k * (L * M * h ^ 2).
  Proof.
    intros HM PM Hn Hk h. destruct HL as [PL H]. pose proof (lt_0_INR n Hn) as Pn.
    assert (Ph : 0 < h) by (unfold h, Rdiv; rewrite Rmult_1_l; now apply Rinv_0_lt_compat).
    assert (PhL : 0 <= h * L) by (apply Rmult_le_pos; lra).
    induction k as [|k IH].
    - cbn [euler INR]. rewrite !Rmult_0_l. rewrite Rminus_diag_eq, Rabs_R0 by reflexivity. lra.
    - specialize (IH ltac:(lia)). cbn [euler]. set (e := euler F h k (y 0)) in *. set (t := INR k * h) in *.
      assert (Et : INR (S k) * h = t + h) by (rewrite S_INR; unfold t; ring). rewrite Et.
      assert (T0 : 0 <= t) by (apply Rmult_le_pos; [apply pos_INR|lra]).
      assert (T1 : t + h <= 1).
      { rewrite <- Et. unfold h. apply Rmult_le_reg_r with (INR n); [exact Pn|]. field_simplify; [|lra].
        apply le_INR. exact Hk. }
      pose proof (flow_step M t (t + h) HM T0 ltac:(lra) T1) as S1. replace (t + h - t) with h in S1 by ring.
      replace (e + h * F e - y (t + h)) with
        ((e - y t) + (h * (F e - F (y t)) + (- (y (t + h) - y t - h * F (y t))))) by ring.
      eapply Rle_trans; [apply Rabs_triang|].
      eapply Rle_trans; [apply Rplus_le_compat_l; apply Rabs_triang|].
      rewrite Rabs_Ropp, Rabs_mult, (Rabs_pos_eq h) by lra.
      assert (S2 : h * Rabs (F e - F (y t)) <= h * L * Rabs (e - y t)).
      { rewrite Rmult_assoc. apply Rmult_le_compat_l; [lra|apply H]. }
      set (q := 1 + h * L) in *. set (c := L * M * h ^ 2) in *.
      assert (Pc : 0 <= c) by (unfold c; apply Rmult_le_pos; [now apply Rmult_le_pos|apply pow2_ge_0]).
      assert (Q1 : 1 <= q) by (unfold q; lra).
      assert (S3 : Rabs (e - y t) + h * L * Rabs (e - y t) <= q * (INR k * q ^ k * c)).
      { replace (Rabs (e - y t) + h * L * Rabs (e - y t)) with (q * Rabs (e - y t)) by (unfold q; ring).
        apply Rmult_le_compat_l; [lra|exact IH]. }
      assert (S4 : c <= q ^ S k * c).
      { rewrite <- (Rmult_1_l c) at 1. apply Rmult_le_compat_r; [exact Pc|]. apply pow_R1_Rle. exact Q1. }
      rewrite S_INR. replace ((INR k + 1) * q ^ S k * c) with (q * (INR k * q ^ k * c) + q ^ S k * c) by (cbn [pow]; ring).
      lra.
  Qed.

  Lemma pow_exp n : (0 < n)%nat -> (1 + 1 / INR n * L) ^ n <= exp L.
  Proof.
    intros Hn. destruct HL as [PL _]. pose proof (lt_0_INR n Hn) as Pn.
    assert (P : 0 <= 1 / INR n * L).
    { apply Rmult_le_pos; [|exact PL]. left. unfold Rdiv. rewrite Rmult_1_l. now apply Rinv_0_lt_compat. }
    apply Rle_trans with (exp (1 / INR n * L) ^ n).
    - apply pow_incr. split; [lra|apply exp_ineq1_le].
    - right. rewrite <- Rpower_pow by apply exp_pos. unfold Rpower. rewrite ln_exp. f_equal. field. lra.
  Qed.

  Lemma euler_converges : exists C, forall n, (0 < n)%nat -> Rabs (euler F (1 / INR n) n (y 0) - y 1) <= C / INR n.
  Proof.
    destruct field_bounded as (M & PM & HM). pose proof HL as [PL _]. exists (exp L * (L * M)). intros n Hn.
    pose proof (lt_0_INR n Hn) as Pn.
    pose proof (euler_error M n n HM PM Hn (le_n n)) as E. cbn zeta in E.
    replace (INR n * (1 / INR n)) with 1 in E by (field; lra).
    eapply Rle_trans; [exact E|].
    replace (INR n * (1 + 1 / INR n * L) ^ n * (L * M * (1 / INR n) ^ 2))
      with ((1 + 1 / INR n * L) ^ n * (L * M / INR n)) by (field; lra).
    replace (exp L * (L * M) / INR n) with (exp L * (L * M / INR n)) by (field; lra).
    apply Rmult_le_compat_r; [|now apply pow_exp].
    apply Rmult_le_pos; [now apply Rmult_le_pos|]. left. now apply Rinv_0_lt_compat.
  Qed.
End Convergence.

Lemma rnn_converges f (b : two) y :
  linear_layer f 1 true (b_l1 b) -> linear_layer 1 f true (b_l2 b) ->
  solves (shallow f (fun t => t) (b_l2 b) (b_l1 b)) y ->
  exists C, forall N x, (0 < N)%nat -> n2 x = 1%nat -> exists r, resnet_rnn b N x = Ok r /\
    forall n i, (n < n0 x)%nat -> (i < n1 x)%nat -> v3 x n i 0%nat = y 0 ->
      Rabs (v3 r n i 0%nat - y 1) <= C / INR N.
Proof.
  intros L1 L2 Hy. destruct (shallow_lipschitz f (b_l2 b) (b_l1 b)) as [L HL].
  destruct (euler_converges _ y L HL Hy) as [C HC]. exists C. intros N x HN Hx.
  destruct (rnn_values f b N x Hx L1 L2) as (r & E & _ & V). exists r. split; [exact E|].
  intros n i Hn Hi E0. rewrite V, E0 by assumption. now apply HC.
Qed.

(** Lemmas about the concentric sphere data and the test metrics. *)
From Coq Require Import List Reals ZArith Arith Lia Lra Psatz.
From Verif Require Import Base BaseFacts SphereModel SphereSpec.
Import ListNotations.
Open Scope R_scope.

(** Cross entropy *)
Lemma exp_pos1 : forall x, 0 < 1 + exp x.
Proof. intros. pose proof (exp_pos x). lra. Qed.

Lemma sigmoid_compl : forall x, 1 - 1 / (1 + exp (- x)) = 1 / (1 + exp x).
Proof.
  intros x. pose proof (exp_pos x). pose proof (exp_pos (- x)).
  assert (exp x * exp (- x) = 1) by (rewrite <- exp_plus; replace (x + - x) with 0 by lra; apply exp_0).
  field_simplify_eq; [nra|lra].
Qed.

Lemma ln_inv1 : forall y, 0 < y -> ln (1 / y) = - ln y.
Proof. intros y H. unfold Rdiv. rewrite Rmult_1_l. apply ln_Rinv. exact H. Qed.

Lemma softplus_shift : forall x, ln (1 + exp x) = x + ln (1 + exp (- x)).
Proof.
  intros x. pose proof (exp_pos x). pose proof (exp_pos (- x)).
  rewrite <- (ln_exp x) at 2. rewrite <- ln_mult by (apply exp_pos || apply exp_pos1).
  f_equal. assert (exp x * exp (- x) = 1) by (rewrite <- exp_plus; replace (x + - x) with 0 by lra; apply exp_0).
  nra.
Qed.

Lemma bce_cross : forall x y, bce_with_logits x y = cross_entropy x y.
Proof.
  intros x y. unfold bce_with_logits, cross_entropy. cbv zeta.
  rewrite sigmoid_compl, !ln_inv1 by apply exp_pos1.
  pose proof (softplus_shift x) as S.
  destruct (Rle_dec 0 x) as [P|P].
  - rewrite Rmax_left, Rabs_right by lra. rewrite S. ring.
  - rewrite Rmax_right, Rabs_left by lra. rewrite Ropp_involutive, S. ring.
Qed.

(** Rounding *)
Lemma int_part_0 : forall x, 0 <= x < 1 -> Int_part x = 0%Z.
Proof.
  intros x H. destruct (base_Int_part x) as [L U].
  assert (A : IZR (Int_part x) < 1) by lra. assert (B : -1 < IZR (Int_part x)) by lra.
  apply lt_IZR in A. apply lt_IZR in B. lia.
Qed.

Lemma sigmoid_range : forall x, 0 < sigmoid x < 1.
Proof.
  intros x. unfold sigmoid. pose proof (exp_pos (- x)). split.
  - apply Rdiv_lt_0_compat; lra.
  - apply (Rmult_lt_reg_r (1 + exp (- x))); [lra|]. field_simplify; lra.
Qed.

Lemma sigmoid_half : forall x, 1 / 2 < sigmoid x <-> 0 < x.
Proof.
  intros x. unfold sigmoid. pose proof (exp_pos (- x)) as P. split; intros H.
  - destruct (Rlt_dec 0 x) as [|N]; [assumption|exfalso].
    assert (E : 1 <= exp (- x)).
    { rewrite <- exp_0. destruct (Req_dec x 0) as [->|D]; [replace (-0) with 0 by lra; lra|].
      left. apply exp_increasing. lra. }
    assert (1 / (1 + exp (- x)) <= 1 / 2); [|lra].
    apply Rmult_le_compat_l; [lra|]. apply Rinv_le_contravar; lra.
  - assert (E : exp (- x) < 1) by (rewrite <- exp_0; apply exp_increasing; lra).
    apply Rmult_lt_compat_l; [lra|]. apply Rinv_lt_contravar; [nra|lra].
Qed.

Lemma round_sigmoid : forall x, round_even (sigmoid x) = if Rlt_dec 0 x then 1 else 0.
Proof.
  intros x. unfold round_even. pose proof (sigmoid_range x) as R0.
  rewrite int_part_0 by lra. pose proof (sigmoid_half x) as H.
  destruct (Rlt_dec 0 x) as [P|N].
  - apply H in P. destruct (Rlt_dec _ _); [lra|]. destruct (Rlt_dec _ _); [reflexivity|lra].
  - destruct (Rlt_dec _ _); [reflexivity|]. destruct (Rlt_dec (1 / 2) _) as [Q|_]; [|reflexivity].
    exfalso. apply N, H. lra.
Qed.

Lemma hit_dec : forall x y, (if Req_EM_T (round_even (sigmoid x)) y then true else false) = true <-> hit x y.
Proof.
  intros x y. rewrite round_sigmoid. unfold hit.
  destruct (Rlt_dec 0 x); destruct (Req_EM_T _ _); split; intros; try discriminate; try reflexivity;
    try (left; split; [assumption|congruence]); try (right; split; [lra|congruence]);
    destruct H as [[? ?]|[? ?]]; congruence || lra.
Qed.

(** Counting *)
Lemma counts_filter : forall (A : Type) (P : A -> Prop) (f : A -> bool) l,
  (forall a, f a = true <-> P a) -> counts P l (length (filter f l)).
Proof.
  intros A P f l H. induction l as [|a l IH]; [constructor|]. cbn [filter].
  destruct (f a) eqn:E.
  - cbn [length]. constructor; [apply H; exact E|exact IH].
  - constructor; [|exact IH]. intros C. apply H in C. congruence.
Qed.

Lemma counts_le : forall (A : Type) (P : A -> Prop) l n, counts P l n -> (n <= length l)%nat.
Proof. intros A P l n H. induction H; cbn; lia. Qed.

Lemma counts_map : forall (A B : Type) (g : A -> B) (P : B -> Prop) l n,
  counts P (map g l) n -> counts (fun a => P (g a)) l n.
Proof.
  intros A B g P l. induction l as [|a l IH]; intros n H; inversion H; subst.
  - constructor.
  - apply counts_yes; [assumption|apply IH; assumption].
  - apply counts_no; [assumption|apply IH; assumption].
Qed.

Lemma sum_app : forall l k, fold_right Rplus 0 (l ++ k) = fold_right Rplus 0 l + fold_right Rplus 0 k.
Proof. induction l; intros; cbn; [lra|rewrite IHl; lra]. Qed.

Section Test.
  Context {X : Type}.
  Variable forward : list X -> list R.
  Variable f : X -> R.
  Hypothesis single : forall b, forward b = map f b.

  Definition pair_of (s : X * R) : R * R := (f (fst s), snd s).
  Definition hitb (p : R * R) : bool := if Req_EM_T (round_even (sigmoid (fst p))) (snd p) then true else false.

  Lemma combine_map : forall (l : list (X * R)), combine (map f (map fst l)) (map snd l) = map pair_of l.
  Proof. induction l as [|[x y] l IH]; cbn; [reflexivity|rewrite IH; reflexivity]. Qed.

  Lemma test_fold : forall batches a c,
    fold_left (test_batch forward) batches (a, c)
    = (a + fold_right Rplus 0 (map (fun p => bce_with_logits (fst p) (snd p)) (map pair_of (concat batches))),
       (c + length (filter hitb (map pair_of (concat batches))))%nat).
  Proof.
    induction batches as [|b bs IH]; intros a c; cbn [fold_left concat].
    - cbn. f_equal; [lra|lia].
    - unfold test_batch at 2. rewrite single, combine_map. cbn [fst snd]. fold hitb. rewrite IH.
      rewrite !map_app, sum_app, filter_app, app_length. f_equal; [lra|lia].
  Qed.

  Lemma test_ok : forall batches ds, concat batches = ds -> ds <> [] ->
    exists acc correct, test forward batches (length ds)
      = Ok (average (map (fun s => cross_entropy (f (fst s)) (snd s)) ds), acc) /\
      counts (fun s => hit (f (fst s)) (snd s)) ds correct /\
      acc = 100 * INR correct / INR (length ds) /\ 0 <= acc <= 100.
  Proof.
    intros batches ds E N. unfold test. rewrite test_fold, E, !map_map. cbn [plus].
    set (c := length (filter hitb (map pair_of ds))).
    assert (C : counts (fun s => hit (f (fst s)) (snd s)) ds c).
    { apply (counts_map _ _ pair_of (fun p => hit (fst p) (snd p))). apply counts_filter.
      intros [x y]. apply hit_dec. }
    pose proof (counts_le _ _ _ _ C) as L. apply le_INR in L.
    destruct ds as [|s ds]; [congruence|].
    assert (P : 0 < INR (length (s :: ds))) by (apply lt_0_INR; cbn; lia).
    exists (100 * INR c / INR (length (s :: ds))), c. split; [|split; [exact C|split; [reflexivity|]]].
    - cbn [rdiv length bind]. f_equal. f_equal. unfold average. rewrite map_length. f_equal.
      rewrite Rplus_0_l. f_equal. apply map_ext. intros [x y]. apply bce_cross.
    - pose proof (pos_INR c). split.
      + apply Rmult_le_pos; [lra|]. left. apply Rinv_0_lt_compat, P.
      + apply (Rmult_le_reg_r (INR (length (s :: ds)))); [exact P|].
        unfold Rdiv. rewrite Rmult_assoc, Rinv_l by lra. lra.
  Qed.

  Lemma test_empty : forall batches, test forward batches 0 = Raise ZeroDivisionError.
  Proof. intros. unfold test. rewrite test_fold. reflexivity. Qed.
End Test.

(** Training loss *)
Lemma train_fold : forall sw ll t, Forall (fun l => l <> []) ll ->
  foldM (fun t l => m <- rmean l ;; Ok (t + sw * m)) ll t
  = Ok (t + sw * fold_right Rplus 0 (map average ll)).
Proof.
  induction ll as [|l ll IH]; intros t F; cbn [foldM map fold_right].
  - f_equal. lra.
  - inversion F as [|? ? N F']; subst. destruct l as [|x l]; [congruence|].
    cbn [rmean bind]. fold (average (x :: l)). rewrite IH by exact F'. f_equal. lra.
Qed.

Lemma train_loss_eq : forall sw ll, ll <> [] -> Forall (fun l => l <> []) ll ->
  train_loss sw ll = Ok (sw * average (map average ll)).
Proof.
  intros sw ll N F. unfold train_loss. rewrite train_fold by exact F. cbn [bind].
  unfold average at 2. rewrite map_length. destruct ll as [|l ll]; [congruence|].
  cbn [rdiv length]. f_equal. unfold Rdiv. ring.
Qed.

Lemma train_loss_even : forall sw ll b, (0 < b)%nat -> ll <> [] -> Forall (fun l => length l = b) ll ->
  train_loss sw ll = Ok (sw * average (concat ll)).
Proof.
  intros sw ll b B N F. rewrite train_loss_eq; [|exact N|].
  2:{ eapply Forall_impl; [|exact F]. cbv beta. intros l E C. subst l. cbn in E. lia. }
  f_equal. f_equal. unfold average at 1 3. rewrite map_length.
  assert (P : 0 < INR b) by (apply lt_0_INR; exact B).
  assert (Q : 0 < INR (length ll)) by (apply lt_0_INR; destruct ll; [congruence|cbn; lia]).
  assert (E : length (concat ll) = (length ll * b)%nat /\
              fold_right Rplus 0 (map average ll) * INR b = fold_right Rplus 0 (concat ll)).
  { clear N Q. induction F as [|l ll H F [I1 I2]]; [split; [reflexivity|cbn; lra]|].
    cbn [concat map fold_right length]. rewrite app_length, sum_app, H. split; [lia|].
    rewrite Rmult_plus_distr_r, I2. f_equal. unfold average. rewrite H. field. lra. }
  destruct E as [E1 E2]. rewrite E1, mult_INR, <- E2. field. lra.
Qed.

(** Spheres *)
Lemma norm_square : forall v, norm2 v = sqrt (square_radius v).
Proof. reflexivity. Qed.

Lemma square_nonneg : forall v, 0 <= square_radius v.
Proof. unfold square_radius. induction v; cbn; nra. Qed.

Lemma square_scale : forall k v, square_radius (map (fun x => k * x) v) = k * k * square_radius v.
Proof. unfold square_radius. induction v; cbn; [ring|rewrite IHv; ring]. Qed.

Lemma root_ok : forall dim u, (0 < dim)%nat -> 0 <= u < 1 -> exists r, root dim u = Ok r /\ 0 <= r < 1 /\ r ^ dim = u.
Proof.
  intros dim u D U. destruct dim as [|d]; [lia|]. cbn [root].
  assert (P : 0 < INR (S d)) by (apply lt_0_INR; lia).
  destruct (Req_EM_T u 0) as [->|N].
  - exists 0. split; [reflexivity|]. split; [lra|]. apply pow_i. lia.
  - assert (0 < u) by lra. exists (Rpower u (1 / INR (S d))). split; [reflexivity|].
    assert (Q : 0 < Rpower u (1 / INR (S d))) by apply exp_pos.
    split.
    + split; [lra|]. unfold Rpower.
      assert (ln u < 0) by (rewrite <- ln_1; apply ln_increasing; lra).
      assert (0 < 1 / INR (S d)) by (apply Rdiv_lt_0_compat; lra).
      apply Rlt_le_trans with (exp 0); [|rewrite exp_0; lra]. apply exp_increasing.
      rewrite <- (Rmult_0_r (1 / INR (S d))). apply Rmult_lt_compat_l; assumption.
    + rewrite <- Rpower_pow by exact Q. rewrite Rpower_mult.
      replace (1 / INR (S d) * INR (S d)) with 1 by (field; lra). apply Rpower_1. assumption.
Qed.

Lemma point_ok : forall u dir dim a b, (0 < dim)%nat -> 0 <= u < 1 -> square_radius dir <> 0 -> 0 <= a -> a <= b ->
  exists p r, random_point_in_sphere u dir dim a b = Ok p /\ length p = length dir /\ 0 <= r < 1 /\ r ^ dim = u /\
    square_radius p = ((b - a) * r + a) ^ 2.
Proof.
  intros u dir dim a b D U N A B. destruct (root_ok dim u D U) as (r & E & R1 & R2).
  unfold random_point_in_sphere. rewrite E. cbn [bind].
  pose proof (square_nonneg dir) as SN.
  assert (SP : 0 < norm2 dir) by (rewrite norm_square; apply sqrt_lt_R0; lra).
  destruct (Req_EM_T (norm2 dir) 0) as [C|_]; [lra|].
  exists (map (fun x => ((b - a) * r + a) * (x / norm2 dir)) dir), r.
  split; [reflexivity|]. split; [apply map_length|]. split; [exact R1|]. split; [exact R2|].
  rewrite (map_ext _ (fun x => (((b - a) * r + a) / norm2 dir) * x)) by (intros x; field; lra).
  rewrite square_scale.
  assert (S2 : norm2 dir * norm2 dir = square_radius dir) by (rewrite norm_square; apply sqrt_sqrt; exact SN).
  rewrite <- S2. field. lra.
Qed.

Lemma radius_range : forall u dir dim a b, (0 < dim)%nat -> 0 <= u < 1 -> square_radius dir <> 0 -> 0 <= a -> a < b ->
  exists p, random_point_in_sphere u dir dim a b = Ok p /\ length p = length dir /\
    a <= sqrt (square_radius p) < b.
Proof.
  intros u dir dim a b D U N A B.
  destruct (point_ok u dir dim a b D U N A) as (p & r & E & L & R1 & R2 & SQ); [lra|].
  exists p. split; [exact E|]. split; [exact L|]. rewrite SQ, sqrt_pow2 by nra. nra.
Qed.

Lemma mapM_seq_ok : forall (A : Type) (g : nat -> result A) n from (Q : nat -> A -> Prop),
  (forall i, exists x, g i = Ok x /\ Q i x) ->
  exists l, mapM g (seq from n) = Ok l /\ length l = n /\
    forall i x, nth_error l i = Some x -> Q (from + i)%nat x.
Proof.
  intros A g n. induction n as [|n IH]; intros from Q H.
  - exists []. split; [reflexivity|]. split; [reflexivity|]. intros [|i] x E; discriminate.
  - cbn [seq mapM]. destruct (H from) as (x & E & QX). rewrite E. cbn [bind].
    destruct (IH (S from) Q H) as (l & El & Ll & Ql). rewrite El. cbn [bind].
    exists (x :: l). split; [reflexivity|]. split; [cbn; lia|].
    intros [|i] y Ey.
    + injection Ey as <-. rewrite Nat.add_0_r. exact QX.
    + cbn in Ey. replace (from + S i)%nat with (S from + i)%nat by lia. apply Ql. exact Ey.
Qed.

Lemma concentric_ok : forall us dirs dim inner outer ni no,
  (0 < dim)%nat -> (forall i, 0 <= us i < 1) ->
  (forall i, length (dirs i) = dim /\ square_radius (dirs i) <> 0) ->
  0 <= fst inner -> fst inner < snd inner -> 0 <= fst outer -> fst outer < snd outer ->
  exists ds, concentric_sphere us dirs dim inner outer ni no = Ok ds /\ length ds = (ni + no)%nat /\
    forall i p y, nth_error ds i = Some (p, y) -> length p = dim /\
      ((i < ni)%nat -> y = 0 /\ fst inner <= sqrt (square_radius p) < snd inner) /\
      ((ni <= i)%nat -> y = 1 /\ fst outer <= sqrt (square_radius p) < snd outer).
Proof.
  intros us dirs dim inner outer ni no D U V I1 I2 O1 O2.
  assert (G : forall (range : R * R) label from num, 0 <= fst range -> fst range < snd range ->
    exists l, sphere us dirs dim range label from num = Ok l /\ length l = num /\
      forall i p y, nth_error l i = Some (p, y) ->
        length p = dim /\ y = label /\ fst range <= sqrt (square_radius p) < snd range).
  { intros range label from num R1 R2. unfold sphere.
    destruct (mapM_seq_ok _ (fun i => p <- random_point_in_sphere (us i) (dirs i) dim (fst range) (snd range) ;; Ok (p, label))
      num from (fun _ x => length (fst x) = dim /\ snd x = label /\
                           fst range <= sqrt (square_radius (fst x)) < snd range)) as (l & E & L & Q).
    - intros i. destruct (V i) as [V1 V2].
      destruct (radius_range (us i) (dirs i) dim (fst range) (snd range) D (U i) V2 R1 R2) as (p & E & L & Q).
      exists (p, label). rewrite E. split; [reflexivity|]. cbn [fst snd]. split; [congruence|]. split; [reflexivity|exact Q].
    - exists l. split; [exact E|]. split; [exact L|]. intros i p y H. exact (Q i (p, y) H). }
  unfold concentric_sphere.
  destruct (G inner 0 0%nat ni I1 I2) as (l0 & E0 & L0 & Q0). rewrite E0. cbn [bind].
  destruct (G outer 1 ni no O1 O2) as (l1 & E1 & L1 & Q1). rewrite E1. cbn [bind].
  exists (l0 ++ l1). split; [reflexivity|]. split; [rewrite app_length; lia|].
  intros i p y H. destruct (Nat.lt_ge_cases i ni) as [C|C].
  - rewrite nth_error_app1 in H by lia. destruct (Q0 i p y H) as (A & B & E).
    split; [exact A|]. split; [intros _; split; assumption|lia].
  - rewrite nth_error_app2 in H by lia. destruct (Q1 _ p y H) as (A & B & E).
    split; [exact A|]. split; [lia|intros _; split; assumption].
Qed.

Lemma pow_le_iff : forall n x y, (0 < n)%nat -> 0 <= x -> 0 <= y -> (x <= y <-> x ^ n <= y ^ n).
Proof.
  intros n x y N X Y. split; intros H.
  - apply pow_incr. lra.
  - destruct (Rle_dec x y) as [|C]; [assumption|exfalso].
    assert (y < x) by lra. clear C.
    assert (P : forall k, (0 < k)%nat -> y ^ k < x ^ k).
    { induction k as [|[|k] IH]; intros K; [lia|cbn; lra|].
      specialize (IH ltac:(lia)). change (y * y ^ S k < x * x ^ S k).
      assert (0 <= y ^ S k) by (apply pow_le; exact Y). nra. }
    specialize (P n N). lra.
Qed.

Lemma radius_law : forall u dir dim a b ra, (0 < dim)%nat -> 0 <= u < 1 -> square_radius dir <> 0 ->
  0 <= a -> a < b -> a <= ra -> exists p, random_point_in_sphere u dir dim a b = Ok p /\
    (sqrt (square_radius p) <= ra <-> u <= ((ra - a) / (b - a)) ^ dim).
Proof.
  intros u dir dim a b ra D U N A B RA.
  destruct (point_ok u dir dim a b D U N A) as (p & r & E & L & R1 & R2 & SQ); [lra|].
  exists p. split; [exact E|]. rewrite SQ, sqrt_pow2 by nra. rewrite <- R2.
  assert (Q : 0 <= (ra - a) / (b - a)) by (apply Rmult_le_pos; [lra|left; apply Rinv_0_lt_compat; lra]).
  rewrite <- pow_le_iff by (assumption || lra).
  assert (W : (ra - a) / (b - a) * (b - a) = ra - a) by (field; lra).
  split; intros H; nra.
Qed.

Lemma radius_law_ball : forall u dir dim b ra, (0 < dim)%nat -> 0 <= u < 1 -> square_radius dir <> 0 ->
  0 < b -> 0 <= ra -> exists p, random_point_in_sphere u dir dim 0 b = Ok p /\
    (sqrt (square_radius p) <= ra <-> u <= volume_share dim 0 b ra).
Proof.
  intros u dir dim b ra D U N B RA.
  destruct (radius_law u dir dim 0 b ra D U N (Rle_refl 0) B RA) as (p & E & H).
  exists p. split; [exact E|]. rewrite H. unfold volume_share.
  rewrite pow_i by exact D. rewrite !Rminus_0_r. unfold Rdiv. rewrite Rpow_mult_distr, pow_inv. reflexivity.
Qed.

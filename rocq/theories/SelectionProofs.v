(** The array of starting points of spiral.py. *)
From Coq Require Import List String Arith ZArith QArith Qcanon Qreals Reals Lra Lia Bool Sorting.Sorted.
From Verif Require Import Base ArgparseModel ExperimentModel IntegratorModel CirclesSpec
  FixedGridModel FixedGridSpec FixedGridProofs FixedGridProofs2 SpiralModel SpiralDataModel SpiralDataSpec
  SpiralCurveProofs SpiralStepProofs SpiralDataProofs SelectionSpec.
Import ListNotations.
Open Scope string_scope.
Open Scope list_scope.
Open Scope R_scope.

(** A rounding exists. *)
Fixpoint least (d : R) (l : list R) : R := match l with [] => d | a :: l => least (Rmin d a) l end.
Lemma least_below l : forall d a, a = d \/ In a l -> least d l <= a.
Proof.
  induction l as [|b l IH]; intros d a I; cbn [least]; [destruct I as [->|[]]; lra|].
  destruct I as [->|[->|I]].
  - apply Rle_trans with (Rmin d b); [apply IH; left; reflexivity|apply Rmin_l].
  - apply Rle_trans with (Rmin d a); [apply IH; left; reflexivity|apply Rmin_r].
  - apply IH. right. exact I.
Qed.
Lemma least_in l : forall d, least d l = d \/ In (least d l) l.
Proof.
  induction l as [|b l IH]; intros d; cbn [least]; [left; reflexivity|]. destruct (IH (Rmin d b)) as [E|I]; [|right; right; exact I].
  rewrite E. unfold Rmin. destruct (Rle_dec d b); [left; reflexivity|right; left; reflexivity].
Qed.
Definition nearest (x : R) : Z := up (x - 1 / 2).
Definition some_scale (l : list R) : list Z := match l with [] => [] | a :: r => map (fun d => nearest (d / least a r)) l end.
Lemma some_scale_rounds : rounds some_scale.
Proof.
  intros [|a r] m I M B; [destruct I|]. unfold some_scale.
  assert (E : least a r = m).
  { apply Rle_antisym; [apply least_below; destruct I; auto|]. apply B. destruct (least_in r a) as [->|X]; [left; reflexivity|right; exact X]. }
  rewrite E. generalize (a :: r). intros l. induction l as [|d l IH]; [constructor|]. cbn [map]. constructor; [|exact IH].
  unfold nearest. destruct (archimed (d / m - 1 / 2)) as (X & Y). apply Rabs_le. lra.
Qed.

Lemma abs_bounds x a : Rabs x <= a -> - a <= x <= a.
Proof. unfold Rabs. destruct (Rcase_abs x); lra. Qed.

(** ** Occurrences *)
Lemma count_repeat i j n : count_occ Nat.eq_dec (repeat j n) i = if Nat.eqb i j then n else 0%nat.
Proof.
  induction n as [|n IH]; [destruct (Nat.eqb i j); reflexivity|]. cbn [repeat count_occ]. rewrite IH.
  destruct (Nat.eq_dec j i), (Nat.eqb_spec i j); congruence.
Qed.

Lemma count_blocks (z : list Z) : forall k i,
  count_occ Nat.eq_dec (flat_map (fun i_sd => repeat (fst i_sd) (Z.to_nat (snd i_sd))) (combine (seq k (List.length z)) z)) i
  = if (Nat.leb k i && Nat.ltb i (k + List.length z))%bool then Z.to_nat (nth (i - k) z 0%Z) else 0%nat.
Proof.
  induction z as [|a z IH]; intros k i.
  - cbn [List.length seq combine flat_map count_occ]. destruct (Nat.leb_spec k i), (Nat.ltb_spec i (k + 0)); try reflexivity; lia.
  - cbn [List.length seq combine flat_map fst snd]. rewrite count_occ_app, count_repeat, IH.
    destruct (Nat.eqb_spec i k) as [->|N].
    + rewrite Nat.sub_diag. cbn [nth]. destruct (Nat.leb_spec (S k) k); [lia|]. rewrite Nat.leb_refl.
      destruct (Nat.ltb_spec k (k + S (List.length z))); [|lia]. cbn [andb]. lia.
    + destruct (Nat.leb_spec (S k) i), (Nat.leb_spec k i); try lia; cbn [andb]; [|lia].
      replace (S k + List.length z)%nat with (k + S (List.length z))%nat by lia.
      destruct (Nat.ltb i (k + S (List.length z))); [|reflexivity]. replace (i - k)%nat with (S (i - S k)) by lia. reflexivity.
Qed.

Lemma f2_len {A B} (R : A -> B -> Prop) l v : Forall2 R l v -> List.length l = List.length v.
Proof. intros F. induction F; cbn; congruence. Qed.
Lemma f2_at {A B} (R : A -> B -> Prop) l v a b : Forall2 R l v -> forall i, (i < List.length l)%nat -> R (nth i l a) (nth i v b).
Proof. intros F. induction F as [|x y l v r F IH]; intros i I; [cbn in I; lia|]. destruct i as [|i]; [exact r|]. apply IH. cbn in I. lia. Qed.

Lemma first_nth {A} (d : A) l : forall n i, (i < List.length (firstn n l))%nat -> nth i (firstn n l) d = nth i l d.
Proof.
  induction l as [|a l IH]; intros [|n] i I; cbn in *; try lia. destruct i as [|i]; [reflexivity|]. apply IH. lia.
Qed.

(** ** Any distances *)
Lemma selection_counts scale (dists : list R) batch_time : rounds scale -> (2 <= batch_time)%Z ->
  (batch_time <= Z.of_nat (List.length dists))%Z -> (forall d, In d dists -> 0 < d) ->
  exists idx m, create_uniform_distance_selection_array scale dists batch_time = Ok idx /\
    let kept := firstn (Z.to_nat (Z.of_nat (List.length dists) - batch_time + 1)) dists in
    In m kept /\ (forall d, In d kept -> m <= d) /\
    (forall i, (i < List.length kept)%nat ->
       (1 <= offered i idx)%nat /\ Rabs (INR (offered i idx) - nth i dists 0 / m) <= 1 / 2) /\
    (forall i, (List.length kept <= i)%nat -> offered i idx = 0%nat).
Proof.
  intros R B L P. set (kept := firstn (Z.to_nat (Z.of_nat (List.length dists) - batch_time + 1)) dists).
  assert (K : slice_to (- (batch_time - 1)) dists = kept).
  { unfold slice_to, kept. destruct (Z.ltb_spec (- (batch_time - 1)) 0); [|lia]. f_equal. f_equal. lia. }
  unfold create_uniform_distance_selection_array. rewrite K.
  assert (LK : List.length kept = Z.to_nat (Z.of_nat (List.length dists) - batch_time + 1)).
  { unfold kept. rewrite firstn_length. lia. }
  assert (SUB : forall d, In d kept -> In d dists) 
    by (intros d I; rewrite <- (firstn_skipn (Z.to_nat (Z.of_nat (List.length dists) - batch_time + 1)) dists); apply in_or_app; left; exact I).
  assert (NTH : forall i, (i < List.length kept)%nat -> nth i kept 0 = nth i dists 0).
  { intros i I. apply first_nth, I. }
  clearbody kept. destruct kept as [|a r]; [cbn in LK; lia|].
  assert (MI : In (least a r) (a :: r)) by (destruct (least_in r a) as [->|X]; [left; reflexivity|right; exact X]).
  assert (MB : forall d, In d (a :: r) -> least a r <= d) by (intros d [->|I]; apply least_below; auto).
  assert (F := R (a :: r) (least a r) MI (P _ (SUB _ MI)) MB).
  assert (LF := f2_len _ _ _ F). eexists. exists (least a r). split; [reflexivity|]. cbv zeta. split; [exact MI|]. split; [exact MB|].
  unfold offered. split; intros i I; rewrite count_blocks.
  - cbn [Nat.leb andb Nat.add]. rewrite Nat.sub_0_r. rewrite <- LF. destruct (Nat.ltb_spec i (List.length (a :: r))); [|lia].
    assert (X := f2_at _ _ _ 0 0%Z F i I). cbv beta in X. rewrite <- NTH by exact I.
    assert (MP : 0 < least a r) by apply P, SUB, MI.
    assert (Q1 : 1 <= nth i (a :: r) 0 / least a r).
    { apply (Rmult_le_reg_r (least a r)); [exact MP|]. unfold Rdiv. rewrite Rmult_assoc, Rinv_l by lra.
      assert (Y := MB _ (nth_In _ 0 I)). lra. }
    set (z := nth i (scale (a :: r)) 0%Z) in *. apply abs_bounds in X.
    assert (Z1 : (1 <= z)%Z).
    { assert (0 < z)%Z; [|lia]. apply lt_IZR. lra. }
    split; [lia|]. rewrite INR_IZR_INZ, Z2Nat.id by lia. apply Rabs_le. exact X.
  - cbn [Nat.leb andb Nat.add]. destruct (Nat.ltb_spec i (List.length (scale (a :: r)))); [|reflexivity].
    rewrite <- LF in H. lia.
Qed.

(** ** The linear data *)
Fixpoint turns (h : R) (k : nat) (y : point) : point := match k with O => y | S k => turns h k (cm (poly h) y) end.
Lemma turns_S h k : forall y, turns h (S k) y = cm (poly h) (turns h k y).
Proof. induction k as [|k IH]; intros y; [reflexivity|]. cbn [turns] in *. rewrite <- IH. reflexivity. Qed.
Definition positions (h : R) (j : nat) : point := turns h j (2, 0).

Lemma whole_positions h t k : whole_steps (fun t dt y => padd y (rk4_step padd pmul (fun _ => diff_eq_rhs true) t dt y)) h t k (2, 0)
  = positions (to_real h) k.
Proof.
  unfold positions. generalize ((2, 0) : point) as y. revert t.
  induction k as [|k IH]; intros t y; cbn [whole_steps turns]; [reflexivity|]. rewrite IH, step_poly. reflexivity.
Qed.

Lemma distance_nrm a b : distance a b = nrm (fst b - fst a, snd b - snd a).
Proof. unfold distance, nrm. cbn [fst snd]. f_equal. ring. Qed.

Lemma positions_distance h i j : distance (positions h i) (positions h (i + j)) = nrm (poly h) ^ i * distance (2, 0) (positions h j).
Proof.
  induction i as [|i IH]; [cbn [Nat.add pow]; unfold positions at 1; cbn [turns]; ring|]. rewrite !distance_nrm in *. cbn [Nat.add pow].
  unfold positions in *. rewrite !turns_S. set (a := turns h i _) in *. set (b := turns h (i + j) _) in *.
  replace (fst (cm (poly h) b) - fst (cm (poly h) a), snd (cm (poly h) b) - snd (cm (poly h) a)) with (cm (poly h) (fst b - fst a, snd b - snd a))
    by (unfold cm; cbn [fst snd]; apply f_equal2; ring).
  rewrite nrm_cm, IH. ring.
Qed.
Lemma positions_nrm h k : nrm (positions h k) = nrm (poly h) ^ k * 2.
Proof.
  induction k as [|k IH].
  - unfold positions, nrm. cbn [turns pow fst snd]. replace (2 * 2 + 0 * 0) with (2 * 2) by ring. rewrite sqrt_square; lra.
  - unfold positions in *. rewrite turns_S, nrm_cm, IH. cbn [pow]. ring.
Qed.

Lemma first_distance h k : 0 < h <= 1 -> (1 <= k)%nat -> 0 < distance (2, 0) (positions h k).
Proof.
  intros H K. rewrite distance_nrm. destruct (nrm_pos (fst (positions h k) - fst (2, 0), snd (positions h k) - snd (2, 0))) as [L|E]; [exact L|].
  exfalso. assert (X := positions_nrm h k). assert (P := nrm_poly_pos h H). assert (S1 := nrm_shrinks h H). set (r := nrm (poly h)) in *.
  assert (Q := nrm_sq (fst (positions h k) - fst (2, 0), snd (positions h k) - snd (2, 0))). rewrite <- E in Q. cbn [fst snd] in Q.
  destruct (positions h k) as (a, b). cbn [fst snd] in Q.
  assert (a = 2 /\ b = 0) as (-> & ->).
  { generalize (Rle_0_sqr (a - 2)) (Rle_0_sqr (b - 0)). unfold Rsqr. intros U V.
    split; apply Rminus_diag_uniq, Rsqr_0_uniq; unfold Rsqr; lra. }
  assert (Y := positions_nrm h 0). unfold positions in Y. cbn [turns pow] in Y. rewrite Y in X.
  destruct k as [|k]; [lia|]. cbn [pow] in X. assert (Z : r ^ k <= 1 ^ k) by (apply pow_incr; lra). rewrite pow1 in Z.
  assert (0 < r ^ k) by (apply pow_lt; exact P). assert (r * r ^ k <= r * 1) by (apply Rmult_le_compat_l; lra). lra.
Qed.

Lemma distances_length y : List.length (distances y) = (List.length y - 1)%nat.
Proof. induction y as [|a [|b y] IH]; [reflexivity|reflexivity|]. change (distances (a :: b :: y)) with (distance a b :: distances (b :: y)). cbn [List.length] in *. lia. Qed.
Lemma distances_nth y : forall i a b, nth_error y i = Some a -> nth_error y (S i) = Some b -> nth i (distances y) 0 = distance a b.
Proof.
  induction y as [|x [|z y] IH]; intros i a b A B; [destruct i; discriminate|destruct i as [|[|i]]; discriminate|].
  change (distances (x :: z :: y)) with (distance x z :: distances (z :: y)). destruct i as [|i]; [cbn in A, B; injection A as <-; injection B as <-; reflexivity|].
  cbn [nth]. apply IH; assumption.
Qed.

(** All data at whole numbers of steps. *)
Lemma data_positions other odesolver words ns n q k : parse_args spiral_parser words = Some ns -> asks_rk4 ns n q -> (2 <= n)%nat -> (0 < q)%Q ->
  point_time n 1 = INR k * Q2R q ->
  exists t y, generate_points other odesolver ns = Ok (t, y) /\ List.length y = n /\
    forall i p, nth_error y i = Some p -> p = positions (Q2R q) (i * k).
Proof.
  intros E A N Q0 T1. destruct n as [|[|m]]; [lia|lia|]. destruct (data_made other odesolver words ns m q E A Q0) as (values & V & G).
  eexists. eexists. split; [exact G|].
  assert (H : (0 < Q2Qc q)%Qc) by (unfold Qclt; cbn; rewrite Qred_correct; exact Q0).
  destruct (times_shape m) as (ts & TS).
  assert (SS : StronglySorted Qclt (0%Qc :: ts ++ [Q2Qc 10])) by (rewrite <- TS; apply times_sorted, gap_pos).
  destruct (values_on_grid padd pmul (rk4_step padd pmul (fun _ => diff_eq_rhs true)) (Q2Qc q) 0%Qc (ts ++ [Q2Qc 10]) (2, 0) H SS) as (v & V' & L & W).
  unfold rk4_data in V. rewrite <- TS in V', W. rewrite V in V'. injection V' as <-.
  assert (LL : List.length values = S (S m)).
  { rewrite L. assert (X := f_equal (@List.length Qc) TS). rewrite map_length, seq_length in X. cbn [List.length] in X. lia. }
  split; [exact LL|]. intros i p P.
  assert (I : (i < S (S m))%nat) by (rewrite <- LL; apply nth_error_Some; congruence).
  assert (X : nth_error (map (fun i => times i (gap m)) (seq 0 (S (S m)))) i = Some (times i (gap m))).
  { rewrite (map_nth_error _ _ (seq 0 (S (S m))) (d := i)); [reflexivity|].
    rewrite (nth_error_nth' _ 0%nat) by (rewrite seq_length; exact I). rewrite seq_nth by exact I. reflexivity. }
  assert (T : point_time (S (S m)) i = INR (i * k) * Q2R q).
  { rewrite mult_INR, Rmult_assoc, <- T1. unfold point_time. cbn [INR]. unfold Rdiv. ring. }
  assert (TT : times i (gap m) = (0 + times (i * k) (Q2Qc q))%Qc).
  { apply Qc_is_canon, eqR_Qeq. fold (to_real (times i (gap m))) (to_real (0 + times (i * k) (Q2Qc q))%Qc).
    rewrite real_plus, real_0, real_time, real_times, real_Q2Qc, T. ring. }
  rewrite TT in X. destruct (W i (i * k)%nat X) as (Y & _). rewrite P in Y. injection Y as ->.
  rewrite whole_positions, real_Q2Qc. reflexivity.
Qed.

(** Each starting point once, twice or three times. *)
Lemma data_selection other odesolver scale words ns n q k bt : parse_args spiral_parser words = Some ns -> asks_rk4 ns n q ->
  option_is ns "batch_time" (AInt bt) -> rounds scale -> (2 <= bt)%Z -> (bt < Z.of_nat n)%Z -> (0 < q <= 1 # 5)%Q ->
  point_time n 1 = INR k * Q2R q ->
  exists t y idx, generate_data other odesolver scale ns = Ok (t, y, idx) /\ List.length y = n /\
    (forall i, (Z.of_nat i < Z.of_nat n - bt)%Z -> (1 <= offered i idx <= 3)%nat) /\
    (forall i, (Z.of_nat n - bt <= Z.of_nat i)%Z -> offered i idx = 0%nat) /\
    (forall i j a b c d, (i < j)%nat -> nth_error y i = Some a -> nth_error y (S i) = Some b -> nth_error y j = Some c -> nth_error y (S j) = Some d ->
       0 < distance c d < distance a b).
Proof.
  intros E A BT SC B2 BN (Q0 & Q1) T1. assert (N2 : (2 <= n)%nat) by lia.
  assert (QR : 0 < Q2R q <= 1 / 5).
  { apply Qlt_Rlt in Q0. apply Qle_Rle in Q1. replace (Q2R 0) with 0 in Q0 by (unfold Q2R; cbn; lra).
    replace (Q2R (1 # 5)) with (1 / 5) in Q1 by (unfold Q2R; cbn; lra). lra. }
  assert (Q1' : (0 < q <= 1)%Q) by (split; [exact Q0|apply Qle_trans with (1 # 5); [exact Q1|discriminate]]).
  destruct (data_positions other odesolver words ns n q k E A N2 Q0 T1) as (t & y & G & L & P).
  destruct (data_close other odesolver words ns n q E A N2 Q1') as (t' & y' & G' & _ & C). rewrite G in G'. injection G' as <- <-.
  assert (K1 : (1 <= k)%nat).
  { destruct k as [|k]; [|lia]. exfalso. cbn [INR] in T1. rewrite Rmult_0_l in T1. unfold point_time in T1. cbn [INR] in T1.
    assert (0 < INR (n - 1)) by (apply lt_0_INR; lia). assert (0 < 10 * 1 / INR (n - 1)); [|lra].
    apply Rmult_lt_0_compat; [lra|apply Rinv_0_lt_compat; assumption]. }
  set (h := Q2R q) in *. set (r := nrm (poly h)) in *.
  assert (RP : 0 < r) by (apply nrm_poly_pos; lra). assert (R1 : r < 1) by (apply nrm_shrinks; lra).
  set (D := distance (2, 0) (positions h k)). assert (DP : 0 < D) by (apply first_distance; [lra|exact K1]).
  assert (GET : forall i, (i < n)%nat -> nth_error y i = Some (positions h (i * k))).
  { intros i I. destruct (nth_error y i) as [p|] eqn:Y; [f_equal; apply P, Y|]. apply nth_error_None in Y. lia. }
  assert (DI : forall i, (S i < n)%nat -> nth i (distances y) 0 = r ^ (i * k) * D).
  { intros i I. rewrite (distances_nth y i _ _ (GET i ltac:(lia)) (GET (S i) I)).
    replace (S i * k)%nat with (i * k + k)%nat by lia. apply positions_distance. }
  assert (POW : forall a b, (a <= b)%nat -> r ^ b <= r ^ a).
  { intros a b AB. replace b with (a + (b - a))%nat by lia. rewrite pow_add. assert (X := pow_lt r a RP).
    assert (Z : r ^ (b - a) <= 1 ^ (b - a)) by (apply pow_incr; lra). rewrite pow1 in Z.
    assert (Y := Rmult_le_compat_l (r ^ a) _ _ ltac:(lra) Z). lra. }
  assert (LD := distances_length y). rewrite L in LD.
  assert (POS : forall d, In d (distances y) -> 0 < d).
  { intros d I. apply (In_nth _ _ 0) in I. destruct I as (i & I & <-). rewrite LD in I. rewrite DI by lia.
    apply Rmult_lt_0_compat; [apply pow_lt, RP|exact DP]. }
  destruct (selection_counts scale (distances y) bt SC B2 ltac:(lia) POS) as (idx & m & CR & MI & MB & CNT & NONE).
  set (kept := firstn (Z.to_nat (Z.of_nat (List.length (distances y)) - bt + 1)) (distances y)) in *.
  assert (LK : List.length kept = Z.to_nat (Z.of_nat n - bt)) by (unfold kept; rewrite firstn_length; lia).
  (* the end of the data *)
  assert (LAST : r ^ ((n - 1) * k) >= 3 / 10).
  { assert (X := C (n - 1)%nat _ (GET (n - 1)%nat ltac:(lia))).
    assert (TE : point_time n (n - 1) = 10).
    { unfold point_time. field. assert (0 < INR (n - 1)) by (apply lt_0_INR; lia). lra. }
    rewrite TE in X. assert (Y := apart_triangle (curve 10) (positions h ((n - 1) * k)) (0, 0)).
    assert (SYM : apart (curve 10) (positions h ((n - 1) * k)) = apart (positions h ((n - 1) * k)) (curve 10)).
    { unfold apart. f_equal. ring. }
    rewrite SYM in Y. fold (radius (curve 10)) (radius (positions h ((n - 1) * k))) in Y. rewrite !radius_nrm, nrm_curve, positions_nrm in Y. fold r in Y.
    assert (EX : 1 / 3 <= exp (- (10 / 10))).
    { replace (- (10 / 10)) with (- 1) by lra. assert (Z := exp_le_3). assert (W : exp 1 * exp (- 1) = 1) by (rewrite <- exp_plus, Rplus_opp_r; apply exp_0).
      assert (W1 := exp_pos (- 1)). assert (W2 := Rmult_le_compat_r (exp (- 1)) _ _ ltac:(lra) Z). lra. }
    assert (H2 : h ^ 2 <= (1 / 5) ^ 2) by (apply pow_incr; lra). assert (H4 : h ^ 4 <= (1 / 5) ^ 4) by (apply pow_incr; lra). lra. }
  exists t, y, idx. split; [unfold generate_data; rewrite G; cbn [bind snd]; unfold int_of; rewrite BT; cbn [bind]; rewrite CR; reflexivity|].
  split; [exact L|]. split; [|split].
  - intros i I. assert (IK : (i < List.length kept)%nat) by lia. destruct (CNT i IK) as (C1 & C2). split; [exact C1|].
    apply abs_bounds in C2. rewrite DI in C2 by lia.
    apply (In_nth _ _ 0) in MI. destruct MI as (j & J & M). unfold kept in M. rewrite first_nth in M by exact J. rewrite DI in M by lia.
    assert (X1 : r ^ (i * k) <= 1) by (apply (POW 0%nat); lia).
    assert (X2 : 3 / 10 <= r ^ (j * k)).
    { apply Rle_trans with (r ^ ((n - 1) * k)); [lra|]. apply POW. apply Nat.mul_le_mono_r. lia. }
    assert (X3 : r ^ (i * k) * D / m <= 10 / 3).
    { rewrite <- M. replace (r ^ (i * k) * D / (r ^ (j * k) * D)) with (r ^ (i * k) / r ^ (j * k)) by (field; lra).
      apply (Rmult_le_reg_r (r ^ (j * k))); [lra|]. unfold Rdiv. rewrite Rmult_assoc, Rinv_l by lra. lra. }
    assert (X4 : INR (offered i idx) < INR 4) by (replace (INR 4) with 4 by (cbn; lra); lra). apply INR_lt in X4. lia.
  - intros i I. apply NONE. lia.
  - intros i j a b c d IJ HA HB HC HD.
    assert (SJ : (S j < n)%nat) by (rewrite <- L; apply nth_error_Some; congruence).
    rewrite <- (distances_nth y i a b HA HB), <- (distances_nth y j c d HC HD), !DI by lia.
    assert (X := pow_lt r (j * k) RP). split; [apply Rmult_lt_0_compat; assumption|]. apply Rmult_lt_compat_r; [exact DP|].
    apply Rle_lt_trans with (r ^ S (i * k)); [apply POW; nia|]. cbn [pow]. assert (Y := pow_lt r (i * k) RP).
    assert (Z := Rmult_lt_compat_r _ _ _ Y R1). lra.
Qed.

(** Four distances, three numbers. *)
Definition few_words : list string := ["--linear"; "--stepsize"; "0.2"; "--data_size"; "6"; "--batch_time"; "2"].

Lemma selection_uneven : exists words ns, parse_args spiral_parser words = Some ns /\
  forall other odesolver scale, rounds scale -> exists t y idx i j a b c d,
    generate_data other odesolver scale ns = Ok (t, y, idx) /\
    nth_error y i = Some a /\ nth_error y (S i) = Some b /\ nth_error y j = Some c /\ nth_error y (S j) = Some d /\
    distance a b <> distance c d /\ offered i idx = offered j idx /\ (0 < offered i idx)%nat.
Proof.
  exists few_words. eexists. split; [vm_compute; reflexivity|]. intros other odesolver scale SC.
  assert (T1 : point_time 6 1 = INR 10 * Q2R (2 # 10)).
  { unfold point_time. replace (INR (6 - 1)) with 5 by (cbn; lra). replace (INR 10) with 10 by (cbn; lra). replace (INR 1) with 1 by reflexivity.
    unfold Q2R. cbn. field. }
  match goal with |- context [generate_data _ _ _ ?ns] => assert (A : asks_rk4 ns 6 (2 # 10)) end.
  { repeat split; try reflexivity. exists 0%Z, 0%Q. repeat split. left. split; reflexivity. }
  destruct (data_selection other odesolver scale few_words _ 6 (2 # 10) 10 2 ltac:(vm_compute; reflexivity) A eq_refl SC ltac:(lia) ltac:(lia)
    ltac:(split; [reflexivity|discriminate]) T1) as (t & y & idx & G & L & CNT & _ & DEC).
  assert (GET : forall i, (i < 6)%nat -> exists p, nth_error y i = Some p).
  { intros i I. destruct (nth_error y i) as [p|] eqn:Y; [exists p; reflexivity|]. apply nth_error_None in Y. lia. }
  assert (X : exists i j, (i < j < 4)%nat /\ offered i idx = offered j idx).
  { assert (C0 := CNT 0%nat ltac:(lia)). assert (C1 := CNT 1%nat ltac:(lia)). assert (C2 := CNT 2%nat ltac:(lia)). assert (C3 := CNT 3%nat ltac:(lia)).
    destruct (Nat.eq_dec (offered 0 idx) (offered 1 idx)); [exists 0%nat, 1%nat; split; [lia|assumption]|].
    destruct (Nat.eq_dec (offered 0 idx) (offered 2 idx)); [exists 0%nat, 2%nat; split; [lia|assumption]|].
    destruct (Nat.eq_dec (offered 0 idx) (offered 3 idx)); [exists 0%nat, 3%nat; split; [lia|assumption]|].
    destruct (Nat.eq_dec (offered 1 idx) (offered 2 idx)); [exists 1%nat, 2%nat; split; [lia|assumption]|].
    destruct (Nat.eq_dec (offered 1 idx) (offered 3 idx)); [exists 1%nat, 3%nat; split; [lia|assumption]|].
    exists 2%nat, 3%nat. split; [lia|]. lia. }
  destruct X as (i0 & j0 & IJ & EQ). rename i0 into i, j0 into j.
  destruct (GET i ltac:(lia)) as (a & HA), (GET (S i) ltac:(lia)) as (b & HB), (GET j ltac:(lia)) as (c & HC), (GET (S j) ltac:(lia)) as (d & HD).
  exists t, y, idx, i, j, a, b, c, d. split; [exact G|]. do 4 (split; [assumption|]).
  assert (D := DEC i j a b c d ltac:(lia) HA HB HC HD). split; [lra|]. split; [exact EQ|].
  assert (C0 := CNT i ltac:(lia)). lia.
Qed.

(** Proofs: orthogonal maps of the features of the first variable. *)
From Coq Require Import List String Bool Reals Arith Lia Lra QArith Qcanon Qreals FunctionalExtensionality.
From Verif Require Import Base BaseFacts RealSum IntegratorModel FixedGridModel VecModel ParticlesModel ParticlesProofs2
  ScalingProofs RotationSpec.
Import ListNotations.
Open Scope string_scope.
Open Scope list_scope.
Open Scope R_scope.

Notation lift m f := (bind m (fun x => Ok (f x))).

Section Rotation.
Variable d : nat.
Variable O : nat -> nat -> R.
Hypothesis ORTH : orthogonal d O.
Notation rot := (rotate d O).

(** Matrices: columns, rows. *)
Definition columns (w : t2) : t2 := mkT2 (m0 w) (m1 w) (fun i k => rsum d (fun j => v2 w i j * O j k)).
Definition rows (w : t2) : t2 := tr (columns (tr w)).

Lemma isometry a b : rsum d (fun k => rsum d (fun j => a j * O j k) * rsum d (fun i => b i * O i k)) = rsum d (fun j => a j * b j).
Proof.
  transitivity (rsum d (fun j => rsum d (fun i => a j * b i * rsum d (fun k => O j k * O i k)))).
  - rewrite (rsum_ext _ _ (fun k => rsum d (fun j => rsum d (fun i => a j * b i * (O j k * O i k))))).
    2:{ intros k _. rewrite <- rsum_scal_r. apply rsum_ext. intros j _. rewrite <- rsum_scal. apply rsum_ext. intros i _. ring. }
    rewrite rsum_swap. apply rsum_ext. intros j _. rewrite rsum_swap. apply rsum_ext. intros i _. apply rsum_scal.
  - apply rsum_ext. intros j J. rewrite (rsum_single d _ j J).
    + rewrite ORTH, Nat.eqb_refl by assumption. ring.
    + intros i I NE. rewrite ORTH by assumption. destruct (Nat.eqb_spec j i); [congruence|ring].
Qed.

Lemma exchange n (a : nat -> R) (W : nat -> nat -> R) k :
  rsum n (fun j => a j * rsum d (fun i => W j i * O i k)) = rsum d (fun i => rsum n (fun j => a j * W j i) * O i k).
Proof.
  rewrite (rsum_ext n _ (fun j => rsum d (fun i => a j * W j i * O i k))).
  2:{ intros j _. rewrite <- rsum_scal. apply rsum_ext. intros; ring. }
  rewrite rsum_swap. apply rsum_ext. intros i _. apply rsum_scal_r.
Qed.

(** ** Operations *)
Lemma opp_rot x : map3 Ropp (rot x) = rot (map3 Ropp x).
Proof. unfold map3, rotate. cbn. f_equal. ext. rewrite <- rsum_opp. apply rsum_ext. intros; ring. Qed.
Lemma zip_rot f x y : (forall a b c d, f (a * c) (b * c) = f a b * c /\ f (a + c) (b + d) = f a b + f c d) -> f 0 0 = 0 ->
  n2 x = n2 y -> zip3 f (rot x) (rot y) = lift (zip3 f x y) rot.
Proof.
  intros F Z E. unfold zip3, rotate. cbn [n0 n1 n2 v3]. destruct (bdim (n0 x) _); [|reflexivity]. cbn [bind].
  destruct (bdim (n1 x) _); [|reflexivity]. cbn [bind]. rewrite E. unfold bdim. rewrite Nat.eqb_refl. cbn [bind].
  do 2 f_equal. ext. cbn [v3]. unfold bidx. rewrite Nat.eqb_refl.
  generalize (v3 x (if n0 x =? a then x0 else 0%nat)%nat (if n1 x =? a0 then x1 else 0%nat)%nat) (v3 y (if n0 y =? a then x0 else 0%nat)%nat (if n1 y =? a0 then x1 else 0%nat)%nat).
  intros u v. clear ORTH. induction d as [|n IH]; cbn; [exact Z|]. rewrite <- IH.
  destruct (F (rsum n (fun j => u j * O j x2)) (rsum n (fun j => v j * O j x2)) (u n * O n x2) (v n * O n x2)) as [_ ->].
  destruct (F (u n) (v n) (O n x2) 0) as [-> _]. reflexivity.
Qed.
Lemma plus_rot x y : n2 x = n2 y -> zip3 Rplus (rot x) (rot y) = lift (zip3 Rplus x y) rot.
Proof. apply zip_rot; intros; try split; ring. Qed.
Lemma minus_rot x y : n2 x = n2 y -> zip3 Rminus (rot x) (rot y) = lift (zip3 Rminus x y) rot.
Proof. apply zip_rot; intros; try split; ring. Qed.

Lemma tr_tr w : tr (tr w) = w.
Proof. destruct w. reflexivity. Qed.
Lemma tr_rows w : tr (rows w) = columns (tr w).
Proof. unfold rows. apply tr_tr. Qed.
Lemma tr_columns w : tr (columns w) = rows (tr w).
Proof. unfold rows. rewrite tr_tr. reflexivity. Qed.

Lemma matmul32_columns x w : matmul32 x (columns w) = lift (matmul32 x w) rot.
Proof.
  unfold matmul32. cbn [m0 m1 columns]. destruct (Nat.eqb _ _); [|reflexivity]. cbn [bind]. unfold rotate. cbn [n0 n1 n2 v3 v2].
  do 2 f_equal. ext. apply exchange.
Qed.
Lemma matmul32_rows x w : n2 x = d -> matmul32 (rot x) (rows w) = matmul32 x w.
Proof.
  intros E. unfold matmul32. cbn [n2 rotate m0 m1 rows columns tr n0 n1]. rewrite E.
  destruct (Nat.eqb_spec d (m0 w)) as [<-|]; [|reflexivity]. do 2 f_equal. ext. cbn [v3 rotate v2 tr columns].
  apply isometry.
Qed.

Lemma matmul33_last x y : matmul33 x (rot y) = lift (matmul33 x y) rot.
Proof.
  unfold matmul33. cbn [n0 n1 n2 v3 rotate]. destruct (bdim _ _) as [a|]; [|reflexivity]. cbn [bind].
  destruct (Nat.eqb _ _); [|reflexivity]. cbn [bind]. unfold rotate. cbn [n0 n1 n2 v3]. do 2 f_equal. ext.
  symmetry. rewrite <- exchange. reflexivity.
Qed.
(** The axis before the last. *)
Definition rot1 (x : t3) : t3 := transpose12 (rot (transpose12 x)).
Lemma matmul33_first x y : matmul33 (transpose12 (rot x)) y = lift (matmul33 (transpose12 x) y) rot1.
Proof.
  unfold matmul33. cbn [n0 n1 n2 v3 rotate transpose12]. destruct (bdim _ _) as [a|]; [|reflexivity]. cbn [bind].
  destruct (Nat.eqb _ _); [|reflexivity]. cbn [bind]. unfold rot1, rotate, transpose12. cbn [n0 n1 n2 v3]. do 2 f_equal. ext.
  rewrite (rsum_ext _ _ (fun j => v3 y (bidx (n0 y) a x0) j x2 * rsum d (fun i => v3 x (bidx (n0 x) a x0) j i * O i x1))) by (intros; ring).
  rewrite exchange. apply rsum_ext. intros i _. f_equal. apply rsum_ext. intros; ring.
Qed.
Lemma matmul33_shape x y t : matmul33 x y = Ok t -> n1 t = n1 x /\ n2 t = n2 y.
Proof.
  unfold matmul33. destruct (bdim _ _); [|discriminate]. cbn [bind]. destruct (Nat.eqb _ _); [|discriminate]. intros H.
  injection H as <-. split; reflexivity.
Qed.
Lemma mean_rot x : mean0 (rot x) = columns (mean0 x).
Proof.
  unfold mean0, sum0, columns, map2, rotate. cbn [n0 n1 n2 v3 m0 m1 v2]. f_equal. ext.
  rewrite (rsum_ext d _ (fun j => (rsum (n0 x) (fun n => v3 x n x0 j) * O j x1) * / INR (n0 x))) by (intros; unfold Rdiv; ring).
  rewrite rsum_scal_r. unfold Rdiv. f_equal.
  rewrite (rsum_ext d _ (fun j => rsum (n0 x) (fun n => v3 x n x0 j * O j x1))) by (intros; symmetry; apply rsum_scal_r).
  apply rsum_swap.
Qed.
Lemma mean_rot1 x : mean0 (rot1 x) = rows (mean0 x).
Proof. unfold rot1. change (mean0 (transpose12 (rot (transpose12 x)))) with (tr (mean0 (rot (transpose12 x)))). rewrite mean_rot. reflexivity. Qed.
Lemma divide_columns t w : divide_by_if_not_none (columns t) w = columns (divide_by_if_not_none t w).
Proof.
  destruct w; [|reflexivity]. unfold divide_by_if_not_none, map2, columns. cbn [m0 m1 v2]. f_equal. ext.
  unfold Rdiv. rewrite <- rsum_scal_r. apply rsum_ext. intros; ring.
Qed.
Lemma divide_rows t w : divide_by_if_not_none (rows t) w = rows (divide_by_if_not_none t w).
Proof.
  unfold rows. transitivity (tr (divide_by_if_not_none (columns (tr t)) w)); [destruct w; reflexivity|].
  rewrite divide_columns. destruct w; reflexivity.
Qed.

(** ** Layers: rows (with bias) and columns *)
Definition turn (rc : bool * bool) (a : lin) : lin :=
  let w := if snd rc then columns (lin_weight a) else lin_weight a in
  mkLin (if fst rc then rows w else w) (if fst rc then option_map columns (lin_bias a) else lin_bias a)
    (weight_of_weight a) (weight_of_bias a).
Definition fits (rc : bool * bool) (a : lin) : Prop :=
  fst rc = true -> m0 (lin_weight a) = d /\ match lin_bias a with None => True | Some b => m1 b = d end.

Lemma f_linear_shape x w b t : f_linear x w b = Ok t -> n2 t = m0 w.
Proof.
  unfold f_linear, matmul32. destruct (Nat.eqb _ _); [|discriminate]. cbn [bind]. destruct b as [b|].
  - destruct (zip3 _ _ _) as [z|]; [|discriminate]. cbn [bind n0 n1 n2 tr m1].
    destruct (Nat.eqb (n0 z) (n0 x)); [|discriminate]. destruct (Nat.eqb (n1 z) (n1 x)); [|discriminate].
    destruct (Nat.eqb_spec (n2 z) (m0 w)); [|discriminate]. cbn. intros H. injection H as <-. assumption.
  - intros H. injection H as <-. reflexivity.
Qed.

Lemma forward_rows a x : fits (true, false) a -> forward (turn (true, false) a) x = lift (forward a x) rot.
Proof.
  intros F. destruct (F eq_refl) as (F1 & F2). unfold forward, f_linear, turn. cbn [fst snd lin_weight lin_bias].
  rewrite tr_rows, matmul32_columns. destruct (matmul32 x (tr (lin_weight a))) as [y|] eqn:E; [|reflexivity]. cbn [bind].
  assert (n2 y = d) as Y.
  { unfold matmul32 in E. destruct (Nat.eqb _ _); [|discriminate]. injection E as <-. exact F1. }
  destruct (lin_bias a) as [b|]; [|reflexivity]. cbn [option_map].
  change (mkT3 1 (m0 (columns b)) (m1 (columns b)) (fun _ => v2 (columns b))) with (rot (mkT3 1 (m0 b) (m1 b) (fun _ => v2 b))).
  rewrite plus_rot by (cbn [n2]; congruence). destruct (zip3 Rplus y _) as [z|]; [|reflexivity]. cbn [bind n0 n1 n2 rotate].
  destruct (_ && _); reflexivity.
Qed.
Lemma forward_columns a x : n2 x = d -> forward (turn (false, true) a) (rot x) = forward a x.
Proof.
  intros E. unfold forward, f_linear, turn. cbn [fst snd lin_weight lin_bias]. rewrite tr_columns, (matmul32_rows x _ E). reflexivity.
Qed.
Lemma forward_both a x : fits (true, true) a -> n2 x = d -> forward (turn (true, true) a) (rot x) = lift (forward a x) rot.
Proof.
  intros F E. change (turn (true, true) a) with (turn (true, false) (turn (false, true) a)).
  rewrite forward_rows by exact F. rewrite (forward_columns a x E). reflexivity.
Qed.
Lemma forward_neither a x : forward (turn (false, false) a) x = forward a x.
Proof. destruct a. reflexivity. Qed.

Definition turns (f : string -> bool * bool) (th : pars) : pars := map (fun kl => (fst kl, turn (f (fst kl)) (snd kl))) th.
Definition all_fit (f : string -> bool * bool) (th : pars) : Prop := Forall (fun kl => fits (f (fst kl)) (snd kl)) th.

Lemma item_turns f k th : sd_item k (turns f th) = lift (sd_item k th) (turn (f k)).
Proof.
  unfold sd_item. induction th as [|[a x] th IH]; [reflexivity|]. cbn. destruct (String.eqb_spec k a) as [->|]; [reflexivity|exact IH].
Qed.
Lemma item_fits f k th a : all_fit f th -> sd_item k th = Ok a -> fits (f k) a.
Proof.
  unfold sd_item. induction 1 as [|[k' x] th F A IH]; [discriminate|]. cbn in *. destruct (String.eqb_spec k k') as [->|]; [|exact IH].
  intros H. injection H as <-. exact F.
Qed.

(** ** Variables *)
Definition good (key : string) (s : states) : Prop :=
  exists k x r, s = (k, x) :: r /\ n2 x = d /\ (k = key \/ k = ("dot_" ++ key)%string) /\ ~ In key (map fst r).

Lemma item_first key s : good key s -> sd_item key (rotate_first d O s) = lift (sd_item key s) rot.
Proof.
  intros (k & x & r & -> & E & K & NI). unfold sd_item. cbn. destruct (String.eqb_spec key k) as [|NE]; [reflexivity|].
  assert (X : sd_get key r = None).
  { clear -NI. induction r as [|[a b] r IH]; [reflexivity|]. cbn in *. destruct (String.eqb_spec key a) as [<-|]; [tauto|apply IH; tauto]. }
  rewrite X. reflexivity.
Qed.
Lemma item_features key s x : good key s -> sd_item key s = Ok x -> n2 x = d.
Proof.
  intros (k & y & r & -> & E & K & NI). unfold sd_item. cbn. destruct (String.eqb_spec key k) as [|NE].
  - intros H. injection H as <-. exact E.
  - assert (X : sd_get key r = None).
    { clear -NI. induction r as [|[a b] r IH]; [reflexivity|]. cbn in *. destruct (String.eqb_spec key a) as [<-|]; [tauto|apply IH; tauto]. }
    rewrite X. discriminate.
Qed.
Lemma item_other key k' s : good key s -> k' <> key -> k' <> ("dot_" ++ key)%string ->
  sd_item k' (rotate_first d O s) = sd_item k' s.
Proof.
  intros (k & y & r & -> & E & K & NI) N1 N2. unfold sd_item. cbn. destruct (String.eqb_spec k' k) as [->|]; [|reflexivity].
  destruct K; contradiction.
Qed.
End Rotation.

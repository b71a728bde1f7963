(** Proofs: another order of the features as an orthogonal map, and the loops of the simple models. *)
From Coq Require Import List String Bool Reals Arith Lia Lra QArith Qcanon Qreals FunctionalExtensionality.
From Verif Require Import Base BaseFacts RealSum IntegratorModel FixedGridModel VecModel ParticlesModel ParticlesProofs2
  ScalingProofs RotationSpec RotationProofs RotationProofs2 RotationProofs3 RelabelSpec.
Import ListNotations.
Open Scope string_scope.
Open Scope list_scope.
Open Scope R_scope.

Section Relabel.
Variable d : nat.
Variable p : nat -> nat.
Hypothesis PERM : permutes d p.
Definition order_matrix (j k : nat) : R := if Nat.eqb j (p k) then 1 else 0.
Notation O := order_matrix.
Notation rot := (rotate d O).

Lemma pick (f : nat -> R) k : rsum d (fun j => f j * O j k) = f (p k).
Proof.
  destruct PERM as (_ & L & _). rewrite (rsum_single d _ (p k) (L k)).
  - unfold order_matrix. rewrite Nat.eqb_refl. ring.
  - intros i _ NE. unfold order_matrix. destruct (Nat.eqb_spec i (p k)); [congruence|ring].
Qed.

Lemma order_orthogonal : orthogonal d O.
Proof.
  intros j k J K. destruct PERM as (_ & L & q & Q). destruct (Q j J) as (Q1 & Q2 & _).
  rewrite (rsum_single d _ (q j) Q1).
  - unfold order_matrix. rewrite Q2, Nat.eqb_refl, (Nat.eqb_sym k j). ring.
  - intros i I NE. unfold order_matrix. destruct (Nat.eqb_spec j (p i)) as [E|]; [|ring].
    exfalso. apply NE. rewrite E. symmetry. apply (Q i I).
Qed.

Lemma rot_is x : rot x = reorder p x.
Proof. unfold rotate, reorder. f_equal. ext. apply pick. Qed.
Lemma columns_is w : columns d O w = mkT2 (m0 w) (m1 w) (fun i k => v2 w i (p k)).
Proof. unfold columns. f_equal. ext. apply pick. Qed.
Lemma rows_is w : rows d O w = mkT2 (m0 w) (m1 w) (fun i k => v2 w (p i) k).
Proof. unfold rows. rewrite columns_is. reflexivity. Qed.

Lemma rots_is s : rotate_first d O s = reorder_first p s.
Proof. destruct s as [|[k x] s]; [reflexivity|]. cbn. rewrite rot_is. reflexivity. Qed.
Lemma system_is y : rotate_system d O y = reorder_system p y.
Proof. destruct y as [[s c] z]. cbn. rewrite !rots_is. reflexivity. Qed.

Lemma map_rot f x : map3 f (rot x) = rot (map3 f x).
Proof. rewrite !rot_is. reflexivity. Qed.
Lemma zip_any f x y : n2 x = n2 y -> zip3 f (rot x) (rot y) = lift (zip3 f x y) rot.
Proof.
  intros E. rewrite !rot_is. unfold zip3, reorder. cbn [n0 n1 n2 v3]. destruct (bdim (n0 x) _); [|reflexivity]. cbn [bind].
  destruct (bdim (n1 x) _); [|reflexivity]. cbn [bind]. rewrite E. unfold bdim. rewrite Nat.eqb_refl. cbn [bind].
  f_equal. rewrite rot_is. unfold reorder. cbn [n0 n1 n2 v3]. f_equal. ext. unfold bidx. rewrite Nat.eqb_refl. reflexivity.
Qed.
Lemma zip_n2 f x y z : zip3 f x y = Ok z -> n2 x = d -> n2 y = d -> n2 z = d.
Proof.
  unfold zip3. intros H X Y. destruct (bdim _ _); [|discriminate]. cbn [bind] in H. destruct (bdim _ _); [|discriminate]. cbn [bind] in H.
  rewrite X, Y in H. unfold bdim in H. rewrite Nat.eqb_refl in H. cbn [bind] in H. injection H as <-. reflexivity.
Qed.

Lemma foldM_kept {A B : Type} (I : A -> Prop) (h : A -> A) (f f' : A -> B -> result A) :
  (forall a b, I a -> f' (h a) b = lift (f a b) h /\ forall r, f a b = Ok r -> I r) ->
  forall bs a, I a -> foldM f' bs (h a) = lift (foldM f bs a) h /\ forall r, foldM f bs a = Ok r -> I r.
Proof.
  intros H. induction bs as [|b bs IH]; intros a K; cbn [foldM].
  - split; [reflexivity|]. intros r X. injection X as <-. exact K.
  - destruct (H a b K) as (H1 & H2). rewrite H1. destruct (f a b) as [a'|]; cbn [bind].
    + apply IH. exact (H2 _ eq_refl).
    + split; [reflexivity|]. intros ? X. discriminate X.
Qed.

Lemma costate_loop_rot dnl N q c A : n2 q = d -> n2 c = d -> m1 A = d ->
  costate_loop dnl N (rot q) (rot c) (rows d O (columns d O A)) = lift (costate_loop dnl N q c A) rot /\
  forall z, costate_loop dnl N q c A = Ok z -> n2 z = d.
Proof.
  intros Q C W. unfold costate_loop. change (zeros_like (rot c)) with (zeros_like c).
  replace (zeros_like c) with (rot (zeros_like c)) at 1 by (rewrite rot_is; reflexivity).
  apply foldM_kept; [|exact C]. intros acc i K. rewrite !rot_is, rows_is, columns_is. unfold row, reorder. cbn [n0 n1 n2 v3 m0 m1].
  destruct (Nat.ltb i (n0 q)); cbn [bind]; [|split; [reflexivity|intros ? X; discriminate X]].
  destruct (Nat.ltb i (n0 c)); cbn [bind]; [|split; [reflexivity|intros ? X; discriminate X]].
  unfold matmul22. cbn [m0 m1 v2]. rewrite C. destruct (Nat.eqb_spec d (m0 A)) as [M|]; cbn [bind]; [|split; [reflexivity|intros ? X; discriminate X]].
  unfold zip2. cbn [m0 m1 v2 map2]. destruct (bdim (n1 q) (n1 c)) as [a|]; cbn [bind]; [|split; [reflexivity|intros ? X; discriminate X]].
  rewrite Q, W. unfold bdim. rewrite Nat.eqb_refl. cbn [bind m0 m1]. unfold set_row. cbn [n0 n1 n2 m0 m1 v2].
  destruct (negb _); [split; [reflexivity|intros ? X; discriminate X]|]. rewrite K, Nat.eqb_refl.
  destruct (_ && _); cbn [bind]; [|split; [reflexivity|intros ? X; discriminate X]]. split.
  - rewrite rot_is. unfold reorder. cbn [n0 n1 n2 v3]. do 2 f_equal. ext. destruct (Nat.eqb _ i); [|reflexivity].
    unfold bidx. rewrite Nat.eqb_refl. f_equal. rewrite <- M. rewrite <- (isometry d O order_orthogonal (fun j => v3 c i _ j) (fun j => v2 A j _)).
    apply rsum_ext. intros j J. rewrite !pick. reflexivity.
  - intros r X. injection X as <-. reflexivity.
Qed.

Definition both (w : t2) : t2 := rows d O (columns d O w).
Lemma both_is w : both w = mkT2 (m0 w) (m1 w) (fun i k => v2 w (p i) (p k)).
Proof. unfold both. rewrite rows_is, columns_is. reflexivity. Qed.

Lemma weight_loop_rot nl N q c : n2 q = d -> n2 c = d -> n1 q = 1%nat -> n1 c = 1%nat ->
  weight_loop nl d N (rot q) (rot c) = lift (weight_loop nl d N q c) both /\
  forall w, weight_loop nl d N q c = Ok w -> m0 w = d /\ m1 w = d.
Proof.
  intros Q C Q1 C1. unfold weight_loop. destruct PERM as (D2 & _).
  match goal with |- bind (foldM ?f' ?s ?z) _ = lift (bind (foldM ?f _ _) _) _ /\ _ =>
    destruct (foldM_kept (fun w => m0 w = d /\ m1 w = d) both f f') with (bs := s) (a := z) as (E & K) end.
  - intros At i (A0 & A1). rewrite !rot_is, !both_is. unfold row, reorder. cbn [n0 n1 n2 v3].
    destruct (Nat.ltb i (n0 c)); cbn [bind]; [|split; [reflexivity|intros ? X; discriminate X]].
    destruct (Nat.ltb i (n0 q)); cbn [bind]; [|split; [reflexivity|intros ? X; discriminate X]].
    unfold zip2. cbn [m0 m1 v2 map2 tr]. rewrite Q, C, Q1, C1, A0, A1. unfold bdim.
    destruct (Nat.eqb_spec d 1) as [|]; [lia|]. destruct (Nat.eqb_spec 1 d) as [|]; [lia|]. cbn [Nat.eqb bind m0 m1 v2].
    rewrite Nat.eqb_refl. cbn [bind]. split.
    + rewrite both_is. cbn [m0 m1 v2]. do 2 f_equal. ext. unfold bidx. rewrite Nat.eqb_refl. destruct (Nat.eqb_spec 1 d); [lia|]. reflexivity.
    + intros r X. injection X as <-. split; reflexivity.
  - split; reflexivity.
  - rewrite both_is in E. cbn [m0 m1 v2] in E. rewrite E. clear E.
    match goal with |- bind (bind ?m _) _ = _ /\ _ => destruct m as [w|]; cbn [bind]; [|split; [reflexivity|intros ? X; discriminate X]] end.
    destruct (Nat.eqb N 0); cbn [bind]; [split; [reflexivity|intros ? X; discriminate X]|]. split.
    + rewrite !both_is. reflexivity.
    + intros r X. injection X as <-. exact (K _ eq_refl).
Qed.

Lemma bias_rot N x : bias_of N (rot x) = columns d O (bias_of N x).
Proof. rewrite rot_is, columns_is. reflexivity. Qed.

Lemma unused_rot nl q a : n2 q = d -> fits d (true, true) a ->
  unused_dot_q nl (rot q) (turn d O (true, true) a) = lift (unused_dot_q nl q a) rot.
Proof.
  intros E F. destruct (F eq_refl) as (F1 & F2). unfold unused_dot_q. rewrite map_rot. unfold turn. cbn [fst snd lin_weight lin_bias].
  rewrite tr_rows, tr_columns. rewrite matmul32_columns, (matmul32_rows d O order_orthogonal (map3 nl q) (tr (lin_weight a)) E).
  destruct (matmul32 (map3 nl q) (tr (lin_weight a))) as [y|] eqn:EM; cbn [bind]; [|reflexivity].
  apply matmul32_n2 in EM. cbn [m1 tr] in EM.
  destruct (lin_bias a) as [b|]; cbn [option_map]; [|reflexivity].
  change (mkT3 1 (m0 (columns d O b)) (m1 (columns d O b)) (fun _ => v2 (columns d O b))) with (rot (mkT3 1 (m0 b) (m1 b) (fun _ => v2 b))).
  apply zip_any. cbn [n2]. congruence.
Qed.
End Relabel.

(** Proofs: multiples of the costates and of the weight of the penalty. *)
From Coq Require Import List String Bool Reals Arith Lia Lra QArith Qcanon Qreals FunctionalExtensionality.
From Verif Require Import Base BaseFacts RealSum IntegratorModel FixedGridModel VecModel ParticlesModel ParticlesProofs2
  ScalingSpec.
Import ListNotations.
Open Scope string_scope.
Open Scope list_scope.
Open Scope R_scope.

Ltac ext := repeat (apply functional_extensionality; intros ?).

Section Scale.
Variable l : R.
Notation sc := (map3 (Rmult l)).
Notation sc2 := (map2 (Rmult l)).
Notation lift m f := (bind m (fun x => Ok (f x))).

Lemma item_multiple k c : sd_item k (multiple l c) = lift (sd_item k c) sc.
Proof.
  unfold sd_item. induction c as [|[a x] c IH]; [reflexivity|]. cbn. destruct (String.eqb k a); [reflexivity|exact IH].
Qed.

Lemma rsum_scale n F : rsum n (fun j => l * F j) = l * rsum n F.
Proof. induction n as [|n IH]; cbn; [ring|]. rewrite IH. ring. Qed.

Lemma matmul32_sc x w : matmul32 (sc x) w = lift (matmul32 x w) sc.
Proof.
  unfold matmul32. cbn [n2 n0 n1 v3 map3]. destruct (Nat.eqb _ _); [|reflexivity]. cbn [bind]. unfold map3. cbn [n0 n1 n2 v3].
  do 2 f_equal. ext. rewrite <- rsum_scale. apply rsum_ext. intros; ring.
Qed.

Lemma matmul33_l x y : matmul33 (sc x) y = lift (matmul33 x y) sc.
Proof.
  unfold matmul33. cbn [n2 n0 n1 v3 map3]. destruct (bdim _ _); [|reflexivity]. cbn [bind].
  destruct (Nat.eqb _ _); [|reflexivity]. cbn [bind]. unfold map3. cbn [n0 n1 n2 v3].
  do 2 f_equal. ext. rewrite <- rsum_scale. apply rsum_ext. intros; ring.
Qed.

Lemma matmul33_r x y : matmul33 x (sc y) = lift (matmul33 x y) sc.
Proof.
  unfold matmul33. cbn [n2 n0 n1 v3 map3]. destruct (bdim _ _); [|reflexivity]. cbn [bind].
  destruct (Nat.eqb _ _); [|reflexivity]. cbn [bind]. unfold map3. cbn [n0 n1 n2 v3].
  do 2 f_equal. ext. rewrite <- rsum_scale. apply rsum_ext. intros; ring.
Qed.

Lemma zip_sc f x y : (forall a b, f (l * a) (l * b) = l * f a b) -> zip3 f (sc x) (sc y) = lift (zip3 f x y) sc.
Proof.
  intros F. unfold zip3. cbn [n0 n1 n2 v3 map3]. destruct (bdim (n0 x) _); [|reflexivity]. cbn [bind].
  destruct (bdim (n1 x) _); [|reflexivity]. cbn [bind]. destruct (bdim (n2 x) _); [|reflexivity]. cbn [bind].
  unfold map3. cbn [n0 n1 n2 v3]. do 2 f_equal. ext. apply F.
Qed.
Lemma plus_sc x y : zip3 Rplus (sc x) (sc y) = lift (zip3 Rplus x y) sc.
Proof. apply zip_sc. intros; ring. Qed.
Lemma minus_sc x y : zip3 Rminus (sc x) (sc y) = lift (zip3 Rminus x y) sc.
Proof. apply zip_sc. intros; ring. Qed.
Lemma mult_sc x y : zip3 Rmult x (sc y) = lift (zip3 Rmult x y) sc.
Proof.
  unfold zip3. cbn [n0 n1 n2 v3 map3]. destruct (bdim (n0 x) _); [|reflexivity]. cbn [bind].
  destruct (bdim (n1 x) _); [|reflexivity]. cbn [bind]. destruct (bdim (n2 x) _); [|reflexivity]. cbn [bind].
  unfold map3. cbn [n0 n1 n2 v3]. do 2 f_equal. ext. ring.
Qed.
Lemma opp_sc x : map3 Ropp (sc x) = sc (map3 Ropp x).
Proof. unfold map3. cbn. f_equal. ext. ring. Qed.
Lemma transpose_sc x : transpose12 (sc x) = sc (transpose12 x).
Proof. reflexivity. Qed.
Lemma tr_sc x : tr (sc2 x) = sc2 (tr x).
Proof. reflexivity. Qed.
Lemma sum_sc x : sum0 (sc x) = sc2 (sum0 x).
Proof. unfold sum0, map2. cbn. f_equal. ext. apply rsum_scale. Qed.
Lemma mean_sc x : mean0 (sc x) = sc2 (mean0 x).
Proof. unfold mean0. rewrite sum_sc. unfold map2. cbn. f_equal. ext. unfold Rdiv. ring. Qed.

(** ** Loops *)
Lemma foldM_lift {A B : Type} (h : A -> A) (f f' : A -> B -> result A) :
  (forall a b, f' (h a) b = lift (f a b) h) -> forall bs a, foldM f' bs (h a) = lift (foldM f bs a) h.
Proof.
  intros H. induction bs as [|b bs IH]; intros a; cbn [foldM]; [reflexivity|].
  rewrite H. destruct (f a b); [|reflexivity]. cbn [bind]. apply IH.
Qed.

Lemma costate_loop_sc dnl N q p A : costate_loop dnl N q (sc p) A = lift (costate_loop dnl N q p A) sc.
Proof.
  unfold costate_loop. replace (zeros_like (sc p)) with (sc (zeros_like p)).
  2:{ unfold zeros_like, map3. cbn. f_equal. ext. ring. }
  apply foldM_lift. intros acc i. unfold row. destruct (Nat.ltb i (n0 q)); [|reflexivity]. cbn [bind]. cbn [n0 map3].
  destruct (Nat.ltb i (n0 p)); [|reflexivity]. cbn [bind n1 n2 v3 map3].
  unfold matmul22. cbn [m0 m1 v2]. destruct (Nat.eqb (n2 p) (m0 A)); [|reflexivity]. cbn [bind].
  unfold zip2. cbn [m0 m1 v2 map2]. destruct (bdim (n1 q) (n1 p)) as [a|]; [|reflexivity]. cbn [bind].
  destruct (bdim (n2 q) (m1 A)) as [b|]; [|reflexivity]. cbn [bind]. unfold set_row. cbn [n0 n1 n2 map3 m0 m1].
  destruct (negb _); [reflexivity|]. destruct (_ && _); [|reflexivity]. cbn [bind]. unfold map3. cbn [n0 n1 n2 v3 v2].
  do 2 f_equal. ext. destruct (Nat.eqb _ i); [|reflexivity].
  rewrite (rsum_ext _ _ (fun j => l * (v3 p i (bidx (n1 p) a (bidx a (n1 acc) x0)) j * v2 A j (bidx (m1 A) b (bidx b (n2 acc) x1))))) by (intros; ring).
  rewrite rsum_scale. ring.
Qed.

Lemma weight_loop_sc nl d N q p : weight_loop nl d N q (sc p) = lift (weight_loop nl d N q p) sc2.
Proof.
  unfold weight_loop.
  match goal with |- bind (foldM ?f' _ _) _ = lift (bind (foldM ?f _ _) _) _ =>
    assert (E : foldM f' (seq 0 N) (mkT2 d d (fun _ _ => 0)) = lift (foldM f (seq 0 N) (mkT2 d d (fun _ _ => 0))) sc2) end.
  { match goal with |- foldM ?f' _ _ = lift (foldM ?f _ ?z) _ =>
      transitivity (foldM f' (seq 0 N) (sc2 z)); [f_equal; unfold map2; cbn; f_equal; ext; ring|] end.
    apply foldM_lift. intros At i. unfold row. cbn [n0 map3]. destruct (Nat.ltb i (n0 p)); [|reflexivity]. cbn [bind].
    destruct (Nat.ltb i (n0 q)); [|reflexivity]. cbn [bind n1 n2 v3 map3]. unfold zip2. cbn [m0 m1 v2 map2 tr].
    destruct (bdim (n2 p) (n1 q)) as [a|]; [|reflexivity]. cbn [bind].
    destruct (bdim (n1 p) (n2 q)) as [b|]; [|reflexivity]. cbn [bind m0 m1 v2].
    destruct (bdim (m0 At) b) as [u|]; [|reflexivity]. cbn [bind].
    destruct (bdim (m1 At) a) as [w|]; [|reflexivity]. cbn [bind]. unfold map2. cbn [m0 m1 v2]. do 2 f_equal. ext. ring. }
  rewrite E. clear E. match goal with |- bind (bind ?m _) _ = _ => destruct m; [|reflexivity] end. cbn [bind]. destruct (Nat.eqb N 0); [reflexivity|]. cbn [bind].
  unfold map2. cbn [m0 m1 v2]. do 2 f_equal. ext. ring.
Qed.

Lemma bias_sc N p : bias_of N (sc p) = sc2 (bias_of N p).
Proof. unfold bias_of. rewrite sum_sc. unfold map2. cbn. f_equal. ext. ring. Qed.

(** ** Costates *)
Ltac scaling :=
  repeat first
    [ progress (rewrite ?item_multiple, ?matmul32_sc, ?plus_sc, ?minus_sc, ?mult_sc, ?opp_sc, ?costate_loop_sc,
        ?transpose_sc, ?matmul33_l, ?matmul33_r, ?weight_loop_sc, ?mean_sc, ?tr_sc, ?bias_sc)
    | reflexivity | match goal with
      | |- context [bind ?m _] =>
          lazymatch m with
          | bind _ _ => fail
          | store_weight _ _ _ => fail
          | store_bias _ _ _ => fail
          | _ => destruct m; cbn [bind]; try reflexivity
          end
      end ].

Variable nl dnl : R -> R.

Lemma updown_costate_sc s c th : updown_costate dnl s (multiple l c) th = lift (updown_costate dnl s c th) (multiple l).
Proof. unfold updown_costate. scaling. Qed.
Lemma universal_costate_sc s c th : universal_costate dnl s (multiple l c) th = lift (universal_costate dnl s c th) (multiple l).
Proof. unfold universal_costate. scaling. Qed.
Lemma general_costate_sc s c th : general_costate dnl s (multiple l c) th = lift (general_costate dnl s c th) (multiple l).
Proof. unfold general_costate. scaling. Qed.
Lemma symmetrized_costate_sc s c th : symmetrized_costate dnl s (multiple l c) th = lift (symmetrized_costate dnl s c th) (multiple l).
Proof. unfold symmetrized_costate. scaling. Qed.
Lemma periodic_costate_sc s c th : periodic_costate dnl s (multiple l c) th = lift (periodic_costate dnl s c th) (multiple l).
Proof. unfold periodic_costate. scaling. Qed.
Lemma simple_costate_sc N s c th : simple_costate nl dnl N s (multiple l c) th = lift (simple_costate nl dnl N s c th) (multiple l).
Proof. unfold simple_costate. scaling. Qed.
Lemma debug_costate_sc N s c th : debug_costate nl dnl N s (multiple l c) th = lift (debug_costate nl dnl N s c th) (multiple l).
Proof. unfold debug_costate. scaling. Qed.
End Scale.

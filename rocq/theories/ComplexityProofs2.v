(** Proofs about the complexity measure of values which may vanish. *)
From Coq Require Import List String Reals Bool Lia Lra.
From Verif Require Import Base ComplexityModel ComplexitySpec ComplexityProofs.
Import ListNotations.
Open Scope R_scope.

Definition bounded_above (e : ext) : Prop := e <> EPInf.

Lemma add_above a b : bounded_above a -> bounded_above b -> bounded_above (np_add a b).
Proof. unfold bounded_above. destruct a, b; cbn; congruence. Qed.

Lemma add_zero a : np_add a (EFin 0) = a.
Proof. destruct a; cbn; auto. f_equal. lra. Qed.

Lemma add_assoc a b c : bounded_above a -> bounded_above b -> bounded_above c -> np_add a (np_add b c) = np_add (np_add a b) c.
Proof. unfold bounded_above. destruct a, b, c; cbn; intros; try congruence. f_equal. lra. Qed.

Lemma sum_above l : Forall bounded_above l -> bounded_above (fold_right np_add (EFin 0) l).
Proof. induction 1; cbn; [discriminate|]. apply add_above; assumption. Qed.

Lemma fold_add l : Forall bounded_above l -> forall a, bounded_above a -> fold_left np_add l a = np_add a (fold_right np_add (EFin 0) l).
Proof.
  induction 1 as [|x l X L IH]; intros a A; cbn [fold_left fold_right]; [symmetry; apply add_zero|].
  rewrite IH by (apply add_above; assumption). symmetry. apply add_assoc; auto using sum_above.
Qed.

Definition products (t ss : list R) : list ext :=
  map (fun p => np_scale (fst p) (snd p)) (combine (delta_t t) (map np_log2 (midpoints ss))).

Lemma zero_mean_S s0 s1 ss i : zero_mean (s0 :: s1 :: ss) (S i) <-> zero_mean (s1 :: ss) i.
Proof. reflexivity. Qed.
Lemma stands_S t0 t1 t i : stands (t0 :: t1 :: t) (S i) <-> stands (t1 :: t) i.
Proof. reflexivity. Qed.
Lemma zero_mean_0 s0 s1 ss : zero_mean (s0 :: s1 :: ss) 0 <-> s0 + s1 = 0.
Proof. split; [intros (a & b & H1 & H2 & H); injection H1 as <-; injection H2 as <-; exact H|]. intros H. exists s0, s1. auto. Qed.
Lemma stands_0 t0 t1 t : stands (t0 :: t1 :: t) 0 <-> t1 <= t0.
Proof. split; [intros (a & b & H1 & H2 & H); injection H1 as <-; injection H2 as <-; exact H|]. intros H. exists t0, t1. auto. Qed.

Lemma short_none ss i : (List.length ss <= 1)%nat -> ~ zero_mean ss i.
Proof.
  intros L (a & b & _ & H & _). assert (S i < List.length ss)%nat by (apply nth_error_Some; congruence). lia.
Qed.

Lemma products_outcome t : forall ss, List.length t = List.length ss -> Forall (fun s => 0 <= s) ss ->
  Forall bounded_above (products t ss) /\ outcome t ss (fold_right np_add (EFin 0) (products t ss)).
Proof.
  induction t as [|t0 t IH]; intros ss L P.
  { destruct ss; [|discriminate L]. split; [constructor|]. cbn. split; [|reflexivity]. intros (i & H). revert H. apply short_none. cbn. lia. }
  destruct t as [|t1 t].
  { destruct ss as [|s0 [|s1 ss]]; try discriminate L. split; [constructor|]. cbn. split; [|reflexivity]. intros (i & H). revert H. apply short_none. cbn. lia. }
  destruct ss as [|s0 [|s1 ss]]; try discriminate L.
  inversion P as [|x l P0 P']; subst. inversion P' as [|x l P1 P'']; subst.
  destruct (IH (s1 :: ss)) as (IB & IO); [cbn [List.length] in *; lia|exact P'|]. clear IH.
  assert (Q : products (t0 :: t1 :: t) (s0 :: s1 :: ss) =
    np_scale (if Rlt_dec (t1 - t0) 0 then 0 else t1 - t0) (np_log2 (1 / 2 * (s0 + s1))) :: products (t1 :: t) (s1 :: ss)) by reflexivity.
  rewrite Q. rewrite clamp. cbn [fold_right]. set (rest := fold_right np_add (EFin 0) (products (t1 :: t) (s1 :: ss))) in *.
  assert (EZ : (exists i, zero_mean (s0 :: s1 :: ss) i) <-> s0 + s1 = 0 \/ exists i, zero_mean (s1 :: ss) i).
  { split.
    - intros ([|i] & H); [left; apply zero_mean_0 in H; exact H|right; exists i; exact H].
    - intros [H|(i & H)]; [exists 0%nat; apply zero_mean_0; exact H|exists (S i); exact H]. }
  assert (EB : (exists i, zero_mean (s0 :: s1 :: ss) i /\ stands (t0 :: t1 :: t) i) <->
    (s0 + s1 = 0 /\ t1 <= t0) \/ exists i, zero_mean (s1 :: ss) i /\ stands (t1 :: t) i).
  { split.
    - intros ([|i] & H & G); [left; apply zero_mean_0 in H; apply stands_0 in G; auto|right; exists i; auto].
    - intros [(H & G)|(i & H)]; [exists 0%nat; split; [apply zero_mean_0|apply stands_0]; assumption|exists (S i); exact H]. }
  unfold np_log2. destruct (Rlt_dec 0 (1 / 2 * (s0 + s1))) as [M|M].
  - cbn [np_scale]. split; [constructor; [discriminate|exact IB]|].
    destruct rest eqn:R; cbn [np_add outcome] in *.
    + destruct IO as (NZ & ->). split; [rewrite EZ; intros [H|H]; [lra|exact (NZ H)]|].
      change (complexity (t0 :: t1 :: t) (s0 :: s1 :: ss)) with (Rmax 0 (t1 - t0) * (ln ((s0 + s1) / 2) / ln 2) + complexity (t1 :: t) (s1 :: ss)).
      replace (1 / 2 * (s0 + s1)) with ((s0 + s1) / 2) by lra. reflexivity.
    + exact IO.
    + rewrite EZ, EB. split; [right; apply IO|]. intros [H|H]; [lra|exact (proj2 IO H)].
    + rewrite EB. right. exact IO.
  - destruct (Req_EM_T (1 / 2 * (s0 + s1)) 0) as [Z|Z]; [|lra]. cbn [np_scale].
    destruct (Req_EM_T (Rmax 0 (t1 - t0)) 0) as [T|T].
    + split; [constructor; [discriminate|exact IB]|]. cbn [np_add outcome]. rewrite EB. left. split; [lra|].
      destruct (Rle_dec t1 t0) as [H|H]; [exact H|]. rewrite Rmax_right in T by lra. lra.
    + split; [constructor; [discriminate|exact IB]|].
      assert (TT : ~ t1 <= t0) by (intros H; apply T; rewrite Rmax_left; lra).
      destruct rest eqn:R; cbn [np_add outcome] in *.
      * rewrite EZ, EB. split; [left; lra|]. intros [H|(i & H & _)]; [lra|]. apply (proj1 IO). exists i. exact H.
      * contradiction.
      * rewrite EZ, EB. split; [left; lra|]. intros [H|H]; [lra|exact (proj2 IO H)].
      * rewrite EB. right. exact IO.
Qed.

Lemma measure_outcome t ss : List.length t = List.length ss -> Forall (fun s => 0 <= s) ss ->
  exists e, log_measure t ss = Ok e /\ outcome t ss e.
Proof.
  intros L P. unfold log_measure, np_mul.
  replace (List.length (delta_t t)) with (List.length t - 1)%nat
    by (unfold delta_t; rewrite map_length, neighbours_length; reflexivity).
  replace (List.length (map np_log2 (midpoints ss))) with (List.length ss - 1)%nat
    by (unfold midpoints; rewrite !map_length, neighbours_length; reflexivity).
  rewrite L, Nat.eqb_refl. cbn [bind]. destruct (products_outcome t ss L P) as (B & O). unfold products in *.
  rewrite fold_add by (assumption || discriminate). eexists. split; [reflexivity|].
  assert (Z : forall e, np_add (EFin 0) e = e) by (intros []; cbn; auto; f_equal; lra). rewrite Z. exact O.
Qed.

Lemma measures_outcome data t fro nuc spe :
  sd_get "t"%string data = Some t ->
  sd_get "sum_sqr_frobenius_norm"%string data = Some fro ->
  sd_get "sum_sqr_nuclear_norm"%string data = Some nuc ->
  sd_get "sum_sqr_spectral_norm"%string data = Some spe ->
  List.length fro = List.length t -> List.length nuc = List.length t -> List.length spe = List.length t ->
  Forall (fun s => 0 <= s) fro -> Forall (fun s => 0 <= s) nuc -> Forall (fun s => 0 <= s) spe ->
  exists f n s, compute_complexity_measures data = Ok (f, n, s) /\ outcome t fro f /\ outcome t nuc n /\ outcome t spe s.
Proof.
  intros H1 H2 H3 H4 L1 L2 L3 P1 P2 P3. unfold compute_complexity_measures, sd_item.
  rewrite H1, H2, H3, H4. cbn [bind].
  destruct (measure_outcome t fro) as (f & -> & F); auto. destruct (measure_outcome t nuc) as (n & -> & N); auto.
  destruct (measure_outcome t spe) as (s & -> & S); auto. cbn [bind]. exists f, n, s. auto.
Qed.

(** Proofs about the complexity measure. *)
From Coq Require Import List String Reals Bool Lia Lra.
From Verif Require Import Base ComplexityModel ComplexitySpec.
Import ListNotations.
Open Scope R_scope.

Lemma clamp t0 t1 : (if Rlt_dec (t1 - t0) 0 then 0 else t1 - t0) = Rmax 0 (t1 - t0).
Proof.
  destruct (Rlt_dec (t1 - t0) 0).
  - rewrite Rmax_left; lra.
  - rewrite Rmax_right; lra.
Qed.

Lemma add_fin l : forall a, fold_left np_add (map EFin l) (EFin a) = EFin (fold_left Rplus l a).
Proof. induction l as [|x l IH]; intro a; simpl; auto. Qed.

Lemma fold_plus l : forall a, fold_left Rplus l a = a + fold_left Rplus l 0.
Proof.
  induction l as [|x l IH]; intro a; simpl; [lra|]. rewrite IH, (IH (0 + x)). lra.
Qed.

Lemma neighbours_length l : List.length (neighbours l) = (List.length l - 1)%nat.
Proof. unfold neighbours. rewrite combine_length. destruct l; cbn [tl List.length]; lia. Qed.

(** The products of one measure, all finite. *)
Fixpoint terms (t ss : list R) : list R :=
  match t, ss with
  | t0 :: ((t1 :: _) as t'), s0 :: ((s1 :: _) as ss') =>
      Rmax 0 (t1 - t0) * (ln ((s0 + s1) / 2) / ln 2) :: terms t' ss'
  | _, _ => []
  end.

Lemma terms_sum t : forall ss, fold_left Rplus (terms t ss) 0 = complexity t ss.
Proof.
  induction t as [|t0 t IH]; intros ss; [reflexivity|].
  destruct t as [|t1 t]; [reflexivity|]. destruct ss as [|s0 [|s1 ss]]; try reflexivity.
  cbn [terms complexity fold_left]. rewrite fold_plus. specialize (IH (s1 :: ss)).
  cbn [terms complexity] in IH. rewrite IH. lra.
Qed.

Lemma terms_model t : forall ss, List.length t = List.length ss -> positive_means ss ->
  map (fun p => np_scale (fst p) (snd p)) (combine (delta_t t) (map np_log2 (midpoints ss)))
  = map EFin (terms t ss).
Proof.
  induction t as [|t0 t IH]; intros ss L P; [reflexivity|].
  destruct t as [|t1 t]; [reflexivity|]. destruct ss as [|s0 [|s1 ss]]; try reflexivity.
  cbn [positive_means] in P. destruct P as [P0 P].
  specialize (IH (s1 :: ss)). cbn [List.length] in IH. 
  unfold delta_t, midpoints, neighbours in *. cbn [tl combine map fst snd] in *.
  rewrite IH; [|simpl in L; lia|exact P]. cbn [terms map]. f_equal.
  unfold np_log2. destruct (Rlt_dec 0 (1 / 2 * (s0 + s1))) as [_|N]; [|lra].
  cbn [np_scale]. rewrite clamp. replace (1 / 2 * (s0 + s1)) with ((s0 + s1) / 2) by lra. reflexivity.
Qed.

Lemma measure_spec t ss : List.length t = List.length ss -> positive_means ss ->
  log_measure t ss = Ok (EFin (complexity t ss)).
Proof.
  intros L P. unfold log_measure, np_mul.
  replace (List.length (delta_t t)) with (List.length t - 1)%nat
    by (unfold delta_t; rewrite map_length, neighbours_length; reflexivity).
  replace (List.length (map np_log2 (midpoints ss))) with (List.length ss - 1)%nat
    by (unfold midpoints; rewrite !map_length, neighbours_length; reflexivity).
  rewrite L, Nat.eqb_refl. cbn [bind]. rewrite terms_model by auto.
  rewrite add_fin, terms_sum. reflexivity.
Qed.

Lemma complexity_spec data t fro nuc spe :
  sd_get "t"%string data = Some t ->
  sd_get "sum_sqr_frobenius_norm"%string data = Some fro ->
  sd_get "sum_sqr_nuclear_norm"%string data = Some nuc ->
  sd_get "sum_sqr_spectral_norm"%string data = Some spe ->
  List.length fro = List.length t -> List.length nuc = List.length t -> List.length spe = List.length t ->
  positive_means fro -> positive_means nuc -> positive_means spe ->
  compute_complexity_measures data =
  Ok (EFin (complexity t fro), EFin (complexity t nuc), EFin (complexity t spe)).
Proof.
  intros H1 H2 H3 H4 L1 L2 L3 P1 P2 P3. unfold compute_complexity_measures, sd_item.
  rewrite H1, H2, H3, H4. cbn [bind].
  rewrite (measure_spec t fro), (measure_spec t nuc), (measure_spec t spe); auto.
Qed.

(** A step back in time at a vanishing mean gives NaN. *)
Lemma restart_nan : log_measure [0; 1; 0] [1; 0; 0] = Ok ENaN.
Proof.
  unfold log_measure, np_mul, delta_t, midpoints, neighbours. cbn [tl combine map fst snd List.length Nat.eqb].
  unfold np_log2.
  destruct (Rlt_dec 0 (1 / 2 * (1 + 0))); [|lra].
  destruct (Rlt_dec 0 (1 / 2 * (0 + 0))); [lra|].
  destruct (Req_EM_T (1 / 2 * (0 + 0)) 0); [|lra].
  destruct (Rlt_dec (1 - 0) 0); [lra|]. destruct (Rlt_dec (0 - 1) 0); [|lra].
  cbn [map combine fst snd np_scale bind fold_left np_add].
  destruct (Req_EM_T 0 0); [reflexivity|lra].
Qed.

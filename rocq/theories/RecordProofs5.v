(** Long-range validation in chunks: the evaluated time is the whole time. *)
From Coq Require Import Lqa List String Arith ZArith QArith Qcanon Qreals Reals Lia Lra Bool Sorting.Sorted.
From Verif Require Import Base GridProofs FixedGridSpec FixedGridProofs RecordSpec RecordProofs3 SpiralModel SpiralSpec SpiralProofs.
Import ListNotations.
Open Scope list_scope.
Open Scope nat_scope.

Lemma qr_plus a b : qr (a + b)%Qc = (qr a + qr b)%R.
Proof. unfold qr. rewrite <- Q2R_plus. apply Qeq_eqR, this_plus. Qed.

Lemma qr_times k d : qr (times k d) = (INR k * qr d)%R.
Proof.
  induction k as [|k IH]; [rewrite times_0; unfold qr; change (this 0%Qc) with 0%Q; unfold Q2R; cbn; lra|].
  rewrite times_S, qr_plus, IH, S_INR. lra.
Qed.

Lemma uniform_sorted d t : uniform d t -> StronglySorted Qclt t.
Proof. intros (D & t0 & n & ->). exact (sorted_affine t0 d 0 n D). Qed.

Lemma sorted_app (a b : list Qc) : StronglySorted Qclt (a ++ b) -> StronglySorted Qclt a /\ StronglySorted Qclt b.
Proof.
  induction a as [|x a IH]; intros S; [split; [constructor|exact S]|]. inversion S as [|? ? S' F]; subst. destruct (IH S') as (A & B).
  split; [|exact B]. constructor; [exact A|]. apply Forall_app in F as (F & _). exact F.
Qed.

Lemma sorted_firstn k t : StronglySorted Qclt t -> StronglySorted Qclt (firstn k t).
Proof. intros S. rewrite <- (firstn_skipn k t) in S. apply sorted_app in S as (S & _). exact S. Qed.

(** Chunks which share their ends. *)
Lemma linked_facts (chunks : list (list Qc)) : linked chunks -> Forall (fun c => 2 <= List.length c) chunks -> StronglySorted Qclt (glue chunks) ->
  good_times chunks /\ restarts chunks /\ first (glue chunks) = first (hd [] chunks) /\
  total_time chunks = (qr (final_time (glue chunks)) - qr (first (glue chunks)))%R.
Proof.
  induction 1 as [c|c a b c' cs E L IH]; intros F S.
  - inversion F as [|? ? F1 _]; subst. unfold glue in *. cbn [map List.concat] in *. rewrite app_nil_r in *.
    split; [constructor; [split; assumption|constructor]|]. split; [exact I|]. split; [reflexivity|]. unfold total_time. cbn. lra.
  - inversion F as [|? ? F1 F2]; subst. inversion F2 as [|? ? F3 _]; subst.
    assert (GL : glue ((a ++ [b]) :: (b :: c') :: cs) = a ++ glue ((b :: c') :: cs)).
    { unfold glue. cbn [map List.concat tl]. rewrite <- app_assoc. reflexivity. }
    rewrite GL in S |- *. assert (S2 := sorted_app _ _ S). destruct S2 as (_ & S2).
    destruct (IH F2 S2) as (G & R & H1 & T).
    assert (SC : StronglySorted Qclt (a ++ [b])).
    { unfold glue in S. cbn [app] in S. change (b :: c' ++ List.concat (map (@tl Qc) cs)) with ([b] ++ (c' ++ List.concat (map (@tl Qc) cs))) in S.
      rewrite app_assoc in S. apply sorted_app in S as (S & _). exact S. }
    assert (NA : a <> []) by (intros ->; cbn in F1; lia).
    split; [constructor; [split; assumption|exact G]|]. split; [|split].
    + split; [|exact R]. unfold first, final_time. cbn [hd]. rewrite last_last. apply Qcle_refl.
    + destruct a as [|x a]; [congruence|reflexivity].
    + unfold total_time in *. cbn [map fold_right] in T |- *. rewrite T. clear T.
      assert (E1 : final_time (a ++ [b]) = b) by (unfold final_time; apply last_last).
      assert (E2 : first (glue ((b :: c') :: cs)) = b) by (rewrite H1; reflexivity).
      assert (E3 : final_time (a ++ glue ((b :: c') :: cs)) = final_time (glue ((b :: c') :: cs))).
      { unfold final_time. apply last_app_nonempty. discriminate. }
      assert (E4 : first ((a ++ [b])) = first (a ++ glue ((b :: c') :: cs))) by (destruct a; [congruence|reflexivity]).
      rewrite E1, E2, E3, E4. lra.
Qed.

Lemma glue_length (chunks : list (list Qc)) : linked chunks -> Forall (fun c => 2 <= List.length c) chunks ->
  List.length (glue chunks) = S (fold_right Nat.add 0 (map (fun c => List.length c - 1) chunks)).
Proof.
  induction 1 as [c|c a b c' cs E L IH]; intros F.
  - inversion F as [|? ? F1 _]; subst. unfold glue. cbn [map List.concat fold_right]. rewrite app_nil_r. lia.
  - inversion F as [|? ? F1 F2]; subst. specialize (IH F2). unfold glue in *. cbn [map List.concat tl] in *. rewrite !app_length in *.
    cbn [List.length fold_right map] in IH |- *. cbn [List.length] in F1 |- *. lia.
Qed.

Lemma firstn_ends t0 d n k : 2 <= k -> k <= n -> let t := map (fun i => (t0 + times i d)%Qc) (seq 0 n) in
  first (firstn k t) = t0 /\ final_time (firstn k t) = (t0 + times (k - 1) d)%Qc /\ List.length (firstn k t) = k.
Proof.
  intros K N t. unfold t. rewrite firstn_map. assert (FS : firstn k (seq 0 n) = seq 0 k).
  { replace n with (k + (n - k)) by lia. rewrite seq_app, firstn_app, seq_length, Nat.sub_diag. cbn [firstn]. rewrite app_nil_r.
    rewrite <- (seq_length k 0) at 1. apply firstn_all. }
  rewrite FS. destruct k as [|k]; [lia|]. split; [cbn; rewrite times_0; ring|]. split.
  - rewrite map_seq_snoc. unfold final_time. rewrite last_last. cbn [Nat.add]. f_equal. f_equal. lia.
  - rewrite map_length, seq_length. reflexivity.
Qed.

(** Chunks restarted from zero. *)
Lemma zero_facts d t (chunks : list (list Qc)) : uniform d t -> linked chunks -> Forall (fun c => 2 <= List.length c) chunks -> glue chunks = t ->
  let starts := map (fun c => firstn (List.length c) t) chunks in
  good_times starts /\ restarts starts /\ total_time starts = (qr (final_time t) - qr (first t))%R.
Proof.
  intros U L F G starts. assert (SS := uniform_sorted d t U). destruct U as (D & t0 & n & ET).
  assert (LN : forall c, In c chunks -> 2 <= List.length c /\ List.length c <= n).
  { intros c I. split; [apply (proj1 (Forall_forall _ _) F _ I)|].
    assert (LT : List.length t = n) by (rewrite ET, map_length, seq_length; reflexivity).
    rewrite <- LT, <- G, glue_length by assumption. clear - I F. induction chunks as [|c0 cs IH]; [destruct I|].
    inversion F as [|? ? F1 F2]; subst. cbn [map fold_right]. destruct I as [->|I]; [lia|]. specialize (IH F2 I). lia. }
  assert (PT : forall c, In c chunks -> first (firstn (List.length c) t) = t0 /\ final_time (firstn (List.length c) t) = (t0 + times (List.length c - 1) d)%Qc /\
    List.length (firstn (List.length c) t) = List.length c).
  { intros c I. destruct (LN c I) as (A & B). rewrite ET. apply firstn_ends; assumption. }
  split; [|split].
  - apply Forall_forall. intros s I. unfold starts in I. apply in_map_iff in I as (c & <- & I). destruct (PT c I) as (_ & _ & ->).
    split; [apply (LN c I)|apply sorted_firstn, SS].
  - clear - PT D. unfold starts. induction chunks as [|c cs IH]; [exact I|]. destruct cs as [|c2 cs]; [exact I|]. cbn [map] in IH |- *. split.
    + destruct (PT c2 (or_intror (or_introl eq_refl))) as (-> & _). destruct (PT c (or_introl eq_refl)) as (_ & -> & _).
      assert (A := times_nonneg (List.length c - 1) d D). qc.
    + apply IH. intros c' I'. apply PT. right. exact I'.
  - assert (ST : total_time starts = (INR (fold_right Nat.add 0 (map (fun c => List.length c - 1) chunks))%nat * qr d)%R).
    { clear - PT. unfold starts, total_time. induction chunks as [|c cs IH]; [cbn; lra|]. cbn [map fold_right].
      rewrite IH by (intros c' I'; apply PT; right; exact I'). destruct (PT c (or_introl eq_refl)) as (-> & -> & _).
      rewrite plus_INR, qr_plus, qr_times. lra. }
    rewrite ST. assert (GL := glue_length chunks L F). rewrite G in GL.
    assert (n = S (fold_right Nat.add 0 (map (fun c => List.length c - 1) chunks))) as EN by (rewrite <- GL, ET, map_length, seq_length; reflexivity).
    rewrite ET, EN. unfold final_time, first. rewrite map_seq_snoc, last_last. rewrite <- map_seq_snoc. cbn [seq map hd].
    rewrite !qr_plus, !qr_times. cbn [Nat.add INR]. lra.
Qed.

Lemma chunk_facts d t chunk_time from_zero fuel : uniform d t -> 2 <= List.length t -> (2 <= chunk_time \/ chunk_time <= 0)%Z -> List.length t <= fuel ->
  exists chunks, get_time_chunks fuel t chunk_time from_zero = Some chunks /\ chunks <> [] /\
    good_times chunks /\ restarts chunks /\ total_time chunks = (qr (final_time t) - qr (first t))%R.
Proof.
  intros U N C L. destruct (chunks_cover t chunk_time fuel N C L) as (chunks & E & G & K & F & E2).
  assert (NE : chunks <> []) by (intros Z; rewrite Z in K; inversion K). destruct from_zero.
  - eexists. split; [exact E2|]. split; [intros Z; apply map_eq_nil in Z; contradiction|]. apply (zero_facts d t chunks U K F G).
  - exists chunks. split; [exact E|]. split; [exact NE|]. assert (S := uniform_sorted d t U). rewrite <- G in S.
    destruct (linked_facts chunks K F S) as (A & B & _ & T). rewrite G in T. auto.
Qed.

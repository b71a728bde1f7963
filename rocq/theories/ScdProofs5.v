(** Zero dictionaries and the extraction of sizes (C73). *)
From Coq Require Import List String Arith Lia Bool Sorting.Sorted.
From Verif Require Import Base BaseFacts Tensor TensorFacts ScdModel ScdSpec.
Import ListNotations.

Section Zero.
Context {A : Type} (zero : A).

Lemma rel_map_fill (f : list nat -> list nat) (d : sdict (tensor A)) :
  dict_rel (fun t z => tshape z = f (tshape t) /\ tdata z = repeat zero (prod (f (tshape t)))) d
    (map (fun kt => (fst kt, tfill zero (f (tshape (snd kt))))) d).
Proof. induction d as [|[k t] d IH]; constructor; [|exact IH]. cbn. repeat split. Qed.

Lemma zero_dict_like_rel (d : sdict (tensor A)) : sd_wf d ->
  dict_rel (fun t z => tshape z = tshape t /\ tdata z = repeat zero (prod (tshape t))) d (zero_dict_like zero d).
Proof.
  intros W. unfold zero_dict_like.
  rewrite (sd_rebuild (fun kt => tfill zero (tshape (snd kt))) d W).
  exact (rel_map_fill (fun s => s) d).
Qed.

(** A loop that may fail at every entry. *)
Lemma foldM_set_map (sz : list nat -> result (list nat)) (f : list nat -> list nat) (d : sdict (tensor A)) :
  Forall (fun kt => sz (tshape (snd kt)) = Ok (f (tshape (snd kt)))) d -> forall acc,
  foldM (fun r kt => s <- sz (tshape (snd kt)) ;; Ok (sd_set (fst kt) (tfill zero s) r)) d acc
  = Ok (fold_left (fun r kt => sd_set (fst kt) (tfill zero (f (tshape (snd kt)))) r) d acc).
Proof.
  induction 1 as [|kt d E F IH]; intros acc; cbn [foldM fold_left]; [reflexivity|].
  rewrite E. cbn [bind]. apply IH.
Qed.

Lemma foldM_set_raise (sz : list nat -> result (list nat)) (d : sdict (tensor A)) :
  (forall s, (exists s', sz s = Ok s') \/ sz s = Raise IndexError) ->
  Exists (fun kt => sz (tshape (snd kt)) = Raise IndexError) d -> forall acc,
  foldM (fun r kt => s <- sz (tshape (snd kt)) ;; Ok (sd_set (fst kt) (tfill zero s) r)) d acc
  = Raise IndexError.
Proof.
  intros T. induction 1 as [kt d E|kt d E IH]; intros acc; cbn [foldM].
  - rewrite E. reflexivity.
  - destruct (T (tshape (snd kt))) as [[s' Es]|Es]; rewrite Es; cbn [bind]; [apply IH|reflexivity].
Qed.

Definition set0 (b : nat) (s : list nat) : list nat := set_nth 0 b s.
Definition set01 (b c : nat) (s : list nat) : list nat := set_nth 1 c (set_nth 0 b s).

Lemma matched_batch_ok (d : sdict (tensor A)) b : sd_wf d ->
  Forall (fun kt => 1 <= List.length (tshape (snd kt))) d ->
  exists z, zero_dict_matched_batch zero d b = Ok z /\
    dict_rel (fun t z => tshape z = b :: tl (tshape t) /\ tdata z = repeat zero (prod (tshape z))) d z.
Proof.
  intros W F. unfold zero_dict_matched_batch.
  rewrite (foldM_set_map (fun s => list_set s 0 b) (set0 b)).
  - eexists. split; [reflexivity|]. rewrite (sd_rebuild (fun kt => tfill zero (set0 b (tshape (snd kt)))) d W).
    clear W. induction F as [|[k t] d L F IH]; constructor; [|exact IH].
    cbn in *. destruct (tshape t); [cbn in L; lia|]. repeat split.
  - eapply Forall_impl; [|exact F]. intros [k t] L. cbn in *. unfold list_set, set0.
    destruct (tshape t); [cbn in L; lia|reflexivity].
Qed.

Lemma matched_batch_raise (d : sdict (tensor A)) b :
  Exists (fun kt => List.length (tshape (snd kt)) < 1) d ->
  zero_dict_matched_batch zero d b = Raise IndexError.
Proof.
  intros E. unfold zero_dict_matched_batch. apply foldM_set_raise with (sz := fun s => list_set s 0 b).
  - intros s. unfold list_set. destruct (0 <? List.length s); [left; eexists; reflexivity|right; reflexivity].
  - eapply Exists_impl; [|exact E]. intros [k t] L. cbn in *. unfold list_set.
    destruct (tshape t); [reflexivity|cbn in L; lia].
Qed.

Lemma matched_batch_channel_fold (d : sdict (tensor A)) b c acc :
  foldM (fun r kt => sz <- list_set (tshape (snd kt)) 0 b ;; sz <- list_set sz 1 c ;;
                     Ok (sd_set (fst kt) (tfill zero sz) r)) d acc
  = foldM (fun r kt => s <- (fun s => sz <- list_set s 0 b ;; list_set sz 1 c) (tshape (snd kt)) ;;
                       Ok (sd_set (fst kt) (tfill zero s) r)) d acc.
Proof.
  revert acc. induction d as [|kt d IH]; intros acc; cbn [foldM]; [reflexivity|].
  destruct (list_set (tshape (snd kt)) 0 b) as [s|]; cbn [bind]; [|reflexivity].
  destruct (list_set s 1 c); cbn [bind]; [apply IH|reflexivity].
Qed.

Lemma matched_batch_channel_ok (d : sdict (tensor A)) b c : sd_wf d ->
  Forall (fun kt => 2 <= List.length (tshape (snd kt))) d ->
  exists z, zero_dict_matched_batch_channel zero d b c = Ok z /\
    dict_rel (fun t z => tshape z = b :: c :: tl (tl (tshape t)) /\ tdata z = repeat zero (prod (tshape z))) d z.
Proof.
  intros W F. unfold zero_dict_matched_batch_channel. rewrite matched_batch_channel_fold.
  rewrite (foldM_set_map (fun s => sz <- list_set s 0 b ;; list_set sz 1 c) (set01 b c)).
  - eexists. split; [reflexivity|]. rewrite (sd_rebuild (fun kt => tfill zero (set01 b c (tshape (snd kt)))) d W).
    clear W. induction F as [|[k t] d L F IH]; constructor; [|exact IH].
    cbn in *. destruct (tshape t) as [|x [|y s]]; [cbn in L; lia|cbn in L; lia|]. repeat split.
  - eapply Forall_impl; [|exact F]. intros [k t] L. cbn in *.
    destruct (tshape t) as [|x [|y s]]; [cbn in L; lia|cbn in L; lia|reflexivity].
Qed.

Lemma matched_batch_channel_raise (d : sdict (tensor A)) b c :
  Exists (fun kt => List.length (tshape (snd kt)) < 2) d ->
  zero_dict_matched_batch_channel zero d b c = Raise IndexError.
Proof.
  intros E. unfold zero_dict_matched_batch_channel. rewrite matched_batch_channel_fold.
  apply foldM_set_raise with (sz := fun s => sz <- list_set s 0 b ;; list_set sz 1 c).
  - intros [|x [|y s]]; [right; reflexivity|right; reflexivity|left; eexists; reflexivity].
  - eapply Exists_impl; [|exact E]. intros [k t] L. cbn in *.
    destruct (tshape t) as [|x [|y s]]; [reflexivity|reflexivity|cbn in L; lia].
Qed.

(** All tensors of a dictionary of dictionaries having the same extent along [i]: this is what is
    extracted. *)
Lemma extract_extent (d : sdict (sdict (tensor A))) i n name block :
  Forall (fun kd => snd kd <> []) d -> In (name, block) d ->
  Forall (fun kd => Forall (fun kt => nth_error (tshape (snd kt)) i = Some n) (snd kd)) d ->
  (sz <- extract_size_from_dict_of_dicts d ;; list_item sz i) = Ok n.
Proof.
  intros N I F. destruct d as [|[k0 b0] d]; [destruct I|].
  unfold extract_size_from_dict_of_dicts. cbn [sd_peek0 bind].
  inversion N as [|x l N0 N1]; inversion F as [|x' l' F0 F1]; subst. cbn in N0, F0.
  destruct b0 as [|[k1 t1] b0]; [congruence|]. inversion F0; subst. cbn [sd_peek0 bind]. cbn in *.
  unfold list_item. destruct (nth_error (tshape t1) i); congruence.
Qed.

Lemma extract_raise (d : sdict (sdict (tensor A))) i :
  d = [] \/ (exists k d', d = (k, []) :: d') \/ (exists k k' t b d', d = (k, (k', t) :: b) :: d' /\ List.length (tshape t) <= i) ->
  (sz <- extract_size_from_dict_of_dicts d ;; list_item sz i) = Raise IndexError.
Proof.
  intros [->|[[k [d' ->]]|[k [k' [t [b [d' [-> L]]]]]]]]; try reflexivity.
  unfold extract_size_from_dict_of_dicts. cbn [sd_peek0 bind]. unfold list_item.
  apply nth_error_None in L. rewrite L. reflexivity.
Qed.
End Zero.

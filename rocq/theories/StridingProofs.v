(** Proofs about striding. *)
From Coq Require Import List String Arith ZArith Bool Lia.
From Verif Require Import Base BaseFacts Tensor TensorFacts ScdModel ScdSpec StridingModel StridingSpec.
Import ListNotations.
Open Scope nat_scope.

Lemma count_kept n s : 0 < s -> (n - n mod s + s - 1) / s = n / s.
Proof.
  intro H. pose proof (Nat.div_mod n s ltac:(lia)) as E.
  replace (n - n mod s + s - 1) with ((s - 1) + (n / s) * s) by nia.
  rewrite Nat.div_add by lia. rewrite Nat.div_small by lia. reflexivity.
Qed.

Lemma kept_bound n s j : 0 < s -> j < n / s -> n mod s + j * s < n.
Proof. intros H L. pose proof (Nat.div_mod n s ltac:(lia)) as E. nia. Qed.

Lemma tstride_ok {A} d s (t : tensor A) n : twf t -> nth_error (tshape t) d = Some n -> 0 < s ->
  exists r, tstride d (n mod s) s t = Ok r /\ twf r /\ tshape r = set_nth d (n / s) (tshape t) /\
    forall idx, valid_idx (tshape r) idx ->
      tget r idx = tget t (set_nth d (n mod s + nth d idx 0 * s) idx).
Proof.
  intros W Hn Hs. unfold tstride. rewrite Hn.
  destruct (Nat.eqb_spec s 0); [lia|]. rewrite count_kept by lia.
  assert (Hsrc : forall idx, valid_idx (set_nth d (n / s) (tshape t)) idx ->
    tget t (set_nth d (n mod s + nth d idx 0 * s) idx) <> None).
  { intros idx V. assert (nth d idx 0 < n / s).
    { eapply valid_idx_nth; eauto. apply nth_error_set_nth_same. eapply nth_error_lt; eauto. }
    edestruct (tget_valid t (set_nth d (n mod s + nth d idx 0 * s) idx) W) as [a ->]; [|discriminate].
    eapply valid_idx_change with (s' := set_nth d (n / s) (tshape t)); eauto.
    - rewrite set_nth_set_nth; auto.
    - apply kept_bound; auto. }
  eexists; split; [reflexivity|]. split; [apply tgather_wf; auto|]. split; [reflexivity|].
  intros idx V. exact (tget_gather _ _ idx Hsrc V).
Qed.

Lemma single_ok {A} (t : tensor A) s d n : twf t -> 2 <= d <= 5 -> nth_error (tshape t) d = Some n -> 0 < s ->
  exists r, stride_tensor_single_dimension t (Z.of_nat s) (Z.of_nat d) = Ok r /\ twf r /\
    tshape r = set_nth d (n / s) (tshape t) /\
    forall idx, valid_idx (tshape r) idx ->
      tget r idx = tget t (set_nth d (n mod s + nth d idx 0 * s) idx).
Proof.
  intros W Hd Hn Hs. unfold stride_tensor_single_dimension.
  pose proof (nth_error_lt _ _ _ Hn) as L.
  destruct (Z.ltb_spec (Z.of_nat (List.length (tshape t)) - 1) (Z.of_nat d)); [lia|].
  destruct (Z.ltb_spec (Z.of_nat d) 2); [lia|].
  rewrite Nat2Z.id. unfold list_item. rewrite Hn. cbn [bind].
  destruct (Z.eqb_spec (Z.of_nat s) 0); [lia|].
  destruct (Z.ltb_spec 5 (Z.of_nat d)); [lia|].
  destruct (Z.ltb_spec (Z.of_nat s) 0); [lia|].
  rewrite <- Nat2Z.inj_mod, !Nat2Z.id. apply tstride_ok; auto.
Qed.

Lemma mapi_nth {A B} (f : nat -> A -> B) l : forall i k,
  nth_error (mapi_from i f l) k = option_map (f (i + k)) (nth_error l k).
Proof.
  induction l as [|a l IH]; intros i [|k]; simpl; auto.
  - rewrite Nat.add_0_r. reflexivity.
  - rewrite IH. replace (S i + k) with (i + S k) by lia. reflexivity.
Qed.

Lemma mapi_length {A B} (f : nat -> A -> B) l : forall i, List.length (mapi_from i f l) = List.length l.
Proof. induction l; intros; simpl; auto. Qed.

Lemma nth_error_ext {A} (l1 l2 : list A) : (forall k, nth_error l1 k = nth_error l2 k) -> l1 = l2.
Proof.
  revert l2. induction l1 as [|a l1 IH]; intros [|b l2] H; auto; try (specialize (H 0); discriminate).
  f_equal; [specialize (H 0); simpl in H; congruence|]. apply IH. intro k. apply (H (S k)).
Qed.

Lemma nth_error_combine {A B} (l : list A) (m : list B) : forall k,
  nth_error (combine l m) k =
  match nth_error l k, nth_error m k with Some a, Some b => Some (a, b) | _, _ => None end.
Proof.
  revert m. induction l as [|a l IH]; intros [|b m] [|k]; simpl; auto.
  - destruct (nth_error l k); reflexivity.
Qed.

Lemma valid_idx_nth_error s idx : valid_idx s idx <->
  List.length idx = List.length s /\ forall k n i, nth_error s k = Some n -> nth_error idx k = Some i -> i < n.
Proof.
  revert idx. induction s as [|m s IH]; intros [|j idx]; simpl; split; try tauto; try (intros [H _]; discriminate).
  - intros _. split; auto. intros [|k]; discriminate.
  - intros [H V]. apply IH in V as [L V]. split; [lia|].
    intros [|k] n i; simpl; [congruence|apply V].
  - intros [L V]. split; [apply (V 0); reflexivity|]. apply IH. split; [lia|]. intros k. apply (V (S k)).
Qed.

Lemma nth_error_set_nth {A} d k (v : A) l : nth_error (set_nth d v l) k =
  if k =? d then (if k <? List.length l then Some v else None) else nth_error l k.
Proof.
  destruct (Nat.eqb_spec k d) as [->|N]; [|apply nth_error_set_nth_other; auto].
  destruct (Nat.ltb_spec d (List.length l)).
  - apply nth_error_set_nth_same; auto.
  - apply nth_error_None. rewrite set_nth_length. auto.
Qed.

(** Several dimensions, each once. *)
Lemma multiple_ok {A} p : forall (t : tensor A), twf t -> admissible p (List.length (tshape t)) ->
  exists r, foldM (fun current ds => stride_tensor_single_dimension current (Z.of_nat (snd ds)) (Z.of_nat (fst ds)))
              p t = Ok r /\ twf r /\ subsampled p t r.
Proof.
  induction p as [|[d s] p IH]; intros t W [ND F].
  - exists t. split; [reflexivity|]. split; auto. split.
    + apply nth_error_ext. intro k. rewrite mapi_nth. unfold kept_extent. simpl.
      destruct (nth_error (tshape t) k); reflexivity.
    + intros idx V. f_equal. apply nth_error_ext. intro k. rewrite mapi_nth, nth_error_combine.
      unfold kept_position. simpl. apply valid_idx_nth_error in V as [L _].
      destruct (nth_error (tshape t) k) eqn:E1, (nth_error idx k) eqn:E2; auto.
      apply nth_error_None in E1. apply nth_error_lt in E2. lia.
  - simpl in ND. inversion ND as [|? ? ND1 ND2]; subst. inversion F as [|? ? [F1 [F2 F3]] F4]; subst.
    simpl in F1, F2, F3. destruct (nth_error (tshape t) d) as [n|] eqn:Hn.
    2:{ apply nth_error_None in Hn. lia. }
    destruct (single_ok t s d n W F1 Hn F3) as [t1 [E1 [W1 [S1 G1]]]].
    destruct (IH t1 W1) as [r [E2 [W2 [S2 G2]]]].
    { split; auto. rewrite S1, set_nth_length. exact F4. }
    exists r. cbn [foldM fst snd]. rewrite E1. cbn [bind]. split; auto. split; auto.
    assert (NS : stride_of p d = None).
    { clear -ND1. induction p as [|[d' s'] p IH]; simpl in *; auto.
      destruct (Nat.eqb_spec d d'); [subst; tauto|]. apply IH. tauto. }
    split.
    + rewrite S2. apply nth_error_ext. intro k. rewrite !mapi_nth, S1, nth_error_set_nth.
      unfold kept_extent. simpl. destruct (Nat.eqb_spec k d) as [->|N].
      * rewrite NS, Hn. destruct (Nat.ltb_spec d (List.length (tshape t))); [reflexivity|lia].
      * destruct (nth_error (tshape t) k); reflexivity.
    + intros idx V. rewrite G2 by auto.
      pose proof (proj1 (valid_idx_nth_error _ _) V) as [L VV].
      assert (LT : List.length (tshape t1) = List.length (tshape t)) by (rewrite S1, set_nth_length; auto).
      assert (L' : List.length idx = List.length (tshape t)) by (rewrite L, S2, mapi_length; auto).
      set (idx1 := mapi_from 0 _ (combine (tshape t1) idx)).
      assert (N1 : forall k, nth_error idx1 k = match nth_error (tshape t1) k, nth_error idx k with
                 | Some n, Some j => Some (kept_position p k n j) | _, _ => None end).
      { intro k. unfold idx1. rewrite mapi_nth, nth_error_combine.
        destruct (nth_error (tshape t1) k), (nth_error idx k); reflexivity. }
      assert (V1 : valid_idx (tshape t1) idx1).
      { apply valid_idx_nth_error. split.
        - unfold idx1. rewrite mapi_length, combine_length. lia.
        - intros k m i Hm Hi. rewrite N1, Hm in Hi. destruct (nth_error idx k) as [j|] eqn:Hj; [|discriminate].
          injection Hi as <-.
          assert (Hr : nth_error (tshape r) k = Some (kept_extent p k m)).
          { rewrite S2, mapi_nth, Hm. reflexivity. }
          specialize (VV k _ _ Hr Hj). unfold kept_extent in VV. unfold kept_position.
          destruct (stride_of p k) as [s'|] eqn:ES; [|exact VV]. apply kept_bound; auto.
          clear -ES F4. induction F4 as [|[d' s''] p [_ [_ H]] _ IH]; simpl in *; [discriminate|].
          destruct (k =? d'); [congruence|auto]. }
      rewrite G1 by auto. f_equal. apply nth_error_ext. intro k.
      rewrite nth_error_set_nth, mapi_nth, nth_error_combine.
      assert (LI : List.length idx1 = List.length (tshape t)).
      { unfold idx1. rewrite mapi_length, combine_length. lia. }
      rewrite LI.
      destruct (Nat.eqb_spec k d) as [->|N].
      * destruct (Nat.ltb_spec d (List.length (tshape t))); [|lia]. rewrite Hn.
        destruct (nth_error idx d) as [j|] eqn:Hj.
        2:{ apply nth_error_None in Hj. lia. }
        cbn [option_map fst snd]. unfold kept_position. simpl. rewrite Nat.eqb_refl.
        assert (Hid : nth_error idx1 d = Some j).
        { rewrite N1, Hj, S1, nth_error_set_nth_same by auto. unfold kept_position. rewrite NS. reflexivity. }
        rewrite (nth_error_nth _ _ _ Hid). reflexivity.
      * rewrite N1, S1, nth_error_set_nth_other by auto.
        destruct (nth_error (tshape t) k) as [m|]; [|reflexivity].
        destruct (nth_error idx k) as [j|]; [|reflexivity]. cbn [option_map fst snd].
        unfold kept_position. simpl. destruct (Nat.eqb_spec k d); [congruence|]. reflexivity.
Qed.

Lemma multiple_of_plan {A} (t : tensor A) stride dims off : integers_ok stride dims off ->
  stride_tensor_multiple_dimensions t stride dims off =
  foldM (fun current ds => stride_tensor_single_dimension current (Z.of_nat (snd ds)) (Z.of_nat (fst ds)))
        (plan_of stride dims off) t.
Proof.
  intros [Hs Hd]. unfold stride_tensor_multiple_dimensions, plan_of. revert dims Hd t.
  induction Hs as [|s stride P Hs IH]; intros [|d dims] Hd t; simpl; auto.
  inversion Hd as [|? ? D1 D2]; subst. rewrite !Z2Nat.id by lia.
  destruct (stride_tensor_single_dimension t s (d + off)); simpl; auto.
Qed.

(** All variables of a dictionary. *)
Definition all_ranks {A} (P : nat -> Prop) (d : sdict (tensor A)) : Prop :=
  Forall (fun kt => P (List.length (tshape (snd kt)))) d.

Lemma foldM_set_rel {V W} (f : V -> result W) (R : V -> W -> Prop) (d : sdict V) :
  sd_wf d -> Forall (fun kv => exists w, f (snd kv) = Ok w /\ R (snd kv) w) d ->
  exists e, foldM (fun ret kv => w <- f (snd kv) ;; Ok (sd_set (fst kv) w ret)) d [] = Ok e /\
            dict_rel R d e /\ sd_wf e.
Proof.
  intros Wd F.
  assert (G : exists e, Forall2 (fun a b => fst a = fst b /\ f (snd a) = Ok (snd b) /\ R (snd a) (snd b)) d e).
  { clear Wd. induction F as [|[k v] d [w [E H]] _ [e IH]]; [exists []; constructor|].
    exists ((k, w) :: e). constructor; auto. }
  destruct G as [e G]. exists e.
  assert (KE : keys e = keys d) by (clear -G; induction G as [|? ? ? ? [H _] _ IH]; simpl; congruence).
  assert (We : sd_wf e) by (unfold sd_wf; rewrite KE; exact Wd).
  split; [|split; auto].
  - assert (K : forall pre d e, Forall2 (fun a b => fst a = fst b /\ f (snd a) = Ok (snd b) /\ R (snd a) (snd b)) d e ->
        sd_wf (pre ++ e) ->
        foldM (fun ret kv => w <- f (snd kv) ;; Ok (sd_set (fst kv) w ret)) d pre = Ok (pre ++ e)).
    { clear. intros pre d e H. revert pre.
      induction H as [|[k v] [k' w] d e [H1 [H2 _]] _ IH]; intros pre Wp; simpl in *.
      - rewrite app_nil_r. reflexivity.
      - subst k'. rewrite H2. cbn [bind].
        rewrite (sd_set_last k w pre).
        + rewrite IH; rewrite <- app_assoc; [reflexivity|exact Wp].
        + unfold sd_wf, keys in Wp. rewrite map_app in Wp. simpl in Wp. revert Wp. clear.
          induction pre as [|[k0 v0] pre IH]; simpl; intro S; constructor.
          * inversion S as [|? ? S1 S2]; subst. rewrite Forall_app in S2. destruct S2 as [_ S3].
            inversion S3; auto.
          * apply IH. inversion S; auto. }
    apply (K [] d e); auto.
  - unfold dict_rel. clear -G. induction G as [|? ? ? ? [H1 [_ H2]] _ IH]; constructor; auto.
Qed.

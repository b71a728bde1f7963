(** Proofs about striding of dictionaries. *)
From Coq Require Import List String Arith ZArith Bool Lia.
From Verif Require Import Base BaseFacts Tensor TensorFacts ScdModel ScdSpec StridingModel StridingSpec
  StridingProofs.
Import ListNotations.
Open Scope nat_scope.

Section Dicts.
Context {A : Type}.
Notation tdict := (sdict (tensor A)).
Notation tdicts := (sdict (sdict (tensor A))).

Definition all_tensors (P : tensor A -> Prop) (d : tdicts) : Prop :=
  Forall (fun kd => Forall (fun kt => P (snd kt)) (snd kd)) d.

Lemma stride_dicts_ok (d : tdicts) stride dims off :
  dicts_wf d -> integers_ok stride dims off ->
  all_tensors (fun t => admissible (plan_of stride dims off) (List.length (tshape t))) d ->
  exists e, stride_dict_of_dicts d stride dims off = Ok e /\
    dict_rel (dict_rel (subsampled (plan_of stride dims off))) d e.
Proof.
  intros [W Wd] I AD. unfold stride_dict_of_dicts.
  destruct (foldM_set_rel (fun b => stride_dict b stride dims off)
             (dict_rel (subsampled (plan_of stride dims off))) d W) as [e [E [R _]]].
  - unfold all_tensors in AD. rewrite Forall_forall in *. intros [n b] Hin. specialize (AD _ Hin). specialize (Wd _ Hin).
    cbn [snd] in *. destruct Wd as [Wb Ft]. unfold stride_dict.
    destruct (foldM_set_rel (fun t => stride_tensor_multiple_dimensions t stride dims off)
               (fun t r => subsampled (plan_of stride dims off) t r) b Wb) as [e [E [R _]]].
    + rewrite Forall_forall in *. intros [k t] Hkt. specialize (AD _ Hkt). specialize (Ft _ Hkt). cbn [snd] in *.
      rewrite multiple_of_plan by auto. destruct (multiple_ok _ t Ft AD) as [r [E [_ S]]]. eauto.
    + eauto.
  - eauto.
Qed.

Lemma forward_ok (b : striding) (st co data : tdicts) szs szd :
  dicts_wf st -> dicts_wf co -> dicts_wf data ->
  extract_size_from_dict_of_dicts st = Ok szs -> extract_size_from_dict_of_dicts data = Ok szd ->
  let off := (Z.of_nat (List.length szd) - Z.of_nat (List.length szs))%Z in
  let p := plan_of (sb_stride b) (sb_dims b) 0 in
  let q := plan_of (sb_stride b) (sb_dims b) off in
  integers_ok (sb_stride b) (sb_dims b) 0 -> integers_ok (sb_stride b) (sb_dims b) off ->
  all_tensors (fun t => admissible p (List.length (tshape t))) st ->
  all_tensors (fun t => admissible p (List.length (tshape t))) co ->
  all_tensors (fun t => admissible q (List.length (tshape t))) data ->
  exists s c d, striding_forward b (Some st) (Some co) (Some data) = Ok (s, c, d) /\
    dict_rel (dict_rel (subsampled p)) st s /\
    dict_rel (dict_rel (subsampled p)) co c /\
    dict_rel (dict_rel (subsampled q)) data d.
Proof.
  cbv zeta. intros W1 W2 W3 E1 E2 I1 I2 A1 A2 A3.
  destruct (stride_dicts_ok _ _ _ _ W1 I1 A1) as [s [S1 R1]].
  destruct (stride_dicts_ok _ _ _ _ W2 I1 A2) as [c [S2 R2]].
  destruct (stride_dicts_ok _ _ _ _ W3 I2 A3) as [d [S3 R3]].
  exists s, c, d. unfold striding_forward. cbn [given bind]. rewrite S1. cbn [bind]. rewrite S2. cbn [bind].
  rewrite E1. cbn [bind]. rewrite E2. cbn [bind]. rewrite S3. auto.
Qed.

(** ** Rejections *)
Definition ok_or_value {V} (r : result V) : Prop := (exists v, r = Ok v) \/ r = Raise ValueError.

Lemma single_ok_or_value (t : tensor A) s d : (0 < s)%Z ->
  ok_or_value (stride_tensor_single_dimension t s d).
Proof.
  intro Hs. unfold stride_tensor_single_dimension.
  destruct (Z.ltb_spec (Z.of_nat (List.length (tshape t)) - 1) d); [right; reflexivity|].
  destruct (Z.ltb_spec d 2); [right; reflexivity|].
  unfold list_item. destruct (nth_error (tshape t) (Z.to_nat d)) as [n|] eqn:Hn.
  2:{ apply nth_error_None in Hn. lia. }
  cbn [bind]. destruct (Z.eqb_spec s 0); [lia|]. destruct (5 <? d)%Z; [right; reflexivity|].
  destruct (Z.ltb_spec s 0); [lia|]. unfold tstride. rewrite Hn.
  destruct (Nat.eqb_spec (Z.to_nat s) 0); [lia|]. left. eauto.
Qed.

Lemma single_bad (t : tensor A) s d : (d < 2)%Z -> stride_tensor_single_dimension t s d = Raise ValueError.
Proof.
  intro Hd. unfold stride_tensor_single_dimension. destruct (_ <? d)%Z; [reflexivity|].
  destruct (Z.ltb_spec d 2); [reflexivity|lia].
Qed.

Lemma multiple_bad stride : forall dims (t : tensor A) off, Forall (fun s => (0 < s)%Z) stride ->
  List.length stride = List.length dims -> Exists (fun d => (d + off < 2)%Z) dims ->
  stride_tensor_multiple_dimensions t stride dims off = Raise ValueError.
Proof.
  unfold stride_tensor_multiple_dimensions.
  induction stride as [|s stride IH]; intros [|d dims] t off P L X; simpl in L; try discriminate.
  - inversion X.
  - inversion P as [|? ? P1 P2]; subst. cbn [combine foldM fst snd].
    destruct (Z_lt_ge_dec (d + off) 2) as [Hd|Hd].
    + rewrite single_bad by auto. reflexivity.
    + destruct (single_ok_or_value t s (d + off) P1) as [[v ->]| ->]; [|reflexivity]. cbn [bind].
      apply IH; auto. inversion X as [? ? X1|? ? X1]; subst; [lia|exact X1].
Qed.

Lemma multiple_ok_or_value stride : forall dims (t : tensor A) off, Forall (fun s => (0 < s)%Z) stride ->
  ok_or_value (stride_tensor_multiple_dimensions t stride dims off).
Proof.
  unfold stride_tensor_multiple_dimensions.
  induction stride as [|s stride IH]; intros [|d dims] t off P; try (left; eexists; reflexivity).
  inversion P as [|? ? P1 P2]; subst. cbn [combine foldM fst snd].
  destruct (single_ok_or_value t s (d + off) P1) as [[v ->]| ->]; [|right; reflexivity]. cbn [bind].
  apply IH; auto.
Qed.

Lemma fold_bad {V W} (f : V -> result W) (d : sdict V) : forall acc,
  Forall (fun kv => ok_or_value (f (snd kv))) d -> Exists (fun kv => f (snd kv) = Raise ValueError) d ->
  foldM (fun ret kv => w <- f (snd kv) ;; Ok (sd_set (fst kv) w ret)) d acc = Raise ValueError.
Proof.
  induction d as [|[k v] d IH]; intros acc F X; [inversion X|]. cbn [foldM].
  inversion F as [|? ? F1 F2]; subst. cbn [fst snd] in *. destruct F1 as [[w E]|E].
  - rewrite E. cbn [bind]. apply IH; auto. inversion X as [? ? X1|? ? X1]; subst; auto. cbn in X1. congruence.
  - rewrite E. reflexivity.
Qed.

Lemma fold_ok_or_value {V W} (f : V -> result W) (d : sdict V) : forall acc,
  Forall (fun kv => ok_or_value (f (snd kv))) d ->
  ok_or_value (foldM (fun ret kv => w <- f (snd kv) ;; Ok (sd_set (fst kv) w ret)) d acc).
Proof.
  induction d as [|[k v] d IH]; intros acc F; [left; eexists; reflexivity|]. cbn [foldM].
  inversion F as [|? ? F1 F2]; subst. cbn [fst snd] in *. destruct F1 as [[w E]|E]; rewrite E; cbn [bind].
  - apply IH; auto.
  - right. reflexivity.
Qed.

Lemma reject_batch_or_channel (b : striding) (st : tdicts) co data :
  Forall (fun s => (0 < s)%Z) (sb_stride b) -> List.length (sb_stride b) = List.length (sb_dims b) ->
  Exists (fun d => (d < 2)%Z) (sb_dims b) -> Exists (fun kd => snd kd <> []) st ->
  striding_forward b (Some st) co data = Raise ValueError.
Proof.
  intros P L X V. unfold striding_forward. cbn [given bind].
  assert (X0 : Exists (fun d => (d + 0 < 2)%Z) (sb_dims b)).
  { eapply Exists_impl; [|exact X]. intros x Hx. cbv beta in *. lia. }
  assert (E : stride_dict_of_dicts st (sb_stride b) (sb_dims b) 0 = Raise ValueError); [|rewrite E; reflexivity].
  unfold stride_dict_of_dicts. apply (fold_bad (fun d => stride_dict d (sb_stride b) (sb_dims b) 0)).
  - apply Forall_forall. intros [k d] _. unfold stride_dict.
    apply (fold_ok_or_value (fun t => stride_tensor_multiple_dimensions t (sb_stride b) (sb_dims b) 0)).
    apply Forall_forall. intros [k' t] _. apply multiple_ok_or_value; auto.
  - eapply Exists_impl; [|exact V]. intros [k d] N. cbn [snd] in *. unfold stride_dict.
    apply (fold_bad (fun t => stride_tensor_multiple_dimensions t (sb_stride b) (sb_dims b) 0)).
    + apply Forall_forall. intros [k' t] _. apply multiple_ok_or_value; auto.
    + destruct d as [|[k' t] d]; [congruence|]. left. cbn [snd]. apply multiple_bad; auto.
Qed.
End Dicts.

Lemma new_striding_int s d : new_striding (IntArg s) (IntArg d) = Ok (mkStriding [s] [d]).
Proof. reflexivity. Qed.

Lemma new_striding_lengths s d b : new_striding s d = Ok b ->
  List.length (sb_stride b) = List.length (sb_dims b) /\
  (forall z, s = IntArg z -> Forall (eq z) (sb_stride b)) /\ (forall l, s = SeqArg l -> sb_stride b = l) /\
  (forall z, d = IntArg z -> sb_dims b = [z]) /\ (forall l, d = SeqArg l -> sb_dims b = l).
Proof.
  unfold new_striding. intro E. apply bind_ok in E as [dims [E1 E]]. apply bind_ok in E as [str [E2 E]].
  injection E as <-. cbn.
  assert (L : List.length str = List.length dims).
  { destruct s; try discriminate; [injection E2 as <-; apply repeat_length|].
    destruct (Nat.eqb_spec (List.length l) (List.length dims)); [congruence|discriminate]. }
  split; auto. split; [|split; [|split]].
  - intros z ->. injection E2 as <-. apply Forall_forall. intros x H. apply repeat_spec in H. auto.
  - intros l ->. destruct (Nat.eqb_spec (List.length l) (List.length dims)); [congruence|discriminate].
  - intros z ->. congruence.
  - intros l ->. congruence.
Qed.

(** ** The centre element *)
Lemma centre_kept n s : Nat.odd n = true -> 0 < s ->
  ((exists j, j < n / s /\ n mod s + j * s = (n - 1) / 2) <-> ((n + 1) / 2) mod s = 0).
Proof.
  intros O Hs. apply Nat.odd_spec in O as [m ->].
  replace ((2 * m + 1 - 1) / 2) with m by (replace (2 * m + 1 - 1) with (m * 2) by lia; rewrite Nat.div_mul; lia).
  replace ((2 * m + 1 + 1) / 2) with (m + 1)
    by (replace (2 * m + 1 + 1) with ((m + 1) * 2) by lia; rewrite Nat.div_mul; lia).
  set (n := 2 * m + 1). pose proof (Nat.div_mod n s ltac:(lia)) as E.
  split.
  - intros [j [Hj HE]]. apply Nat.mod_divides; [lia|]. exists (n / s - j). unfold n in *. nia.
  - intro H. apply Nat.mod_divides in H as [k Hk]; [|lia].
    assert (Hn : n mod s = m mod s).
    { unfold n. replace (2 * m + 1) with (m + k * s) by lia. rewrite Nat.mod_add by lia. reflexivity. }
    exists (m / s). pose proof (Nat.div_mod m s ltac:(lia)) as Em. split.
    + unfold n in *. nia.
    + rewrite Hn. lia.
Qed.

Lemma centre_element {A} (t r : tensor A) s d n :
  twf t -> 0 < s -> nth_error (tshape t) d = Some n -> Nat.odd n = true ->
  stride_tensor_single_dimension t (Z.of_nat s) (Z.of_nat d) = Ok r ->
  (((n + 1) / 2) mod s = 0 ->
     exists j, nth_error (tshape r) d = Some (n / s) /\ j < n / s /\
       forall idx, valid_idx (tshape r) idx -> nth d idx 0 = j ->
         tget r idx = tget t (set_nth d ((n - 1) / 2) idx)) /\
  (((n + 1) / 2) mod s <> 0 ->
     forall idx, valid_idx (tshape r) idx ->
       exists i, i <> (n - 1) / 2 /\ tget r idx = tget t (set_nth d i idx)).
Proof.
  intros W Hs Hn O E.
  assert (Hd : 2 <= d <= 5).
  { unfold stride_tensor_single_dimension in E.
    destruct (_ <? _)%Z; [discriminate|]. destruct (Z.ltb_spec (Z.of_nat d) 2); [discriminate|].
    apply bind_ok in E as [n' [_ E]]. destruct (_ =? 0)%Z; [discriminate|].
    destruct (Z.ltb_spec 5 (Z.of_nat d)); [discriminate|]. lia. }
  destruct (single_ok t s d n W Hd Hn Hs) as [r' [E' [Wr [S G]]]].
  rewrite E in E'. injection E' as <-.
  pose proof (centre_kept n s O Hs) as C.
  assert (Hr : nth_error (tshape r) d = Some (n / s)).
  { rewrite S. apply nth_error_set_nth_same. eapply nth_error_lt; eauto. }
  split.
  - intro H. apply C in H as [j [Hj EJ]]. exists j. split; auto. split; auto.
    intros idx V Hi. rewrite G by auto. rewrite Hi, EJ. reflexivity.
  - intros H idx V. exists (n mod s + nth d idx 0 * s). split; [|apply G; auto].
    intro EJ. apply H. apply C. exists (nth d idx 0). split; auto.
    eapply valid_idx_nth; eauto.
Qed.

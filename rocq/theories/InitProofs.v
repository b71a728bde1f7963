(** Proofs about parameter initialisation. *)
From Coq Require Import List Arith Reals Lia Lra Bool.
From Verif Require Import Base Tensor TensorFacts InitModel InitSpec.
Import ListNotations.

Lemma tget_some_wf {A} (t : tensor A) idx :
  twf t -> valid_idx (tshape t) idx -> exists a, tget t idx = Some a.
Proof.
  intros W V. unfold tget. destruct (ravel_valid _ _ V) as (r & -> & Hr).
  destruct (nth_error (tdata t) r) eqn:E; eauto.
  apply nth_error_None in E. unfold twf in W. lia.
Qed.

Lemma fill_is {z : R} s : tensor_is (tfill z s) s (fun _ => z).
Proof.
  unfold tensor_is, tfill, twf; cbn. split; [reflexivity|]. split; [apply repeat_length|].
  intros idx V. unfold tget; cbn. destruct (ravel_valid _ _ V) as (r & -> & Hr).
  rewrite nth_error_repeat; auto.
Qed.

Lemma map_is (g : R -> R) t s f : tensor_is t s f -> tensor_is (tmap g t) s (fun i => g (f i)).
Proof.
  intros (S & W & E). unfold tensor_is, tmap, twf in *; cbn. rewrite map_length.
  split; [exact S|]. split; [exact W|].
  intros idx V. specialize (E idx V). unfold tget in *; cbn.
  destruct (ravel (tshape t) idx); [|discriminate]. apply map_nth_error. exact E.
Qed.

Lemma zeros_is s : tensor_is (zeros s) s (fun _ => 0%R).
Proof. apply fill_is. Qed.

Lemma constants_is c s : tensor_is (constants c s) s (fun _ => c).
Proof.
  pose proof (map_is (fun x => (c * x)%R) _ _ _ (@fill_is 1%R s)) as (A & B & C).
  split; [exact A|]. split; [exact B|]. intros idx V. unfold constants. rewrite (C idx V). f_equal. ring.
Qed.

Lemma self_is t : twf t -> tensor_is t (tshape t) (entry t).
Proof.
  intros W. split; [reflexivity|]. split; [exact W|].
  intros idx V. unfold entry. destruct (tget_some_wf t idx W V) as (a & ->). reflexivity.
Qed.

Lemma randoms_is self noise s : noise_ok noise ->
  tensor_is (randoms self noise s) s
    (fun idx => (magnitude self * entry (noise s) idx)%R).
Proof.
  intros N. destruct (N s) as (S & W).
  pose proof (map_is (fun x => (magnitude self * x)%R) _ _ _ (self_is _ W)) as H.
  rewrite S in H. exact H.
Qed.

(** Broadcasting. *)
Lemma bc_rev_fits a b :
  (length a <= length b) -> Forall2 (fun m n => m = n \/ m = 1) a (firstn (length a) b) ->
  bc_rev a b = Some b.
Proof.
  revert b. induction a as [|x a IH]; intros [|y b] L F; cbn in *; try reflexivity; try lia.
  inversion F as [|? ? ? ? H1 H2]; subst. rewrite (IH b) by (auto; lia).
  destruct (x =? y) eqn:E; [apply Nat.eqb_eq in E; subst; reflexivity|].
  destruct H1 as [->| ->]; [rewrite Nat.eqb_refl in E; discriminate|reflexivity].
Qed.

Lemma bc_rev_left_inv a b : bc_rev a b = Some b ->
  (length a <= length b) /\ Forall2 (fun m n => m = n \/ m = 1) a (firstn (length a) b).
Proof.
  revert b. induction a as [|x a IH]; intros b H; [split; [cbn; lia|constructor]|].
  destruct b as [|y b]; [cbn in H; discriminate|]. cbn in H.
  destruct (bc_rev a b) as [r|] eqn:E; [|discriminate].
  destruct (x =? y) eqn:E1; [apply Nat.eqb_eq in E1; subst|].
  - injection H as ->. destruct (IH b E) as (L & F). cbn. split; [lia|]. constructor; auto.
  - destruct (x =? 1) eqn:E2; [apply Nat.eqb_eq in E2; subst|].
    + injection H as ->. destruct (IH b E) as (L & F). cbn. split; [lia|]. constructor; auto.
    + destruct (y =? 1) eqn:E3; [|discriminate].
      injection H as -> _. rewrite Nat.eqb_refl in E1. discriminate.
Qed.

Lemma Forall2_rev {A B} (P : A -> B -> Prop) a b : Forall2 P a b -> Forall2 P (rev a) (rev b).
Proof.
  induction 1; cbn; [constructor|]. apply Forall2_app; auto.
Qed.

Lemma fits_rev b s : fits b s <->
  (length (rev b) <= length (rev s) /\
   Forall2 (fun m n => m = n \/ m = 1) (rev b) (firstn (length (rev b)) (rev s))).
Proof.
  unfold fits. rewrite !rev_length. split; intros (L & F); split; auto.
  - apply Forall2_rev in F. rewrite <- (rev_involutive s) at 1.
    rewrite firstn_rev, rev_involutive. exact F.
  - rewrite firstn_rev in F. apply Forall2_rev in F. rewrite !rev_involutive in F. exact F.
Qed.

Lemma fits_bc b s : fits b s <-> bc_rev (rev b) (rev s) = Some (rev s).
Proof.
  rewrite fits_rev. split.
  - intros (L & F). apply bc_rev_fits; auto.
  - intros H. apply bc_rev_left_inv; auto.
Qed.

Lemma bc_idx_rev_spec s : forall idx, length s <= length idx ->
  bc_idx_rev s idx =
  map (fun mi => if fst mi =? 1 then 0 else snd mi) (combine s (firstn (length s) idx)).
Proof.
  induction s as [|n s IH]; intros [|i idx] L; cbn in *; try reflexivity; try lia.
  f_equal. apply IH. lia.
Qed.

Lemma combine_rev {A B} (a : list A) : forall (b : list B), length a = length b ->
  combine (rev a) (rev b) = rev (combine a b).
Proof.
  induction a as [|x a IH]; intros [|y b] L; cbn in *; try reflexivity; try lia.
  rewrite <- IH by lia.
  assert (G : forall (u v : list A) (u' v' : list B), length u = length u' ->
     combine (u ++ v) (u' ++ v') = combine u u' ++ combine v v').
  { clear. induction u as [|p u IHu]; intros v [|q u'] v' H; cbn in *; try reflexivity; try lia.
    f_equal. apply IHu. lia. }
  rewrite G by (rewrite !rev_length; lia). reflexivity.
Qed.

Lemma bc_get_spec t idx : length (tshape t) <= length idx ->
  bc_get t idx = tget t (sample_index (tshape t) idx).
Proof.
  intros L. unfold bc_get, sample_index. f_equal.
  rewrite bc_idx_rev_spec by (rewrite !rev_length; exact L).
  rewrite rev_length, firstn_rev.
  rewrite combine_rev by (rewrite skipn_length; lia).
  rewrite <- map_rev, rev_involutive. reflexivity.
Qed.

Lemma valid_idx_F2 s idx : valid_idx s idx <-> Forall2 lt idx s.
Proof.
  revert idx. induction s as [|n s IH]; intros [|i idx]; cbn; split; intros H;
    try contradiction; try (inversion H; fail); try exact I.
  - constructor.
  - destruct H. constructor; [assumption|apply IH; assumption].
  - inversion H; subst. split; [assumption|apply IH; assumption].
Qed.

Lemma Forall2_skipn {A B} (P : A -> B -> Prop) n a b :
  Forall2 P a b -> Forall2 P (skipn n a) (skipn n b).
Proof.
  intros H. revert n. induction H; intros [|n]; cbn; auto.
Qed.

Lemma sample_index_valid b s idx : fits b s -> valid_idx s idx -> valid_idx b (sample_index b idx).
Proof.
  intros (L & F) V. apply valid_idx_F2 in V. apply valid_idx_F2. unfold sample_index.
  assert (LI : length idx = length s) by (clear -V; induction V; cbn; congruence).
  rewrite LI. apply (Forall2_skipn _ (length s - length b)) in V.
  remember (skipn (length s - length b) s) as s'. remember (skipn (length s - length b) idx) as i'.
  clear Heqs' Heqi' L LI. revert i' V. induction F as [|m n b s' H1 H2 IH]; intros i' V; [constructor|].
  inversion V as [|i ? i0 ? Hi HV]; subst. cbn. constructor; [|apply IH; auto].
  destruct (m =? 1) eqn:E; cbn; [apply Nat.eqb_eq in E; lia|].
  destruct H1 as [->| ->]; [exact Hi|discriminate].
Qed.

Lemma bc_self s : bc_rev s s = Some s.
Proof. induction s; cbn; [reflexivity|]. rewrite IHs, Nat.eqb_refl. reflexivity. Qed.

Lemma sample_index_self s idx : valid_idx s idx -> sample_index s idx = idx.
Proof.
  intros V. assert (L := valid_idx_length _ _ V). unfold sample_index.
  rewrite L, Nat.sub_diag. cbn. clear L. revert idx V.
  induction s as [|n s IH]; intros [|i idx] V; cbn in *; try contradiction; [reflexivity|].
  destruct V as (Hi & V). rewrite IH by exact V.
  destruct (n =? 1) eqn:E; [apply Nat.eqb_eq in E; f_equal; lia|reflexivity].
Qed.

Lemma tadd_fits b t s f :
  twf b -> fits (tshape b) s -> tensor_is t s f ->
  exists r, tadd b t = Ok r /\
    tensor_is r s (fun idx => (entry b (sample_index (tshape b) idx) + f idx)%R).
Proof.
  intros W F (S & WT & E). unfold tadd. rewrite S. rewrite (proj1 (fits_bc _ _) F), rev_involutive.
  eexists; split; [reflexivity|].
  assert (G : forall idx, valid_idx s idx ->
     bc_get b idx = Some (entry b (sample_index (tshape b) idx)) /\ bc_get t idx = Some (f idx)).
  { intros idx V. assert (L := valid_idx_length _ _ V). destruct F as (FL & FF). split.
    - rewrite bc_get_spec by lia. unfold entry.
      destruct (tget_some_wf b _ W (sample_index_valid _ _ _ (conj FL FF) V)) as (a & ->). reflexivity.
    - rewrite bc_get_spec by (rewrite S; lia). rewrite S, sample_index_self by exact V. apply E, V. }
  split; [reflexivity|]. split.
  - apply tgather_wf. intros idx V. destruct (G idx V) as (-> & ->). discriminate.
  - intros idx V. rewrite tget_gather; [destruct (G idx V) as (-> & ->); reflexivity | | exact V].
    intros i Vi. destruct (G i Vi) as (-> & ->). discriminate.
Qed.

(** Sizes. *)
Lemma size_right c n ps dim : right_kind c ps ->
  (is_vector c /\ vec_size n ps dim = Ok (wanted_size n ps dim)) \/
  (is_convolution c /\ conv_size n ps dim = Ok (wanted_size n ps dim)).
Proof. destruct ps; cbn; intros H; [left|right]; split; auto. Qed.

Lemma zero_ok self noise n ps dim :
  right_kind (i_cls self) ps ->
  exists t, create_parameters self noise n ps dim true None = Ok (Some t) /\
    tensor_is t (wanted_size n ps dim) (fun _ => 0%R).
Proof.
  intros K. exists (zeros (wanted_size n ps dim)). split; [|apply zeros_is].
  unfold create_parameters, create_zero_parameters; cbn.
  destruct (size_right _ n ps dim K) as [([E|E] & H)|([E|E] & H)]; rewrite E, H; reflexivity.
Qed.

Lemma constant_vec self noise n ps dim c :
  right_kind (i_cls self) ps -> is_vector (i_cls self) ->
  exists t, create_parameters self noise n ps dim false (Some c) = Ok (Some t) /\
    tensor_is t (wanted_size n ps dim) (fun _ => c).
Proof.
  intros K V. exists (constants c (wanted_size n ps dim)). split; [|apply constants_is].
  unfold create_parameters, create_constant_parameters; cbn.
  destruct ps; cbn in K.
  - destruct V as [E|E]; rewrite E; reflexivity.
  - destruct V as [E|E], K as [K|K]; congruence.
Qed.

Lemma constant_conv self noise n ps dim c :
  is_convolution (i_cls self) ->
  create_parameters self noise n ps dim false (Some c) = Raise AttributeError.
Proof. intros [E|E]; unfold create_parameters, create_constant_parameters; cbn; rewrite E; reflexivity. Qed.

Lemma random_plain self noise n ps dim :
  right_kind (i_cls self) ps -> i_cls self = CVec \/ i_cls self = CConv ->
  only_random self = true -> noise_ok noise ->
  exists t, create_parameters self noise n ps dim false None = Ok (Some t) /\
    tensor_is t (wanted_size n ps dim)
      (fun idx => (magnitude self * entry (noise (wanted_size n ps dim)) idx)%R).
Proof.
  intros K C O N. exists (randoms self noise (wanted_size n ps dim)).
  split; [|apply randoms_is, N].
  unfold create_parameters, create_random_parameters; cbn. rewrite O.
  destruct ps; cbn in K; destruct C as [E|E]; rewrite E in *; cbn;
    try reflexivity; destruct K; discriminate.
Qed.

Lemma random_sample self noise n ps dim b :
  right_kind (i_cls self) ps -> i_cls self = CVecSample \/ i_cls self = CConvSample ->
  only_random self = true -> noise_ok noise ->
  sample_batch self = Some b -> twf b -> fits (tshape b) (wanted_size n ps dim) ->
  exists t, create_parameters self noise n ps dim false None = Ok (Some t) /\
    tensor_is t (wanted_size n ps dim)
      (fun idx => (entry b (sample_index (tshape b) idx)
                   + magnitude self * entry (noise (wanted_size n ps dim)) idx)%R).
Proof.
  intros K C O N B W F.
  destruct (tadd_fits b _ _ _ W F (randoms_is self noise (wanted_size n ps dim) N)) as (r & A & T).
  exists r. split; [|exact T].
  unfold create_parameters, create_random_parameters; cbn. rewrite O.
  destruct ps; cbn in K; destruct C as [E|E]; rewrite E in *; cbn;
    unfold add_sample; rewrite ?B; try (destruct K; discriminate); unfold wanted_size in A;
    rewrite A; reflexivity.
Qed.

(** With a sample batch, the size is the one asked for exactly when the batch
    fits. *)
Lemma sample_size_iff self noise n ps dim b t :
  right_kind (i_cls self) ps -> i_cls self = CVecSample \/ i_cls self = CConvSample ->
  noise_ok noise -> sample_batch self = Some b ->
  create_parameters self noise n ps dim false None = Ok (Some t) ->
  (tshape t = wanted_size n ps dim <-> fits (tshape b) (wanted_size n ps dim)).
Proof.
  intros K C N B H. unfold create_parameters, create_random_parameters in H; cbn in H.
  destruct (only_random self); [|discriminate].
  assert (A : tadd b (randoms self noise (wanted_size n ps dim)) = Ok t).
  { destruct ps; cbn in K; destruct C as [E|E]; rewrite E in *; cbn in H;
      try (destruct K; discriminate); unfold add_sample in H; rewrite B in H;
      unfold wanted_size;
      match type of H with context[tadd b ?x] => destruct (tadd b x); cbn in H; congruence end. }
  unfold tadd in A.
  assert (S : tshape (randoms self noise (wanted_size n ps dim)) = wanted_size n ps dim)
    by (cbn; apply (N _)).
  rewrite S in A. rewrite fits_bc.
  destruct (bc_rev (rev (tshape b)) (rev (wanted_size n ps dim))) as [r|] eqn:E; [|discriminate].
  injection A as <-. cbn [tshape tgather]. split; intros G.
  - rewrite <- G, rev_involutive. reflexivity.
  - assert (G' : r = rev (wanted_size n ps dim)) by congruence. rewrite G'. apply rev_involutive.
Qed.

Lemma no_sample self noise n ps dim :
  right_kind (i_cls self) ps -> i_cls self = CVecSample \/ i_cls self = CConvSample ->
  only_random self = true -> sample_batch self = None ->
  create_parameters self noise n ps dim false None = Raise TypeError.
Proof.
  intros K C O B. unfold create_parameters, create_random_parameters; cbn. rewrite O.
  destruct ps; cbn in K; destruct C as [E|E]; rewrite E in *; cbn;
    unfold add_sample; rewrite ?B; try reflexivity; destruct K; discriminate.
Qed.

Lemma errors self noise n ps dim size like c :
  create_parameters self noise n ps dim true (Some c) = Raise ValueError /\
  create_parameters_of_size self noise size true (Some c) = Raise ValueError /\
  create_parameters_like self noise like true (Some c) = Raise ValueError /\
  (only_random self = false ->
   create_parameters self noise n ps dim false None = Raise ValueError /\
   create_parameters_of_size self noise size false None = Raise ValueError /\
   create_parameters_like self noise like false None = Raise ValueError).
Proof.
  repeat split; try reflexivity; unfold create_parameters, create_parameters_of_size,
    create_parameters_like; cbn; rewrite H; reflexivity.
Qed.

Lemma wrong_kind self noise n ps dim :
  (is_vector (i_cls self) \/ is_convolution (i_cls self)) ->
  ~ right_kind (i_cls self) ps ->
  create_parameters self noise n ps dim true None =
    Raise (match ps with PNum _ => ValueError | PSeq _ => TypeError end) /\
  (only_random self = true ->
   create_parameters self noise n ps dim false None =
     Raise (match ps with PNum _ => ValueError | PSeq _ => TypeError end)).
Proof.
  intros V K. unfold create_parameters, create_zero_parameters, create_random_parameters; cbn.
  destruct ps; cbn in K.
  - destruct V as [V|[E|E]]; [contradiction| |]; rewrite E; cbn; split; auto; intros ->; reflexivity.
  - destruct V as [[E|E]|V]; [| |contradiction]; rewrite E; cbn; split; auto; intros ->; reflexivity.
Qed.

Lemma of_size_ok self noise size :
  noise_ok noise ->
  (exists t, create_parameters_of_size self noise size true None = Ok t /\
     tensor_is t size (fun _ => 0%R)) /\
  (forall c, exists t, create_parameters_of_size self noise size false (Some c) = Ok t /\
     tensor_is t size (fun _ => c)) /\
  (only_random self = true ->
   exists t, create_parameters_of_size self noise size false None = Ok t /\
     tensor_is t size (fun idx => (magnitude self * entry (noise size) idx)%R)).
Proof.
  intros N. split; [|split].
  - eexists; split; [reflexivity|apply zeros_is].
  - intros c. eexists; split; [reflexivity|apply constants_is].
  - intros O. unfold create_parameters_of_size; cbn. rewrite O.
    eexists; split; [reflexivity|apply randoms_is, N].
Qed.

Lemma like_of_size self noise like z c :
  create_parameters_like self noise like z c =
  create_parameters_of_size self noise (tshape like) z c.
Proof. reflexivity. Qed.

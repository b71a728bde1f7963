(** Stacking recorded arrays, and taking them apart again. *)
From Coq Require Import String Ascii List Arith Bool Reals Lia.
From Verif Require Import Base Tensor TensorFacts InitModel InitSpec InitProofs HooksModel FigureModel VizModel VizSpec.
Import ListNotations.
Open Scope nat_scope.
Open Scope list_scope.

Lemma assigned_same v idx : valid_idx (tshape v) idx -> assigned v idx = tget v idx.
Proof.
  intros V. pose proof (valid_idx_length _ _ V) as L. unfold assigned. rewrite rev_length, L.
  rewrite <- (rev_length (tshape v)), firstn_all, Nat.sub_diag. cbn [repeat]. rewrite app_nil_r.
  change (tget v (rev (bc_idx_rev (rev (tshape v)) (rev idx)))) with (bc_get v idx).
  rewrite bc_get_spec, sample_index_self by (assumption || lia). reflexivity.
Qed.

Lemma assignable_same s : assignable_rev s s = true.
Proof.
  induction s as [|n s IH]; [reflexivity|].
  assert (X : assignable_rev (n :: s) (n :: s) = ((n =? n) || (n =? 1)) && assignable_rev s s)
    by (destruct n as [|[|n]]; reflexivity).
  rewrite X, IH, Nat.eqb_refl. reflexivity.
Qed.

Lemma stack_ok s l : l <> [] -> (forall v, In v l -> tshape v = s /\ twf v) ->
  exists a, convert_list_of_np_arrays_into_np_array l = Ok a /\ stack_of s l a.
Proof.
  intros NE H. destruct l as [|v0 l]; [congruence|]. set (L := v0 :: l) in *.
  pose proof (H v0 (or_introl eq_refl)) as [S0 _].
  unfold convert_list_of_np_arrays_into_np_array. unfold L at 1. rewrite S0.
  rewrite (proj2 (forallb_forall _ L)).
  2: { intros v I. rewrite (proj1 (H v I)). apply assignable_same. }
  eexists. split; [reflexivity|].
  assert (G : forall i v idx, nth_error L i = Some v -> valid_idx s idx ->
    assigned v idx = tget v idx /\ tget v idx <> None).
  { intros i v idx N V. destruct (H v (nth_error_In _ _ N)) as [Sv W].
    rewrite <- Sv in V. split; [apply assigned_same; exact V|].
    destruct (tget_valid v idx W V) as [x ->]. discriminate. }
  assert (T : forall idx, valid_idx (List.length L :: s) idx ->
    match idx with n :: idx' => match nth_error L n with Some v => assigned v idx' | None => None end | [] => None end <> None).
  { intros [|i idx]; [contradiction|]. intros [I V]. destruct (nth_error L i) as [v|] eqn:N.
    - destruct (G i v idx N V) as [-> X]. exact X.
    - apply nth_error_None in N. lia. }
  split; [reflexivity|]. split; [apply tgather_wf; exact T|].
  intros i v idx N V. rewrite tget_gather; [|exact T|].
  - rewrite N. apply (G i v idx N V).
  - split; [apply (nth_error_lt _ _ _ N)|exact V].
Qed.

Lemma stack_empty : convert_list_of_np_arrays_into_np_array [] = Raise IndexError.
Proof. reflexivity. Qed.

Lemma slice_stack s l a i v : (forall v, In v l -> tshape v = s /\ twf v) -> stack_of s l a ->
  nth_error l i = Some v -> slice i a = Ok v.
Proof.
  intros H (Sa & Wa & Ga) N. unfold slice. rewrite Sa.
  rewrite (proj2 (Nat.ltb_lt _ _) (nth_error_lt _ _ _ N)). f_equal.
  destruct (H v (nth_error_In _ _ N)) as [Sv Wv].
  assert (T : forall idx, valid_idx s idx -> tget a (i :: idx) <> None).
  { intros idx V. rewrite (Ga i v idx N V). rewrite <- Sv in V.
    destruct (tget_valid v idx Wv V) as [x ->]. discriminate. }
  apply tensor_ext; [apply tgather_wf; exact T|exact Wv|cbn; congruence|].
  intros idx V. cbn [tshape tgather] in V. rewrite tget_gather by assumption. apply (Ga i v idx N V).
Qed.

Lemma mapM_slices s l a n : (forall v, In v l -> tshape v = s /\ twf v) -> stack_of s l a -> n <= List.length l ->
  mapM (fun i => slice i a) (seq 0 n) = Ok (firstn n l).
Proof.
  intros H St. induction n as [|n IH]; intros L; [reflexivity|].
  assert (A : forall (f : nat -> result (tensor R)) x y u v w, mapM f x = Ok u -> f y = Ok v -> w = u ++ [v] -> mapM f (x ++ [y]) = Ok w).
  { intros f x y. induction x as [|z x IHx]; intros u v w; cbn [app mapM].
    - intros [= <-] E ->. cbn. rewrite E. reflexivity.
    - destruct (f z) as [fz|]; cbn [bind]; [|discriminate]. destruct (mapM f x) as [r|] eqn:E; cbn [bind]; [|discriminate].
      intros [= <-] Ey ->. rewrite (IHx r v (r ++ [v]) eq_refl Ey eq_refl). reflexivity. }
  destruct (nth_error l n) as [v|] eqn:N; [|apply nth_error_None in N; lia].
  rewrite seq_S. apply A with (u := firstn n l) (v := v).
  - apply IH. lia.
  - apply (slice_stack s l); assumption.
  - clear - N. revert n N. induction l as [|x l IHl]; intros [|n] N; try discriminate.
    + injection N as ->. reflexivity.
    + cbn [firstn app]. f_equal. apply IHl. exact N.
Qed.

Lemma rows_stack s l a n : (forall v, In v l -> tshape v = s /\ twf v) -> stack_of s l a -> n <= List.length l ->
  rows_until n a = Ok (firstn n l).
Proof.
  intros H St L. unfold rows_until. rewrite (proj1 St). rewrite Nat.min_l by exact L. apply (mapM_slices s); assumption.
Qed.

(** Arrays that cannot be repeated to the shape of the first are rejected. *)
Lemma assignable_fits v : forall s, List.length v = List.length s -> assignable_rev v s = true ->
  Forall2 (fun m n => m = n \/ m = 1) v s.
Proof.
  induction v as [|n v IH]; intros [|m s] L; try discriminate; [constructor|].
  assert (X : assignable_rev (n :: v) (m :: s) = ((n =? m) || (n =? 1)) && assignable_rev v s)
    by (destruct n as [|[|n]]; reflexivity).
  rewrite X, andb_true_iff, orb_true_iff, !Nat.eqb_eq. intros [H R]. constructor; [exact H|].
  apply IH; [|exact R]. injection L as L. exact L.
Qed.

Lemma stack_rejects v0 l v : In v l -> List.length (tshape v) = List.length (tshape v0) ->
  ~ Forall2 (fun m n => m = n \/ m = 1) (tshape v) (tshape v0) ->
  convert_list_of_np_arrays_into_np_array (v0 :: l) = Raise ValueError.
Proof.
  intros I L N. unfold convert_list_of_np_arrays_into_np_array.
  destruct (forallb _ _) eqn:E; [|reflexivity]. exfalso. apply N.
  pose proof (proj1 (forallb_forall _ _) E v (or_intror I)) as A.
  apply assignable_fits in A; [|rewrite !rev_length; exact L].
  apply Forall2_rev in A. rewrite !rev_involutive in A. exact A.
Qed.

(** ** Arrays of different shapes *)
Lemma assignable_iff v : forall s, assignable_rev v s = true <-> repeatable v s.
Proof.
  induction v as [|n v IH]; intros s; [split; auto; intros _; constructor|].
  destruct s as [|m s].
  - destruct n as [|[|n]]; cbn [assignable_rev].
    + split; [discriminate|]. intros H. inversion H.
    + rewrite IH. split; [intros H; constructor; exact H|]. intros H. inversion H; subst. assumption.
    + split; [discriminate|]. intros H. inversion H.
  - assert (X : assignable_rev (n :: v) (m :: s) = ((n =? m) || (n =? 1)) && assignable_rev v s) by (destruct n as [|[|n]]; reflexivity).
    rewrite X, andb_true_iff, orb_true_iff, !Nat.eqb_eq, IH. split.
    + intros [[->| ->] H]; [apply repeatable_same|apply repeatable_one]; exact H.
    + intros H. inversion H; subst; auto.
Qed.

Lemma repeats_index v s idx j : repeats v s idx j -> Forall2 lt idx s ->
  j = bc_idx_rev (firstn (List.length idx) v) idx ++ repeat 0 (List.length v - List.length idx) /\ Forall2 lt j v.
Proof.
  induction 1 as [s idx|v j H IH|v m s i idx j H IH|v m s i idx j H IH]; intros F.
  - rewrite firstn_nil. cbn. split; [destruct idx; reflexivity|constructor].
  - destruct (IH F) as [E V]. cbn in *. split; [|constructor; auto]. f_equal. rewrite E. rewrite Nat.sub_0_r. destruct v; reflexivity.
  - inversion F; subst. destruct (IH H5) as [E V]. cbn. split; [f_equal; exact E|constructor; auto].
  - inversion F; subst. destruct (IH H5) as [E V]. cbn. split; [|constructor; auto].
    destruct m as [|[|m]]; [lia| |]; cbn.
    + assert (i = 0) as -> by lia. f_equal. exact E.
    + f_equal. exact E.
Qed.

Lemma repeatable_repeats v s : repeatable v s -> forall idx, List.length idx = List.length s -> exists j, repeats v s idx j.
Proof.
  induction 1 as [s|v H IH|v m s H IH|v m s H IH]; intros idx L.
  - exists []. constructor.
  - destruct idx; [|discriminate]. destruct (IH [] eq_refl) as [j J]. exists (0 :: j). constructor. exact J.
  - destruct idx as [|i idx]; [discriminate|]. destruct (IH idx) as [j J]; [cbn in L; lia|]. exists (0 :: j). constructor. exact J.
  - destruct idx as [|i idx]; [discriminate|]. destruct (IH idx) as [j J]; [cbn in L; lia|]. exists (i :: j). constructor. exact J.
Qed.

Lemma valid_iff s : forall idx, valid_idx s idx <-> Forall2 lt idx s.
Proof.
  induction s as [|n s IH]; intros [|i idx]; cbn; split; intros H; auto; try contradiction; try (inversion H; fail).
  - destruct H as [A B]. constructor; auto. apply IH. exact B.
  - inversion H; subst. split; auto. apply IH. auto.
Qed.

Lemma assigned_repeats v s idx j : valid_idx s idx -> repeats (rev (tshape v)) (rev s) (rev idx) (rev j) ->
  assigned v idx = tget v j /\ valid_idx (tshape v) j.
Proof.
  intros V R. apply valid_iff in V. apply Forall2_rev in V. destruct (repeats_index _ _ _ _ R V) as [E F].
  unfold assigned. rewrite rev_length in E. rewrite <- E, rev_involutive. split; [reflexivity|].
  apply valid_iff. apply Forall2_rev in F. rewrite !rev_involutive in F. exact F.
Qed.

Lemma stack_mixed v0 l : (forall v, In v (v0 :: l) -> twf v /\ repeatable (rev (tshape v)) (rev (tshape v0))) ->
  exists a, convert_list_of_np_arrays_into_np_array (v0 :: l) = Ok a
    /\ tshape a = S (List.length l) :: tshape v0 /\ twf a
    /\ forall i v idx, nth_error (v0 :: l) i = Some v -> valid_idx (tshape v0) idx ->
         exists j, repeats (rev (tshape v)) (rev (tshape v0)) (rev idx) (rev j) /\ tget a (i :: idx) = tget v j /\ tget v j <> None.
Proof.
  intros H. unfold convert_list_of_np_arrays_into_np_array. rewrite (proj2 (forallb_forall _ (v0 :: l))).
  2: { intros v I. apply assignable_iff. apply (H v I). }
  set (L := v0 :: l) in *. set (s := tshape v0) in *.
  assert (G : forall i v idx, nth_error L i = Some v -> valid_idx s idx ->
    exists j, repeats (rev (tshape v)) (rev s) (rev idx) (rev j) /\ assigned v idx = tget v j /\ tget v j <> None).
  { intros i v idx N V. destruct (H v (nth_error_In _ _ N)) as [W F].
    destruct (repeatable_repeats _ _ F (rev idx)) as [j J].
    { rewrite !rev_length. apply (valid_idx_length _ _ V). }
    exists (rev j). rewrite rev_involutive. split; [exact J|]. rewrite <- (rev_involutive j) in J.
    destruct (assigned_repeats v s idx (rev j) V J) as [E Vj]. split; [exact E|].
    destruct (tget_valid v _ W Vj) as [x ->]. discriminate. }
  assert (T : forall idx, valid_idx (List.length L :: s) idx ->
    match idx with n :: idx' => match nth_error L n with Some v => assigned v idx' | None => None end | [] => None end <> None).
  { intros [|i idx]; [contradiction|]. intros [I V]. destruct (nth_error L i) as [v|] eqn:N.
    - destruct (G i v idx N V) as [j [_ [-> X]]]. exact X.
    - apply nth_error_None in N. lia. }
  eexists. split; [reflexivity|]. split; [reflexivity|]. split; [apply tgather_wf; exact T|].
  intros i v idx N V. destruct (G i v idx N V) as [j [J [E X]]]. exists j. split; [exact J|]. split; [|exact X].
  rewrite tget_gather; [|exact T|].
  - rewrite N. exact E.
  - split; [apply (nth_error_lt _ _ _ N)|exact V].
Qed.

Lemma stack_mixed_rejects v0 l v : In v l -> ~ repeatable (rev (tshape v)) (rev (tshape v0)) ->
  convert_list_of_np_arrays_into_np_array (v0 :: l) = Raise ValueError.
Proof.
  intros I N. unfold convert_list_of_np_arrays_into_np_array. destruct (forallb _ _) eqn:E; [|reflexivity].
  exfalso. apply N. apply assignable_iff. apply (proj1 (forallb_forall _ _) E v (or_intror I)).
Qed.

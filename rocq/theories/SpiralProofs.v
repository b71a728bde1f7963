(** Proofs about chunking and sampling. *)
From Coq Require Import List ZArith Bool Lia.
From Verif Require Import Base BaseFacts SpiralModel SpiralSpec.
Import ListNotations.

(** *** The index ranges of the chunks *)
Inductive path (n : nat) : nat -> list (nat * nat) -> Prop :=
| path_end a : a + 2 <= n -> path n a [(a, n)]
| path_step a b bs : a + 2 <= b -> b < n -> path n (b - 1) bs -> path n a ((a, b) :: bs).

Definition piece {T} (from_zero : bool) (t : list T) (ab : nat * nat) : list T :=
  if from_zero then slice 0 (snd ab - fst ab) t else slice (fst ab) (snd ab) t.

Lemma chunk_loop_path {T} (t : list T) c : 2 <= c -> forall fuel cur,
  cur + 2 <= List.length t -> List.length t - cur <= fuel ->
  exists bs, path (List.length t) cur bs /\
    forall fz, chunk_loop fuel t c fz cur = Some (map (piece fz t) bs).
Proof.
  intros Hc. induction fuel as [|fuel IH]; intros cur H F; [lia|].
  cbn [chunk_loop]. destruct (Nat.leb_spec (List.length t) (cur + c)) as [L|L].
  - exists [(cur, List.length t)]. split; [constructor; exact H|]. intros []; reflexivity.
  - destruct (IH (cur + c - 1)) as [bs [P E]]; [lia|lia|].
    exists ((cur, cur + c) :: bs). split; [constructor; auto; lia|].
    intro fz. rewrite E. destruct fz; reflexivity.
Qed.

Lemma chunk_one_diverges {T} (t : list T) fz : 2 <= List.length t ->
  forall fuel, chunk_loop fuel t 1 fz 0 = None.
Proof.
  intro H. induction fuel as [|fuel IH]; auto. cbn [chunk_loop].
  destruct (Nat.leb_spec (List.length t) (0 + 1)); [lia|].
  change (0 + 1 - 1) with 0. rewrite IH. reflexivity.
Qed.

Lemma path_bounds n a bs : path n a bs -> a + 2 <= n.
Proof. induction 1; lia. Qed.

Lemma slice_length {A} a b (l : list A) : b <= List.length l -> List.length (slice a b l) = b - a.
Proof. intro H. unfold slice. rewrite firstn_length, skipn_length. lia. Qed.

Lemma piece_length {T} fz (t : list T) a b : a <= b -> b <= List.length t ->
  List.length (piece fz t (a, b)) = b - a.
Proof.
  intros H L. unfold piece. cbn [fst snd]. destruct fz; rewrite slice_length; lia.
Qed.

Lemma path_pieces n a bs : path n a bs -> forall ab, In ab bs -> fst ab + 2 <= snd ab <= n.
Proof.
  induction 1; intros ab [<-|I]; cbn [fst snd]; try lia; [destruct I|auto].
Qed.

Lemma skipn_nth {A} k (l : list A) d : k < List.length l -> skipn k l = nth k l d :: skipn (S k) l.
Proof.
  revert l. induction k as [|k IH]; intros [|x l] H; simpl in *; try lia; auto. apply IH. lia.
Qed.

Lemma firstn_snoc {A} k (l : list A) d : k < List.length l ->
  firstn (S k) l = firstn k l ++ [nth k l d].
Proof.
  revert l. induction k as [|k IH]; intros [|x l] H; simpl in *; try lia; auto.
  f_equal. apply IH. lia.
Qed.

Lemma nth_skipn' {A} k i (l : list A) d : nth i (skipn k l) d = nth (k + i) l d.
Proof.
  revert l. induction k as [|k IH]; intros [|x l]; simpl; auto. destruct i; auto.
Qed.

Lemma nth_firstn' {A} n k (l : list A) d : k < n -> nth k (firstn n l) d = nth k l d.
Proof.
  revert k l. induction n as [|n IH]; intros k [|x l] H; simpl; try lia; auto.
  destruct k; auto. apply IH. lia.
Qed.

Lemma slice_snoc {A} a b (l : list A) d : a < b -> b <= List.length l ->
  slice a b l = slice a (b - 1) l ++ [nth (b - 1) l d].
Proof.
  intros H L. unfold slice. replace (b - a) with (S (b - 1 - a)) by lia.
  rewrite (firstn_snoc _ _ d) by (rewrite skipn_length; lia). f_equal. f_equal.
  rewrite nth_skipn'. f_equal. lia.
Qed.

Lemma slice_cons {A} a b (l : list A) d : a < b -> b <= List.length l ->
  slice a b l = nth a l d :: slice (S a) b l.
Proof.
  intros H L. unfold slice. rewrite (skipn_nth a l d) by lia.
  replace (b - a) with (S (b - S a)) by lia. reflexivity.
Qed.

Lemma slice_skipn {A} a (l : list A) : slice a (List.length l) l = skipn a l.
Proof. unfold slice. apply firstn_all2. rewrite skipn_length. lia. Qed.

Lemma skipn_skipn' {A} m n (l : list A) : skipn m (skipn n l) = skipn (n + m) l.
Proof. revert l. induction n as [|n IH]; intros [|x l]; simpl; auto. apply skipn_nil. Qed.

Lemma slice_app_skipn {A} a b (l : list A) : a <= b -> slice a b l ++ skipn b l = skipn a l.
Proof.
  intro H. unfold slice. rewrite <- (firstn_skipn (b - a) (skipn a l)) at 2. f_equal.
  rewrite skipn_skipn'. f_equal. lia.
Qed.

(** Unshifted chunks link and cover the times. *)
Lemma path_linked {T} (t : list T) a bs : path (List.length t) a bs ->
  linked (map (piece false t) bs) /\ glue (map (piece false t) bs) = skipn a t.
Proof.
  induction 1 as [a H|a b bs H L P [IH1 IH2]]; cbn [map]; unfold piece at 1; cbn [fst snd].
  - split; [constructor|]. simpl. rewrite app_nil_r. unfold piece. cbn [fst snd]. apply slice_skipn.
  - destruct t as [|d t'] eqn:Et; [simpl in L; lia|]. rewrite <- Et in *. clear Et t'.
    assert (Q : exists b1 bs', bs = (b - 1, b1) :: bs' /\ b - 1 < b1 <= List.length t).
    { inversion P; subst; do 2 eexists; (split; [reflexivity|]); lia. }
    destruct Q as [b1 [bs' [-> Hb1]]].
    assert (E : piece false t (b - 1, b1) = nth (b - 1) t d :: slice b b1 t).
    { unfold piece. cbn [fst snd]. rewrite (slice_cons _ _ t d) by lia.
      f_equal. f_equal. lia. }
    split.
    + cbn [map] in *. rewrite E in *. apply linked_cons with (a := slice a (b - 1) t); auto.
      apply slice_snoc; lia.
    + cbn [map glue concat] in *. unfold piece at 1. cbn [fst snd].
      rewrite E in *. cbn [tl]. 
      rewrite <- (slice_app_skipn a b t) by lia. f_equal.
      assert (Z : tl (skipn (b - 1) t) = skipn b t).
      { rewrite (skipn_nth (b - 1) t d) by lia. cbn [tl]. f_equal. lia. }
      rewrite <- Z, <- IH2. reflexivity.
Qed.

Lemma get_chunks_path {T} (t : list T) chunk_time fuel :
  2 <= List.length t -> (2 <= chunk_time \/ chunk_time <= 0)%Z -> List.length t <= fuel ->
  exists bs, path (List.length t) 0 bs /\
    forall fz, get_time_chunks fuel t chunk_time fz = Some (map (piece fz t) bs).
Proof.
  intros H C F. unfold get_time_chunks. destruct (Z.leb_spec chunk_time 0) as [L|L].
  - exists [(0, List.length t)]. split; [constructor; lia|]. intros fz.
    replace (map (piece fz t) [(0, List.length t)]) with [t]; auto. cbn [map]. unfold piece.
    cbn [fst snd]. rewrite Nat.sub_0_r. destruct fz; rewrite slice_skipn; reflexivity.
  - apply chunk_loop_path; try lia.
Qed.

Lemma chunks_cover {T} (t : list T) chunk_time fuel :
  2 <= List.length t -> (2 <= chunk_time \/ chunk_time <= 0)%Z -> List.length t <= fuel ->
  exists chunks, get_time_chunks fuel t chunk_time false = Some chunks /\
    glue chunks = t /\ linked chunks /\ Forall (fun c => 2 <= List.length c) chunks /\
    get_time_chunks fuel t chunk_time true =
      Some (map (fun c => firstn (List.length c) t) chunks).
Proof.
  intros H C F. destruct (get_chunks_path t chunk_time fuel H C F) as [bs [P E]].
  exists (map (piece false t) bs). rewrite !E. destruct (path_linked t 0 bs P) as [L1 L2].
  split; [reflexivity|]. split; [exact L2|]. split; [exact L1|]. split.
  - apply Forall_forall. intros c Hc. apply in_map_iff in Hc. destruct Hc as [[a b] [<- I]].
    apply (path_pieces _ _ _ P) in I. cbn [fst snd] in I. rewrite piece_length; lia.
  - f_equal. rewrite map_map. apply map_ext_in. intros [a b] I.
    apply (path_pieces _ _ _ P) in I. cbn [fst snd] in I. rewrite piece_length by lia.
    unfold piece, slice. cbn [fst snd skipn]. rewrite Nat.sub_0_r. reflexivity.
Qed.

(** *** Validation *)
Section Validate.
Variables T X : Type.
Variable solve : list T -> X -> list X.
Hypothesis solve_length : forall c x, List.length (solve c x) = List.length c.

Lemma last_ne {A} (l : list A) d d' : l <> [] -> last l d = last l d'.
Proof.
  induction l as [|x l IH]; [congruence|]. intros _. destruct l as [|y l]; auto.
  change (last (y :: l) d = last (y :: l) d'). apply IH. discriminate.
Qed.

Lemma removelast_length {A} (l : list A) : List.length (removelast l) = List.length l - 1.
Proof.
  induction l as [|x l IH]; auto. destruct l as [|y l]; auto.
  change (S (List.length (removelast (y :: l))) = S (List.length (y :: l)) - 1).
  rewrite IH. simpl. lia.
Qed.

Lemma chain_cons x c c' cs : chain solve x (c :: c' :: cs) =
  removelast (solve c x) ++ chain solve (last (solve c x) x) (c' :: cs).
Proof. reflexivity. Qed.

Lemma path_cons n a bs : path n a bs -> exists b bs', bs = (a, b) :: bs'.
Proof. inversion 1; eauto. Qed.

Lemma chain_length (t : list T) fz a bs : path (List.length t) a bs -> forall x,
  List.length (chain solve x (map (piece fz t) bs)) = List.length t - a.
Proof.
  induction 1 as [a H|a b bs H L P IH]; intro x.
  - cbn [map chain]. rewrite solve_length, piece_length; lia.
  - destruct (path_cons _ _ _ P) as [b1 [bs' ->]]. cbn [map] in *. rewrite chain_cons.
    rewrite app_length, IH, removelast_length, solve_length, piece_length; lia.
Qed.

Lemma validate_path (t : list T) fz a bs : path (List.length t) a bs ->
  forall y0 (first : bool) (v : list X) x, List.length v = List.length t ->
  (if first then x = y0 else nth_error v a = Some x) ->
  validate_loop solve (map (piece fz t) bs) y0 first a v =
  Ok (firstn a v ++ chain solve x (map (piece fz t) bs)).
Proof.
  induction 1 as [a H|a b bs H L P IH]; intros y0 first v x Lv Hx.
  - cbn [map validate_loop chain].
    replace (if first then Ok y0 else list_item v a) with (Ok x)
      by (destruct first; [congruence|unfold list_item; rewrite Hx; reflexivity]).
    cbn [bind]. unfold write. rewrite solve_length, piece_length by lia. rewrite Lv.
    rewrite Nat.min_id, Nat.eqb_refl. cbn [bind]. rewrite skipn_all2 by lia. rewrite app_nil_r.
    reflexivity.
  - cbn [map validate_loop].
    replace (if first then Ok y0 else list_item v a) with (Ok x)
      by (destruct first; [congruence|unfold list_item; rewrite Hx; reflexivity]).
    cbn [bind]. unfold write. rewrite solve_length, piece_length by lia. rewrite Lv.
    replace (Nat.min (b - a) (List.length t - a)) with (b - a) by lia.
    rewrite Nat.eqb_refl. cbn [bind]. replace (a + (b - a)) with b by lia.
    set (rows := solve (piece fz t (a, b)) x).
    assert (Lr : List.length rows = b - a) by (unfold rows; rewrite solve_length, piece_length; lia).
    assert (Er : rows = removelast rows ++ [last rows x]).
    { apply app_removelast_last. intro Z. rewrite Z in Lr. simpl in Lr. lia. }
    assert (La : List.length (firstn a v) = a) by (rewrite firstn_length; lia).
    assert (Lrl : List.length (removelast rows) = b - 1 - a) by (rewrite removelast_length; lia).
    rewrite (IH y0 false _ (last rows x)).
    + f_equal. destruct (path_cons _ _ _ P) as [b1 [bs' ->]]. cbn [map]. rewrite chain_cons.
      fold rows. rewrite (app_assoc (firstn a v) (removelast rows)). f_equal.
      rewrite Er at 1. rewrite <- !app_assoc. rewrite app_assoc.
      rewrite firstn_app. rewrite (firstn_all2 (n := b - 1)) by (rewrite app_length; lia).
      replace (b - 1 - List.length (firstn a v ++ removelast rows)) with 0
        by (rewrite app_length; lia).
      simpl. apply app_nil_r.
    + rewrite !app_length, skipn_length. lia.
    + rewrite Er. rewrite <- !app_assoc. rewrite app_assoc.
      rewrite nth_error_app2 by (rewrite app_length; lia).
      replace (b - 1 - List.length (firstn a v ++ removelast rows)) with 0
        by (rewrite app_length; lia). rewrite <- Er. reflexivity.
Qed.

Lemma validation_filled zero (t : list T) y0 chunk_time fz fuel :
  2 <= List.length t -> (2 <= chunk_time \/ chunk_time <= 0)%Z -> List.length t <= fuel ->
  exists chunks, get_time_chunks fuel t chunk_time fz = Some chunks /\
    compute_validation_data solve zero fuel t y0 true chunk_time fz
      = Some (Ok (chain solve y0 chunks)) /\
    List.length (chain solve y0 chunks) = List.length t.
Proof.
  intros H C F. destruct (get_chunks_path t chunk_time fuel H C F) as [bs [P E]].
  exists (map (piece fz t) bs). split; [apply E|]. unfold compute_validation_data. rewrite E. split.
  - rewrite (validate_path t fz 0 bs P y0 true _ y0); auto. rewrite repeat_length. reflexivity.
  - rewrite (chain_length t fz 0 bs P). lia.
Qed.
End Validate.

(** *** Chunking an exact flow *)
Section Flow.
Variables T X : Type.
Variable phi : T -> T -> X -> X.
Hypothesis phi_refl : forall a x, phi a a x = x.
Hypothesis phi_trans : forall a b c x, phi b c (phi a b x) = phi a c x.

Notation flow_solve := (flow_solve T X phi).

Lemma flow_solve_length c x : List.length (flow_solve c x) = List.length c.
Proof. destruct c; auto. unfold flow_solve. apply map_length. Qed.

(** Shifting a piece of the grid to its start does not matter for a flow that only depends on
    index differences. *)
Definition shift_invariant (t : list T) : Prop :=
  forall d x i j, i + j < List.length t ->
    phi (nth 0 t d) (nth j t d) x = phi (nth i t d) (nth (i + j) t d) x.

Lemma flow_piece (t : list T) d fz a b x : (fz = true -> shift_invariant t) ->
  a < b -> b <= List.length t ->
  flow_solve (piece fz t (a, b)) x = map (fun s => phi (nth a t d) s x) (slice a b t).
Proof.
  intros S H L. destruct fz; unfold piece; cbn [fst snd].
  - specialize (S eq_refl). apply (nth_ext _ _ (phi (nth 0 t d) d x) (phi (nth a t d) d x)).
    + rewrite flow_solve_length, map_length, !slice_length; lia.
    + intros j Hj. rewrite flow_solve_length, slice_length in Hj by lia.
      unfold flow_solve. rewrite (slice_cons 0 _ t d) by lia.
      rewrite (map_nth (fun s => phi (nth 0 t d) s x)), (map_nth (fun s => phi (nth a t d) s x)).
      rewrite <- (slice_cons 0 _ t d) by lia.
      assert (N : forall u w k, k < w - u -> w <= List.length t ->
                  nth k (slice u w t) d = nth (u + k) t d).
      { intros u w k Hk Hw. unfold slice.
        rewrite nth_firstn' by exact Hk. apply nth_skipn'. }
      rewrite !N by lia. apply S. lia.
  - rewrite (slice_cons a b t d) by lia. reflexivity.
Qed.

Lemma last_map_slice {B} (g : T -> B) a b (t : list T) d x : a < b -> b <= List.length t ->
  last (map g (slice a b t)) x = g (nth (b - 1) t d).
Proof.
  intros H L. rewrite (slice_snoc a b t d) by lia. rewrite map_app. cbn [map].
  apply last_last.
Qed.

Lemma flow_chain (t : list T) d fz a bs : (fz = true -> shift_invariant t) ->
  path (List.length t) a bs -> forall y0,
  chain flow_solve (phi (nth 0 t d) (nth a t d) y0) (map (piece fz t) bs) =
  map (fun s => phi (nth 0 t d) s y0) (skipn a t).
Proof.
  intros S P y0. induction P as [a H|a b bs H L P IH].
  - cbn [map chain]. rewrite (flow_piece t d) by (auto; lia). rewrite slice_skipn.
    apply map_ext. intro. apply phi_trans.
  - destruct (path_cons _ _ _ P) as [b1 [bs' ->]]. cbn [map]. rewrite chain_cons.
    rewrite (flow_piece t d) by (auto; lia).
    assert (E : map (fun s => phi (nth a t d) s (phi (nth 0 t d) (nth a t d) y0)) (slice a b t)
                = map (fun s => phi (nth 0 t d) s y0) (slice a b t)).
    { apply map_ext. intro. apply phi_trans. }
    rewrite E. rewrite (last_map_slice _ a b t d) by lia.
    cbn [map] in IH. rewrite IH.
    rewrite (slice_snoc a b t d) by lia. rewrite map_app. cbn [map].
    rewrite removelast_last, <- map_app. f_equal. apply slice_app_skipn. lia.
Qed.

Lemma chunked_equals_direct zero (t : list T) y0 chunk_time fz fuel :
  2 <= List.length t -> (2 <= chunk_time \/ chunk_time <= 0)%Z -> List.length t <= fuel ->
  (fz = true -> shift_invariant t) ->
  compute_validation_data flow_solve zero fuel t y0 true chunk_time fz =
  compute_validation_data flow_solve zero fuel t y0 false chunk_time fz.
Proof.
  intros H C F S. destruct (get_chunks_path t chunk_time fuel H C F) as [bs [P E]].
  unfold compute_validation_data. rewrite E. f_equal.
  rewrite (validate_path T X flow_solve flow_solve_length t fz 0 bs P y0 true _ y0); auto.
  2: apply repeat_length.
  f_equal. cbn [firstn app]. destruct t as [|d t'] eqn:Et; [simpl in H; lia|]. rewrite <- Et in *.
  assert (Q := flow_chain t d fz 0 bs S P y0). rewrite phi_refl in Q. rewrite Q. simpl.
  rewrite Et. reflexivity.
Qed.
End Flow.

(** *** Sampling *)
Lemma selection_bounds {D} scale (dists : list D) batch_time idx :
  (forall l, List.length (scale l) = List.length l) ->
  create_uniform_distance_selection_array scale dists batch_time = Ok idx ->
  forall i, In i idx -> i < List.length (slice_to (- (batch_time - 1)) dists).
Proof.
  intros Hs. unfold create_uniform_distance_selection_array.
  set (kept := slice_to (- (batch_time - 1)) dists).
  destruct kept as [|k0 kept0] eqn:E; [discriminate|]. rewrite <- E. intros [=<-] i Hi.
  apply in_flat_map in Hi. destruct Hi as [[j sd] [Hj Hi]]. apply repeat_spec in Hi. cbn in Hi. subst i.
  apply in_combine_l in Hj. apply in_seq in Hj. rewrite Hs in Hj. lia.
Qed.

Lemma kept_length {D} (dists : list D) batch_time : (1 <= batch_time)%Z ->
  (Z.of_nat (List.length (slice_to (- (batch_time - 1)) dists))
     <= Z.max 0 (Z.of_nat (List.length dists) + 1 - batch_time))%Z.
Proof.
  intro H. unfold slice_to. rewrite firstn_length.
  destruct (Z.ltb_spec (- (batch_time - 1)) 0); lia.
Qed.

Lemma mapM_list_item {A} (y : list A) s d : (forall k, In k s -> k < List.length y) ->
  mapM (list_item y) s = Ok (map (fun k => nth k y d) s).
Proof.
  induction s as [|k s IH]; intro H; simpl; auto.
  unfold list_item at 1. rewrite (nth_error_nth' y d (H k (or_introl eq_refl))). simpl.
  rewrite IH; auto. intros j Hj. apply H. right. exact Hj.
Qed.

Lemma choice_in a draws s : choice a draws = Ok s -> (forall k, In k s -> In k a) /\ List.length s = List.length draws.
Proof.
  unfold choice. destruct a as [|x a'] eqn:E; [discriminate|]. rewrite <- E. intros [=<-]. split.
  - intros k Hk. apply in_map_iff in Hk. destruct Hk as [d [<- _]]. apply nth_In.
    apply Nat.mod_upper_bound. rewrite E. discriminate.
  - apply map_length.
Qed.

Lemma mapM_mapM_items {A} (y : list A) s d n : (forall k i, In k s -> i < n -> k + i < List.length y) ->
  mapM (fun i => mapM (fun k => list_item y (k + i)) s) (seq 0 n) =
  Ok (map (fun i => map (fun k => nth (k + i) y d) s) (seq 0 n)).
Proof.
  intro H. assert (G : forall l, (forall i, In i l -> i < n) ->
    mapM (fun i => mapM (fun k => list_item y (k + i)) s) l =
    Ok (map (fun i => map (fun k => nth (k + i) y d) s) l)).
  { induction l as [|i l IH]; intro Hl; simpl; auto.
    assert (E : mapM (fun k => list_item y (k + i)) s = Ok (map (fun k => nth (k + i) y d) s)).
    { assert (Hi := Hl i (or_introl eq_refl)). clear -H Hi.
      induction s as [|k s IH]; simpl; auto.
      unfold list_item at 1. rewrite (nth_error_nth' y d (H k i (or_introl eq_refl) Hi)). simpl.
      rewrite IH; auto. intros k' j Hk Hj. apply H; simpl; auto. }
    rewrite E. simpl. rewrite IH; auto. intros j Hj. apply Hl. right. exact Hj. }
  apply G. intros i Hi. apply in_seq in Hi. lia.
Qed.

Lemma batch_inside {D X} scale (dists : list D) (y : list X) batch_time idx draws (dist_based : bool) d :
  (forall l, List.length (scale l) = List.length l) ->
  (1 <= batch_time)%Z -> y <> [] -> List.length dists = List.length y - 1 ->
  (dist_based = true -> create_uniform_distance_selection_array scale dists batch_time = Ok idx) ->
  (if dist_based then idx <> [] else (batch_time < Z.of_nat (List.length y))%Z) ->
  exists s y0 ys, get_batch y (List.length y) idx batch_time dist_based draws = Ok (s, y0, ys) /\
    List.length s = List.length draws /\
    (forall k i, In k s -> i < Z.to_nat batch_time -> k + i + 1 < List.length y) /\
    y0 = map (fun k => nth k y d) s /\
    ys = map (fun i => map (fun k => nth (k + i) y d) s) (seq 0 (Z.to_nat batch_time)).
Proof.
  intros Hs Hb Hy Hd Hc Hne. unfold get_batch.
  set (pool := if dist_based then idx else seq 0 (Z.to_nat (Z.of_nat (List.length y) - batch_time))).
  assert (Hp : pool <> []).
  { unfold pool. destruct dist_based; auto.
    replace (Z.to_nat (Z.of_nat (List.length y) - batch_time))
      with (S (Z.to_nat (Z.of_nat (List.length y) - batch_time) - 1)) by lia. discriminate. }
  assert (Hin : forall k, In k pool -> (Z.of_nat k < Z.of_nat (List.length y) - batch_time)%Z).
  { intros k Hk. unfold pool in Hk. destruct dist_based.
    - assert (B := selection_bounds scale dists batch_time idx Hs (Hc eq_refl) k Hk).
      assert (K := kept_length dists batch_time Hb).
      assert (List.length y <> 0) by (destruct y; [congruence|discriminate]). lia.
    - apply in_seq in Hk. lia. }
  destruct (choice pool draws) as [s|e] eqn:E.
  2: { unfold choice in E. destruct pool; [congruence|discriminate]. }
  destruct (choice_in _ _ _ E) as [Cin Clen]. cbn [bind].
  assert (In1 : forall k i, In k s -> i < Z.to_nat batch_time -> k + i + 1 < List.length y).
  { intros k i Hk Hi. specialize (Hin k (Cin k Hk)). lia. }
  rewrite (mapM_list_item y s d).
  2: { intros k Hk. specialize (In1 k 0 Hk). lia. }
  cbn [bind]. rewrite (mapM_mapM_items y s d).
  2: { intros k i Hk Hi. specialize (In1 k i Hk Hi). lia. }
  cbn [bind]. exists s. do 2 eexists. split; [|repeat split; auto].
  replace (Z.to_nat batch_time) with (S (Z.to_nat batch_time - 1)) by lia. reflexivity.
Qed.

Lemma uniform_reaches {X} (y : list X) idx batch_time k :
  (1 <= batch_time)%Z -> (Z.of_nat k < Z.of_nat (List.length y) - batch_time)%Z ->
  exists y0 ys, get_batch y (List.length y) idx batch_time false [k] = Ok ([k], y0, ys).
Proof.
  intros Hb Hk. unfold get_batch.
  set (n := Z.to_nat (Z.of_nat (List.length y) - batch_time)).
  assert (C : choice (seq 0 n) [k] = Ok [k]).
  { unfold choice. destruct (seq 0 n) as [|a l] eqn:E.
    - exfalso. assert (List.length (seq 0 n) = 0) by (rewrite E; reflexivity).
      rewrite seq_length in H. lia.
    - rewrite <- E, seq_length. cbn [map]. rewrite Nat.mod_small by lia.
      rewrite seq_nth by lia. reflexivity. }
  rewrite C. cbn [bind].
  destruct y as [|d y'] eqn:Ey; [simpl in Hk; lia|]. rewrite <- Ey in *.
  rewrite (mapM_list_item y [k] d).
  2: { intros j [<-|[]]. lia. }
  cbn [bind]. rewrite (mapM_mapM_items y [k] d).
  2: { intros j i [<-|[]] Hi. lia. }
  cbn [bind]. do 2 eexists.
  replace (Z.to_nat batch_time) with (S (Z.to_nat batch_time - 1)) by lia. reflexivity.
Qed.

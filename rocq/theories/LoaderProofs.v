(** Batches of the spiral's loaders are windows. *)
From Coq Require Import List ZArith Bool Lia Arith.
From Verif Require Import Base SpiralModel SpiralProofs LoaderModel LoaderSpec.
Import ListNotations.
Open Scope list_scope.
Open Scope nat_scope.

Section Proofs.
Context {T X G : Type}.
Variable draw : nat -> G -> list nat * G.
Hypothesis draw_length : forall n g, List.length (fst (draw n g)) = n.
Notation dd := (data_dict T X).
Notation getitem := (getitem T X G draw).
Notation fetch := (fetch T X G draw).
Notation one_batch := (one_batch T X G draw).
Notation batches := (batches T X G draw).

(** Start points and rows of the windows starting at [s]. *)
Definition firsts (y : list X) (p : X) (s : list nat) : list X := map (fun k => nth k y p) s.
Definition rows (y : list X) (p : X) (n : nat) (s : list nat) : list (list X) :=
  map (fun i => map (fun k => nth (k + i) y p) s) (seq 0 n).

Lemma nth_window (y : list X) n s k : k < n -> nth_error (window y n s) k = nth_error y (s + k).
Proof.
  intros K. unfold window.
  assert (A : forall m (l : list X) k, k < m -> nth_error (firstn m l) k = nth_error l k).
  { induction m as [|m IH]; intros l j J; [lia|]. destruct l as [|x l]; [destruct j; reflexivity|]. destruct j; [reflexivity|]. cbn. apply IH. lia. }
  rewrite A by exact K. clear. revert y. induction s as [|s IH]; intros y; [reflexivity|]. destruct y as [|a y]; [cbn; destruct k; reflexivity|]. cbn. apply IH.
Qed.

Lemma rows_windows (y : list X) p n s : 1 <= n -> Forall (fun k => k + n <= List.length y) s -> windows_at y n s (firsts y p s) (rows y p n s).
Proof.
  intros N F. split; [exact F|]. split; [|split].
  - unfold firsts. rewrite map_map. apply map_ext_in. intros k I. symmetry. apply nth_error_nth'.
    assert (A := proj1 (Forall_forall _ _) F k I). cbn in A. lia.
  - unfold rows. rewrite map_length, seq_length. reflexivity.
  - intros k row E. unfold rows in E.
    assert (K : k < n) by (assert (A := proj1 (nth_error_Some _ k) ltac:(rewrite E; discriminate)); rewrite map_length, seq_length in A; exact A).
    rewrite (map_nth_error _ k (seq 0 n) (d := k)) in E.
    2: { rewrite (nth_error_nth' (seq 0 n) 0) by (rewrite seq_length; exact K). rewrite seq_nth by exact K. reflexivity. }
    injection E as <-. rewrite map_map. apply map_ext_in. intros j I. rewrite nth_window by exact K. symmetry. apply nth_error_nth'.
    assert (A := proj1 (Forall_forall _ _) F j I). cbn in A. lia.
Qed.

(** What [get_batch] gives, with everything known about data and times. *)
Definition good_data (d : dd) (bt : Z) : Prop :=
  List.length (d_t _ _ d) = List.length (d_y _ _ d) /\ (2 <= bt)%Z /\ (bt < Z.of_nat (List.length (d_y _ _ d)))%Z /\
  d_uniform_sample_indices _ _ d <> [] /\
  Forall (fun k => Z.of_nat k + bt <= Z.of_nat (List.length (d_y _ _ d)))%Z (d_uniform_sample_indices _ _ d).

Lemma batch_g (d : dd) bt db m g p : good_data d bt ->
  exists s, List.length s = m /\ Forall (fun k => k + Z.to_nat bt <= List.length (d_y _ _ d)) s /\
    get_batch_g T X G draw d m bt db g =
      (Ok (firsts (d_y _ _ d) p s, firstn (Z.to_nat bt) (d_t _ _ d), rows (d_y _ _ d) p (Z.to_nat bt) s), snd (draw m g)).
Proof.
  intros (LT & B1 & B2 & NE & F). unfold get_batch_g. assert (DL := draw_length m g). destruct (draw m g) as (draws, g'). cbn [fst snd] in *.
  unfold get_batch. set (pool := if db then _ else _).
  assert (P : pool <> [] /\ Forall (fun k => k + Z.to_nat bt <= List.length (d_y _ _ d)) pool).
  { unfold pool. destruct db; split.
    - exact NE.
    - eapply Forall_impl; [|exact F]. cbn. intros k K. lia.
    - intros E. apply (f_equal (@List.length nat)) in E. rewrite seq_length in E. cbn in E. lia.
    - apply Forall_forall. intros k I. apply in_seq in I. lia. }
  destruct P as (P1 & P2). destruct (choice pool draws) as [s|e] eqn:E.
  2: { unfold choice in E. destruct pool; [congruence|discriminate]. }
  destruct (choice_in _ _ _ E) as (CI & CL). cbn [bind].
  assert (FS : Forall (fun k => k + Z.to_nat bt <= List.length (d_y _ _ d)) s).
  { apply Forall_forall. intros k I. apply (proj1 (Forall_forall _ _) P2). auto. }
  exists s. split; [congruence|]. split; [exact FS|].
  rewrite (mapM_list_item _ s p) by (intros k I; assert (A := proj1 (Forall_forall _ _) FS k I); cbn in A; lia).
  cbn [bind]. rewrite (mapM_mapM_items _ s p) by (intros k i I J; assert (A := proj1 (Forall_forall _ _) FS k I); cbn in A; lia).
  cbn [bind]. unfold slice_to. replace (bt <? 0)%Z with false by (symmetry; apply Z.ltb_ge; lia).
  unfold rows, firsts. destruct (Z.to_nat bt) as [|n] eqn:EB; [lia|]. cbn [seq map bind]. reflexivity.
Qed.

(** One window out of several. *)
Lemma pick_one (y : list X) p n s i : i < List.length s ->
  pick X (firsts y p s) (rows y p n s) (IInt i) =
    Ok (SOne X (nth (nth i s 0) y p) (map (fun j => nth (nth i s 0 + j) y p) (seq 0 n))).
Proof.
  intros I. unfold pick, firsts, rows. unfold list_item at 1.
  rewrite (map_nth_error _ i s (d := nth i s 0)) by (apply nth_error_nth'; exact I). cbn [bind].
  assert (M : forall l, mapM (fun row => list_item row i) (map (fun i0 => map (fun k => nth (k + i0) y p) s) l) =
    Ok (map (fun j => nth (nth i s 0 + j) y p) l)).
  { induction l as [|j l IH]; [reflexivity|]. cbn [map mapM]. unfold list_item at 1.
    rewrite (map_nth_error _ i s (d := nth i s 0)) by (apply nth_error_nth'; exact I). cbn [bind]. rewrite IH. reflexivity. }
  rewrite M. reflexivity.
Qed.

(** Windows stacked and transposed. *)
Lemma transposed (y : list X) p n s : s <> [] ->
  transpose_rows X (map (fun k => map (fun j => nth (k + j) y p) (seq 0 n)) s) = Ok (rows y p n s).
Proof.
  intros NE. destruct s as [|k0 s0] eqn:ES; [congruence|]. rewrite <- ES in *. clear NE.
  set (w := fun k => map (fun j => nth (k + j) y p) (seq 0 n)).
  assert (L : forall k, List.length (w k) = n) by (intros; unfold w; rewrite map_length, seq_length; reflexivity).
  unfold transpose_rows. rewrite ES at 1. cbn [map]. fold (w k0). rewrite L.
  replace (forallb _ (map w s)) with true.
  2: { symmetry. apply forallb_forall. intros z I. apply in_map_iff in I as (k & <- & _). rewrite L. apply Nat.eqb_refl. }
  assert (M : forall l, (forall i, In i l -> i < n) -> mapM (fun i => mapM (fun z => list_item z i) (map w s)) l = Ok (map (fun i => map (fun k => nth (k + i) y p) s) l)).
  { induction l as [|i l IH]; intros H; [reflexivity|]. cbn [mapM map].
    assert (E : mapM (fun z => list_item z i) (map w s) = Ok (map (fun k => nth (k + i) y p) s)).
    { clear IH ES. induction s as [|k s IH]; [reflexivity|]. cbn [map mapM]. unfold list_item at 1. unfold w at 1.
      rewrite (map_nth_error _ i (seq 0 n) (d := i)).
      2: { rewrite (nth_error_nth' _ 0) by (rewrite seq_length; apply H; left; reflexivity). rewrite seq_nth by (apply H; left; reflexivity). reflexivity. }
      cbn [bind]. rewrite IH. reflexivity. }
    rewrite E. cbn [bind]. rewrite IH by (intros j J; apply H; right; exact J). reflexivity. }
  apply M. intros i I. apply in_seq in I. lia.
Qed.

(** *** Stored windows *)
Section Stored.
Variables (d : dd) (v lr db : bool) (bt : Z) (nr : nat) (p : X) (s : list nat).
Let ds := mkDataset T X d v lr false db bt nr (Some (firsts (d_y _ _ d) p s)) (Some (firstn (Z.to_nat bt) (d_t _ _ d)))
            (Some (rows (d_y _ _ d) p (Z.to_nat bt) s)).

Lemma stored_fetch l g : (forall i, In i l -> i < List.length s) ->
  fetch ds l g = (Ok (map (fun i => (nth (nth i s 0) (d_y _ _ d) p, map (fun j => nth (nth i s 0 + j) (d_y _ _ d) p) (seq 0 (Z.to_nat bt)))) l, ds), g).
Proof.
  induction l as [|i l IH]; intros H; [reflexivity|]. cbn [LoaderModel.fetch map].
  unfold getitem, LoaderModel.getitem. cbn [s_online negb s_y0 s_y ds attribute bind]. rewrite pick_one by (apply H; left; reflexivity). cbn [bind].
  fold ds. rewrite IH by (intros j J; apply H; right; exact J). reflexivity.
Qed.

Lemma stored_batch l g : l <> [] -> (forall i, In i l -> i < List.length s) ->
  one_batch ds l g = (Ok (firsts (d_y _ _ d) p (map (fun i => nth i s 0) l), firstn (Z.to_nat bt) (d_t _ _ d),
    rows (d_y _ _ d) p (Z.to_nat bt) (map (fun i => nth i s 0) l), ds), g).
Proof.
  intros NE H. unfold one_batch, LoaderModel.one_batch. rewrite stored_fetch by exact H. rewrite !map_map. cbn [fst snd].
  rewrite <- (map_map (fun i => nth i s 0) (fun k => map (fun j => nth (k + j) (d_y _ _ d) p) (seq 0 (Z.to_nat bt)))).
  rewrite transposed by (intros E; apply map_eq_nil in E; contradiction). cbn [bind s_t ds attribute].
  unfold firsts. rewrite map_map. reflexivity.
Qed.
End Stored.

(** *** Windows drawn on request *)
Definition online (d : dd) (v lr db : bool) (bt : Z) (nr : nat) (s : dataset T X) : Prop :=
  s_data _ _ s = d /\ s_online _ _ s = true /\ s_distance_based _ _ s = db /\ s_batch_time _ _ s = bt /\ s_validation _ _ s = v /\
  s_long_range _ _ s = lr /\ s_nr _ _ s = nr.

Section Online.
Variables (d : dd) (v lr db : bool) (bt : Z) (nr : nat) (p : X).
Hypothesis GD : good_data d bt.

Lemma online_fetch l : forall s g, online d v lr db bt nr s ->
  exists ss s' g', fetch s l g = (Ok (map (fun k => (nth k (d_y _ _ d) p, map (fun j => nth (k + j) (d_y _ _ d) p) (seq 0 (Z.to_nat bt)))) ss, s'), g') /\
    List.length ss = List.length l /\ Forall (fun k => k + Z.to_nat bt <= List.length (d_y _ _ d)) ss /\ online d v lr db bt nr s' /\
    (l <> [] -> s_t _ _ s' = Some (firstn (Z.to_nat bt) (d_t _ _ d))) /\ (l = [] -> s' = s).
Proof.
  induction l as [|i l IH]; intros s g O.
  - exists [], s, g. cbn. split; [reflexivity|]. split; [reflexivity|]. split; [constructor|]. split; [exact O|]. split; [congruence|auto].
  - cbn [LoaderModel.fetch]. unfold getitem, LoaderModel.getitem. destruct O as (O1 & O2 & O3 & O4 & O5 & O6 & O7). rewrite O2. cbn [negb].
    rewrite O1, O4, O3. destruct (batch_g d bt db 1 g p GD) as (ss1 & L1 & F1 & E1). rewrite E1.
    rewrite pick_one by lia. cbn [bind].
    set (s1 := mkDataset _ _ _ _ _ _ _ _ _ _ _ _). destruct (IH s1 (snd (draw 1 g))) as (ss & s' & g' & E & L & F & O' & ST & ST2).
    { unfold online, s1. cbn. tauto. }
    fold fetch. rewrite E. destruct ss1 as [|k1 [|]]; try discriminate. exists (k1 :: ss), s', g'. split; [reflexivity|].
    split; [cbn; congruence|]. split; [inversion F1; constructor; assumption|]. split; [exact O'|]. split; [|congruence].
    intros _. destruct l as [|i2 l]; [rewrite (ST2 eq_refl); reflexivity|apply ST; discriminate].
Qed.

Lemma online_batches ls : forall s g, online d v lr db bt nr s -> forall b, 1 <= b -> Forall (fun l => List.length l = b) ls ->
  exists bs s' g', batches s ls g = (Ok (bs, s'), g') /\ List.length bs = List.length ls /\
    Forall (batch_of_windows (d_t _ _ d) (d_y _ _ d) (Z.to_nat bt) b) bs.
Proof.
  induction ls as [|l ls IH]; intros s g O b B F.
  - exists [], s, g. repeat split. constructor.
  - inversion F as [|? ? LB F']; subst. cbn [LoaderModel.batches]. unfold LoaderModel.one_batch.
    destruct (online_fetch l s g O) as (ss & s1 & g1 & E & L & FS & O1 & ST & _). fold fetch. rewrite E.
    assert (NE : l <> []) by (intros ->; cbn in B; lia). rewrite !map_map. cbn [fst snd].
    rewrite transposed by (intros Z; rewrite Z in L; destruct l; [congruence|discriminate]). cbn [bind]. rewrite (ST NE). cbn [attribute bind].
    destruct (IH s1 g1 O1 _ B F') as (bs & s' & g' & EB & LL & FB). fold batches. rewrite EB.
    eexists _, s', g'. split; [reflexivity|]. split; [cbn; congruence|]. constructor; [|exact FB].
    unfold batch_of_windows. split; [reflexivity|]. exists ss. split; [exact L|]. apply rows_windows; [|exact FS].
    destruct GD as (_ & G2 & _). lia.
Qed.
End Online.

Lemma index_batches_facts b order : 1 <= b ->
  List.length (index_batches b order) = List.length order / b /\ Forall (fun l => List.length l = b) (index_batches b order).
Proof.
  intros B. unfold index_batches. split; [rewrite map_length, seq_length; reflexivity|].
  apply Forall_forall. intros l I. apply in_map_iff in I as (i & <- & I). apply in_seq in I. rewrite firstn_length, skipn_length.
  assert (A := Nat.mul_div_le (List.length order) b ltac:(lia)). assert (S i * b <= List.length order); [|cbn in *; lia].
  transitivity (b * (List.length order / b)); [|exact A]. rewrite Nat.mul_comm. apply Nat.mul_le_mono_l. lia.
Qed.

Lemma index_batches_all n : 1 <= n -> index_batches n (seq 0 n) = [seq 0 n].
Proof.
  intros N. unfold index_batches. rewrite seq_length, Nat.div_same by lia. cbn [seq map Nat.mul skipn].
  f_equal. rewrite <- (seq_length n 0) at 1. apply firstn_all.
Qed.

Lemma nth_all (s : list nat) : map (fun i => nth i s 0) (seq 0 (List.length s)) = s.
Proof.
  induction s as [|k s IH]; [reflexivity|]. cbn [List.length seq map nth]. f_equal. rewrite <- seq_shift, map_map. exact IH.
Qed.

(** A loader over stored windows always gives the same batch. *)
Lemma stored_iterate (d : dd) v lr db bt nr p s order g : 1 <= nr -> List.length s = nr -> let y := d_y _ _ d in let n := Z.to_nat bt in
  let ds := mkDataset T X d v lr false db bt nr (Some (firsts y p s)) (Some (firstn n (d_t _ _ d))) (Some (rows y p n s)) in
  iterate T X G draw (mkLoader T X ds (Z.of_nat nr) false) order g = (Ok ([(firsts y p s, firstn n (d_t _ _ d), rows y p n s)], ds), g).
Proof.
  intros N L y n ds. unfold iterate. cbn [l_dataset l_batch_size l_shuffle len_dataset s_nr ds]. unfold len_dataset. cbn [s_nr ds]. rewrite Nat2Z.id, index_batches_all by exact N.
  cbn [LoaderModel.batches]. fold one_batch. unfold ds. rewrite stored_batch.
  - rewrite <- L, nth_all. reflexivity.
  - destruct nr; [lia|discriminate].
  - intros i I. apply in_seq in I. lia.
Qed.

(** *** All four loaders *)
Lemma loaders (d : dd) bt b dis lr tr te sh ts g : good_data d bt -> (0 < b)%Z -> 1 <= te -> 1 <= sh -> 1 <= ts ->
  let batch := batch_of_windows (d_t _ _ d) (d_y _ _ d) (Z.to_nat bt) in
  let same := fun l x => forall order g', iterate T X G draw l order g' = (Ok ([x], l_dataset _ _ l), g') in
  exists train train_eval short test g1,
    get_function_data_loaders T X G draw bt b dis lr d tr te sh ts g = (Ok (train, train_eval, short, test), g1) /\
    (forall order g', List.length order = tr -> exists bs s' g'', iterate T X G draw train order g' = (Ok (bs, s'), g'') /\
      List.length bs = tr / Z.to_nat b /\ Forall (batch (Z.to_nat b)) bs) /\
    (exists x, same train_eval x /\ batch te x) /\
    (exists x, same short x /\ batch sh x) /\
    (exists x, same test x /\ if lr then x = ([d_y0 _ _ d], d_t _ _ d, map (fun p => [p]) (d_y _ _ d)) else batch ts x).
Proof.
  intros GD B TE SH TS batch same. assert (GD' := GD). destruct GD' as (LT & B1 & B2 & _).
  assert (exists p : X, True) as (p & _) by (destruct (d_y _ _ d) as [|p y']; [cbn in B2; lia|exists p; exact I]).
  assert (BN : 1 <= Z.to_nat bt) by lia.
  unfold get_function_data_loaders, function_dataset. cbn [negb]. unfold data_loader.
  replace (b <=? 0)%Z with false by (symmetry; apply Z.leb_gt; exact B). unfold create_data. cbn [andb].
  destruct (batch_g d bt (negb dis) te g p GD) as (s1 & L1 & F1 & E1). rewrite E1.
  replace (Z.of_nat te <=? 0)%Z with false by (symmetry; apply Z.leb_gt; lia).
  destruct (batch_g d bt (negb dis) sh (snd (draw te g)) p GD) as (s2 & L2 & F2 & E2). rewrite E2.
  replace (Z.of_nat sh <=? 0)%Z with false by (symmetry; apply Z.leb_gt; lia).
  assert (TR : forall ds, online d false lr (negb dis) bt tr ds -> forall order g', List.length order = tr ->
    exists bs s' g'', iterate T X G draw (mkLoader T X ds b true) order g' = (Ok (bs, s'), g'') /\
      List.length bs = tr / Z.to_nat b /\ Forall (batch (Z.to_nat b)) bs).
  { intros ds O order g' LO. unfold iterate. cbn [l_dataset l_batch_size l_shuffle].
    destruct (index_batches_facts (Z.to_nat b) order ltac:(lia)) as (IL & IF).
    destruct (online_batches d false lr (negb dis) bt tr p GD _ ds g' O (Z.to_nat b) ltac:(lia) IF) as (bs & s' & g'' & E & L & F).
    exists bs, s', g''. split; [exact E|]. split; [congruence|exact F]. }
  destruct lr; cbn [andb].
  - replace (Z.of_nat 1 <=? 0)%Z with false by reflexivity. do 5 eexists. split; [reflexivity|]. split; [|split; [|split]].
    + apply TR. unfold online. cbn. tauto.
    + eexists. split; [intros order g'; apply stored_iterate; assumption|]. split; [reflexivity|]. exists s1. split; [exact L1|]. apply rows_windows; assumption.
    + eexists. split; [intros order g'; apply stored_iterate; assumption|]. split; [reflexivity|]. exists s2. split; [exact L2|]. apply rows_windows; assumption.
    + eexists. split; [|reflexivity]. intros order g'. unfold iterate. cbn [l_dataset l_batch_size l_shuffle]. unfold len_dataset. cbn [s_nr].
      change (Z.to_nat (Z.of_nat 1)) with 1. rewrite index_batches_all by lia. cbn [seq LoaderModel.batches]. unfold LoaderModel.one_batch. cbn [LoaderModel.fetch].
      unfold LoaderModel.getitem. cbn [s_online negb s_y0 s_y attribute bind pick list_item nth_error].
      assert (M : forall l : list X, mapM (fun row => list_item row 0) (map (fun q => [q]) l) = Ok l).
      { induction l as [|q l IH]; [reflexivity|]. cbn [map mapM list_item nth_error bind]. rewrite IH. reflexivity. }
      rewrite M. cbn [bind map fst snd]. unfold transpose_rows. cbn [forallb]. rewrite Nat.eqb_refl. cbn [andb].
      assert (W : forall (l : list X), mapM (fun k => mapM (fun z => list_item z k) [l]) (seq 0 (List.length l)) = Ok (map (fun q => [q]) l)).
      { intros l. transitivity (Ok (map (fun k => [nth k l p]) (seq 0 (List.length l)))).
        - set (f := fun k => mapM (fun z => list_item z k) [l]).
          assert (AL : forall ks, (forall k, In k ks -> k < List.length l) -> mapM f ks = Ok (map (fun k => [nth k l p]) ks)).
          { induction ks as [|k ks IH]; intros H; [reflexivity|]. cbn [mapM map].
            rewrite IH by (intros j J; apply H; right; exact J). unfold f, list_item. cbn [mapM].
            rewrite (nth_error_nth' l p) by (apply H; left; reflexivity). reflexivity. }
          apply AL. intros k I. apply in_seq in I. lia.
        - f_equal. clear. induction l as [|q l IH]; [reflexivity|]. cbn [List.length seq map nth]. f_equal. rewrite <- seq_shift, map_map. exact IH. }
      rewrite W. cbn [bind s_t attribute]. reflexivity.
  - destruct (batch_g d bt (negb dis) ts (snd (draw sh (snd (draw te g)))) p GD) as (s3 & L3 & F3 & E3). rewrite E3.
    replace (Z.of_nat ts <=? 0)%Z with false by (symmetry; apply Z.leb_gt; lia).
    do 5 eexists. split; [reflexivity|]. split; [|split; [|split]].
    + apply TR. unfold online. cbn. tauto.
    + eexists. split; [intros order g'; apply stored_iterate; assumption|]. split; [reflexivity|]. exists s1. split; [exact L1|]. apply rows_windows; assumption.
    + eexists. split; [intros order g'; apply stored_iterate; assumption|]. split; [reflexivity|]. exists s2. split; [exact L2|]. apply rows_windows; assumption.
    + eexists. split; [intros order g'; apply stored_iterate; assumption|]. split; [reflexivity|]. exists s3. split; [exact L3|]. apply rows_windows; assumption.
Qed.
End Proofs.

(** Generated data are good. *)
Lemma generated_good {T X D} (dist : X -> X -> D) scale (solve : X -> list T -> list X) y0 t bt d :
  (forall l, List.length (scale l) = List.length l) -> (forall l, l <> [] -> exists z, In z (scale l) /\ (1 <= z)%Z) ->
  List.length (solve y0 t) = List.length t -> (1 <= bt)%Z ->
  generate_data T X dist scale solve y0 t bt = Ok d ->
  good_data d bt /\ d_y0 _ _ d = y0 /\ d_t _ _ d = t /\ d_y _ _ d = solve y0 t.
Proof.
  intros SL SP LT B E. unfold generate_data in E. set (dists := map _ _) in E.
  destruct (create_uniform_distance_selection_array scale dists bt) as [idx|e] eqn:C; [|discriminate]. cbn [bind] in E. injection E as <-.
  cbn [d_y0 d_t d_y]. split; [|repeat split].
  assert (LD : List.length dists = List.length (solve y0 t) - 1).
  { unfold dists. rewrite map_length, combine_length. destruct (solve y0 t); cbn [tl List.length]; lia. }
  assert (SB := selection_bounds scale dists bt idx SL C). assert (K := kept_length dists bt B).
  unfold create_uniform_distance_selection_array in C. set (kept := slice_to (- (bt - 1)) dists) in *.
  assert (KN : kept <> []) by (intros Z; rewrite Z in C; discriminate).
  assert (KL : 1 <= List.length kept) by (destruct kept; [congruence|cbn; lia]).
  assert (B2 : (2 <= bt)%Z).
  { destruct (Z.eq_dec bt 1) as [EB|]; [|lia]. exfalso. apply KN. unfold kept. rewrite EB. reflexivity. }
  unfold good_data. cbn [d_y d_t d_uniform_sample_indices]. split; [congruence|]. split; [exact B2|]. split; [lia|]. split.
  - destruct kept as [|k0 k1] eqn:EK; [congruence|]. rewrite <- EK in *. injection C as <-. destruct (SP kept KN) as (z & I & Z1).
    apply In_nth with (d := 0%Z) in I as (i & I1 & I2). intros Z.
    assert (A : In i (flat_map (fun i_sd => repeat (fst i_sd) (Z.to_nat (snd i_sd))) (combine (seq 0 (List.length (scale kept))) (scale kept)))).
    { apply in_flat_map. exists (i, z). split.
      - rewrite <- I2. replace i with (nth i (seq 0 (List.length (scale kept))) 0) at 1 by (rewrite seq_nth by exact I1; reflexivity).
        rewrite <- combine_nth by (rewrite seq_length; reflexivity). apply nth_In. rewrite combine_length, seq_length. lia.
      - cbn [fst snd]. destruct (Z.to_nat z) eqn:EZ; [lia|]. left. reflexivity. }
    rewrite Z in A. destruct A.
  - apply Forall_forall. intros k I. specialize (SB k I). fold kept in SB. lia.
Qed.

Lemma spiral_loaders {T X G D} (draw : nat -> G -> list nat * G) (dist : X -> X -> D) scale (solve : X -> list T -> list X) y0 t bt d :
  (forall n g, List.length (fst (draw n g)) = n) ->
  (forall l, List.length (scale l) = List.length l) -> (forall l, l <> [] -> exists z, In z (scale l) /\ (1 <= z)%Z) ->
  List.length (solve y0 t) = List.length t -> (1 <= bt)%Z ->
  generate_data T X dist scale solve y0 t bt = Ok d ->
  forall b dis lr tr te sh ts g, (0 < b)%Z -> 1 <= te -> 1 <= sh -> 1 <= ts ->
  let batch := batch_of_windows t (solve y0 t) (Z.to_nat bt) in
  let same := fun l x => forall order g', iterate T X G draw l order g' = (Ok ([x], l_dataset _ _ l), g') in
  exists train train_eval short test g1,
    get_function_data_loaders T X G draw bt b dis lr d tr te sh ts g = (Ok (train, train_eval, short, test), g1) /\
    (forall order g', List.length order = tr -> exists bs s' g'', iterate T X G draw train order g' = (Ok (bs, s'), g'') /\
      List.length bs = tr / Z.to_nat b /\ Forall (batch (Z.to_nat b)) bs) /\
    (exists x, same train_eval x /\ batch te x) /\
    (exists x, same short x /\ batch sh x) /\
    (exists x, same test x /\ if lr then x = ([y0], t, map (fun p => [p]) (solve y0 t)) else batch ts x).
Proof.
  intros DL SL SP LT B E b dis lr tr te sh ts g Hb TE SH TS.
  destruct (generated_good dist scale solve y0 t bt d SL SP LT B E) as (GD & <- & <- & <-).
  exact (loaders draw DL d bt b dis lr tr te sh ts g GD Hb TE SH TS).
Qed.

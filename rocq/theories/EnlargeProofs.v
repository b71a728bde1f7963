(** Enlarging a tensor. *)
From Coq Require Import List String Arith Lia Bool Permutation.
From Verif Require Import Base BaseFacts Tensor TensorFacts ScdModel BlockModel BlockSpec.
Import ListNotations.

(** ** Concatenation keeps all elements *)

Lemma flat_map_app_perm {A B} (f g : A -> list B) l :
  Permutation (flat_map (fun x => f x ++ g x) l) (flat_map f l ++ flat_map g l).
Proof.
  induction l as [|a l IH]; simpl; auto.
  rewrite <- !app_assoc. apply Permutation_app_head.
  rewrite IH. rewrite !app_assoc. apply Permutation_app_tail. apply Permutation_app_comm.
Qed.

Lemma flat_map_perm_pw {A B} (f g : A -> list B) l :
  (forall x, In x l -> Permutation (f x) (g x)) -> Permutation (flat_map f l) (flat_map g l).
Proof.
  induction l as [|a l IH]; simpl; intro H; auto. apply Permutation_app; auto.
Qed.

Lemma flat_map_map {A B C} (f : B -> list C) (g : A -> B) l :
  flat_map f (map g l) = flat_map (fun x => f (g x)) l.
Proof. induction l; simpl; auto. rewrite IHl; auto. Qed.

Lemma map_flat_map {A B C} (f : B -> C) (g : A -> list B) l :
  map f (flat_map g l) = flat_map (fun x => map f (g x)) l.
Proof. induction l; simpl; auto. rewrite map_app, IHl; auto. Qed.

Lemma seq_shift_by n a m : seq (a + n) m = map (fun i => i + n) (seq a m).
Proof. revert a; induction m; simpl; intro a; auto. f_equal. apply (IHm (S a)). Qed.

(** Moving an index along dimension [d]. *)
Definition bump (d n : nat) (idx : list nat) : list nat := set_nth d (nth d idx 0 + n) idx.

Lemma all_idx_cat d s na nb : d < List.length s ->
  Permutation (all_idx (set_nth d (na + nb) s))
    (all_idx (set_nth d na s) ++ map (bump d na) (all_idx (set_nth d nb s))).
Proof.
  revert d; induction s as [|n s IH]; intros d H; simpl in H; [lia|].
  destruct d as [|d].
  - simpl. rewrite seq_app, flat_map_app. apply Permutation_app_head.
    rewrite (seq_shift_by na 0 nb), flat_map_map.
    rewrite map_flat_map. apply Permutation_refl'.
    apply flat_map_ext. intro a. rewrite map_map. reflexivity.
  - cbn [set_nth all_idx]. rewrite map_flat_map.
    etransitivity; [apply flat_map_perm_pw; intros i Hi; apply Permutation_map; apply (IH d); lia|].
    etransitivity; [apply flat_map_perm_pw; intros i Hi; rewrite map_app; apply Permutation_refl|].
    etransitivity; [apply flat_map_app_perm|]. apply Permutation_app_head.
    apply Permutation_refl'. apply flat_map_ext. intro i. rewrite !map_map. reflexivity.
Qed.

Lemma flat_map_ext_in' {A B} (f g : A -> list B) l :
  (forall x, In x l -> f x = g x) -> flat_map f l = flat_map g l.
Proof. induction l; simpl; intro H; auto. rewrite H, IHl by auto. reflexivity. Qed.

Lemma gather_self {A} (t : tensor A) : twf t ->
  flat_map (fun idx => opt_list (tget t idx)) (all_idx (tshape t)) = tdata t.
Proof.
  intro W.
  assert (E : mkT (tshape t) (flat_map (fun idx => opt_list (tget t idx)) (all_idx (tshape t))) = t).
  { apply tensor_ext; auto; simpl.
    - apply (tgather_wf (tshape t) (tget t)). intros idx V E.
      destruct (tget_valid t idx W V); congruence.
    - intros idx V. apply (tget_gather (tshape t) (tget t) idx); auto.
      intros idx' V' E. destruct (tget_valid t idx' W V'); congruence. }
  exact (f_equal tdata E).
Qed.

Lemma tcat_perm {A} d (a b r : tensor A) : twf a -> twf b -> tcat d a b = Ok r ->
  Permutation (tdata r) (tdata a ++ tdata b).
Proof.
  intros Wa Wb E. unfold tcat in E.
  destruct (nth_error (tshape a) d) as [na|] eqn:Ea; [|discriminate].
  destruct (nth_error (tshape b) d) as [nb|] eqn:Eb; [|discriminate].
  destruct (eqb_list _ _) eqn:Es; [|discriminate]. apply eqb_list_eq in Es. injection E as <-.
  simpl. pose proof (nth_error_lt _ _ _ Ea) as La. pose proof (nth_error_lt _ _ _ Eb) as Lb.
  rewrite (Permutation_flat_map _ (all_idx_cat d (tshape a) na nb La)).
  rewrite flat_map_app, flat_map_map.
  rewrite (set_nth_id d na (tshape a) Ea).
  assert (Eab : set_nth d nb (tshape a) = tshape b).
  { rewrite <- (set_nth_id d nb (tshape b) Eb), <- (set_nth_set_nth d nb 0 (tshape a)), Es.
    apply set_nth_set_nth. }
  rewrite Eab. rewrite <- (gather_self a Wa). rewrite <- (gather_self b Wb).
  apply Permutation_app; apply Permutation_refl'; apply flat_map_ext_in'; intros idx Hi;
    apply all_idx_valid in Hi.
  - pose proof (valid_idx_nth _ _ _ _ Hi Ea). destruct (Nat.ltb_spec (nth d idx 0) na); auto. lia.
  - unfold bump. pose proof (valid_idx_length _ _ Hi) as L.
    rewrite nth_set_nth_same by lia.
    destruct (Nat.ltb_spec (nth d idx 0 + na) na); [lia|].
    rewrite set_nth_set_nth. replace (nth d idx 0 + na - na) with (nth d idx 0) by lia.
    rewrite set_nth_nth by lia. reflexivity.
Qed.

(** ** Growing one dimension after the other *)

Fixpoint grow (k : nat) (ds s : list nat) : list nat :=
  match ds with
  | [] => s
  | d :: r => grow (S k) r (set_nth k (nth k s 0 + d) s)
  end.

Fixpoint shift (k : nat) (ds idx : list nat) : list nat :=
  match ds with
  | [] => idx
  | d :: r => shift (S k) r (set_nth k (nth k idx 0 + d / 2) idx)
  end.

Lemma prod_set_nth k m s : k < List.length s -> prod (set_nth k m s) = m * prod (set_nth k 1 s).
Proof.
  revert k; induction s as [|n s IH]; intros k H; simpl in H; [lia|].
  destruct k; simpl.
  - unfold prod. simpl. lia.
  - change (prod (n :: set_nth k m s)) with (n * prod (set_nth k m s)).
    change (prod (n :: set_nth k 1 s)) with (n * prod (set_nth k 1 s)).
    rewrite IH by lia. lia.
Qed.

Lemma grow_length k ds s : List.length (grow k ds s) = List.length s.
Proof.
  revert k s; induction ds as [|d ds IH]; simpl; intros; auto. rewrite IH, set_nth_length; auto.
Qed.

Lemma skipn_skipn' {B} a b (l : list B) : skipn a (skipn b l) = skipn (a + b) l.
Proof.
  revert l; induction b as [|b IH]; intro l; [rewrite Nat.add_0_r; auto|].
  rewrite Nat.add_succ_r. destruct l; [rewrite !skipn_nil; auto|]. simpl. apply IH.
Qed.

Lemma firstn_plus {B} a b (l : list B) : firstn (a + b) l = firstn a l ++ firstn b (skipn a l).
Proof.
  revert l; induction a as [|a IH]; intro l; auto. destruct l; simpl.
  - rewrite firstn_nil. auto.
  - rewrite IH. auto.
Qed.

Lemma nth_error_nth0 (s : list nat) k : k < List.length s -> nth_error s k = Some (nth k s 0).
Proof. intro H. apply nth_error_nth'. auto. Qed.

Lemma prod_grow_le k ds s : k + List.length ds <= List.length s -> prod s <= prod (grow k ds s).
Proof.
  revert k s; induction ds as [|d ds IH]; simpl; intros k s H; auto.
  etransitivity; [|apply IH; rewrite set_nth_length; lia].
  rewrite <- (set_nth_nth k s) at 1 by lia.
  rewrite (prod_set_nth k (nth k s 0)), (prod_set_nth k (nth k s 0 + d)) by lia.
  apply Nat.mul_le_mono_r. lia.
Qed.

Section Grow.
Context {A : Type}.

Lemma enlarge_step_grow (pars : list A) cur indx k d :
  twf cur -> k < List.length (tshape cur) ->
  indx + (prod (set_nth k (nth k (tshape cur) 0 + d) (tshape cur)) - prod (tshape cur))
    <= List.length pars ->
  exists r, enlarge_step pars (cur, indx) (k, d)
    = Ok (r, indx + (prod (set_nth k (nth k (tshape cur) 0 + d) (tshape cur)) - prod (tshape cur)))
    /\ twf r /\ tshape r = set_nth k (nth k (tshape cur) 0 + d) (tshape cur) /\
    (forall idx, valid_idx (tshape cur) idx -> tget r (bump k (d / 2) idx) = tget cur idx) /\
    Permutation (tdata r) (tdata cur ++ firstn
      (prod (set_nth k (nth k (tshape cur) 0 + d) (tshape cur)) - prod (tshape cur)) (skipn indx pars)).
Proof.
  intros W Hk Hl. set (s := tshape cur) in *. set (n := nth k s 0) in *.
  assert (Hs : prod s = n * prod (set_nth k 1 s)).
  { rewrite <- (set_nth_nth k s) at 1 by auto. apply prod_set_nth; auto. }
  unfold enlarge_step. destruct (Nat.ltb_spec 0 d) as [Hd|Hd].
  2:{ assert (d = 0) by lia. subst d. exists cur.
      assert (E : set_nth k (n + 0) s = s) by (rewrite Nat.add_0_r; apply set_nth_nth; auto).
      rewrite E, Nat.sub_diag, Nat.add_0_r. fold s. repeat split; auto.
      - intros idx V. unfold bump. change (0 / 2) with 0. rewrite Nat.add_0_r, set_nth_nth; auto.
        rewrite (valid_idx_length _ _ V). auto.
      - simpl. rewrite app_nil_r. auto. }
  set (P := prod (set_nth k 1 s)) in *.
  assert (Hb : d / 2 <= d) by (apply Nat.div_le_upper_bound; lia).
  set (beg := d / 2) in *.
  assert (HP : prod (set_nth k (n + d) s) - prod s = beg * P + (d - beg) * P).
  { rewrite prod_set_nth, Hs by auto. fold P.
    rewrite <- (Nat.mul_add_distr_r beg). replace (beg + (d - beg)) with d by lia.
    rewrite Nat.mul_add_distr_r. lia. }
  rewrite HP in *. unfold list_set. fold s.
  destruct (Nat.ltb_spec k (List.length s)); [|lia]. cbn [bind].
  assert (Pb : prod (set_nth k beg s) = beg * P) by (apply prod_set_nth; auto).
  assert (Pe : prod (set_nth k (d - beg) s) = (d - beg) * P) by (apply prod_set_nth; auto).
  rewrite Pb, Pe. unfold tview.
  rewrite Pb, Pe, !firstn_length, !skipn_length, !Nat.min_l by lia.
  rewrite !Nat.eqb_refl. cbn [bind].
  set (tb := mkT (set_nth k beg s) (firstn (beg * P) (skipn indx pars))).
  set (te := mkT (set_nth k (d - beg) s)
               (firstn ((d - beg) * P) (skipn (indx + beg * P) pars))).
  assert (Wb : twf tb).
  { unfold twf, tb; simpl. rewrite firstn_length, skipn_length, Nat.min_l by lia. auto. }
  assert (We : twf te).
  { unfold twf, te; simpl. rewrite firstn_length, skipn_length, Nat.min_l by lia. auto. }
  destruct (tcat_ok k tb cur beg n Wb W) as [r1 [E1 [W1 [S1 G1]]]].
  { apply nth_error_set_nth_same; auto. }
  { apply nth_error_nth0; auto. }
  { unfold tb; simpl. rewrite set_nth_set_nth. reflexivity. }
  rewrite E1. cbn [bind].
  assert (S1' : tshape r1 = set_nth k (beg + n) s) by (rewrite S1; apply set_nth_set_nth).
  destruct (tcat_ok k r1 te (beg + n) (d - beg) W1 We) as [r2 [E2 [W2 [S2 G2]]]].
  { rewrite S1'. apply nth_error_set_nth_same; auto. }
  { apply nth_error_set_nth_same; auto. }
  { rewrite S1'. simpl. rewrite !set_nth_set_nth. reflexivity. }
  rewrite E2. cbn [bind]. exists r2.
  assert (S2' : tshape r2 = set_nth k (n + d) s).
  { rewrite S2, S1', set_nth_set_nth. f_equal. lia. }
  split; [f_equal; f_equal; lia|]. split; auto. split; auto. split.
  - intros idx V. pose proof (valid_idx_length _ _ V) as Lv. fold s in Lv.
    pose proof (valid_idx_nth _ _ k n V (nth_error_nth0 s k Hk)) as Hi.
    unfold bump. rewrite G2.
    2:{ rewrite S2'. apply valid_idx_set; auto. lia. }
    rewrite nth_set_nth_same by lia.
    destruct (Nat.ltb_spec (nth k idx 0 + beg) (beg + n)); [|lia].
    rewrite G1.
    2:{ rewrite S1'. apply valid_idx_set; auto; lia. }
    rewrite nth_set_nth_same by lia.
    destruct (Nat.ltb_spec (nth k idx 0 + beg) beg); [lia|].
    rewrite set_nth_set_nth. replace (nth k idx 0 + beg - beg) with (nth k idx 0) by lia.
    rewrite set_nth_nth by lia. reflexivity.
  - rewrite (tcat_perm k r1 te r2 W1 We E2), (tcat_perm k tb cur r1 Wb W E1).
    unfold tb, te; simpl.
    assert (Sp : firstn (beg * P + (d - beg) * P) (skipn indx pars)
      = firstn (beg * P) (skipn indx pars) ++ firstn ((d - beg) * P) (skipn (indx + beg * P) pars)).
    { rewrite firstn_plus, skipn_skipn'. f_equal. f_equal. f_equal. lia. }
    rewrite Sp. rewrite <- !app_assoc. apply Permutation_app_swap_app.
Qed.

Lemma enlarge_loop (pars : list A) ds : forall k cur indx,
  twf cur -> k + List.length ds = List.length (tshape cur) ->
  indx + (prod (grow k ds (tshape cur)) - prod (tshape cur)) <= List.length pars ->
  exists r i, foldM (enlarge_step pars) (combine (seq k (List.length ds)) ds) (cur, indx) = Ok (r, i) /\
    i = indx + (prod (grow k ds (tshape cur)) - prod (tshape cur)) /\
    twf r /\ tshape r = grow k ds (tshape cur) /\
    (forall idx, valid_idx (tshape cur) idx -> tget r (shift k ds idx) = tget cur idx) /\
    Permutation (tdata r) (tdata cur ++
      firstn (prod (grow k ds (tshape cur)) - prod (tshape cur)) (skipn indx pars)).
Proof.
  induction ds as [|d ds IH]; intros k cur indx W Hk Hl.
  - exists cur, indx. simpl. rewrite Nat.sub_diag. simpl. rewrite app_nil_r. repeat split; auto.
  - simpl List.length in *. cbn [seq combine foldM grow shift].
    simpl grow in Hl.
    set (s1 := set_nth k (nth k (tshape cur) 0 + d) (tshape cur)) in *.
    assert (L1 : prod (tshape cur) <= prod s1).
    { apply (prod_grow_le k [d] (tshape cur)). simpl. lia. }
    assert (L2 : prod s1 <= prod (grow (S k) ds s1)).
    { apply prod_grow_le. unfold s1. rewrite set_nth_length. lia. }
    destruct (enlarge_step_grow pars cur indx k d W) as [r1 [E1 [W1 [S1 [G1 P1]]]]]; fold s1.
    { lia. } { lia. }
    fold s1 in E1, P1. rewrite E1. cbn [bind].
    destruct (IH (S k) r1 (indx + (prod s1 - prod (tshape cur))) W1)
      as [r [i [E [Ei [Wr [Sr [Gr Pr]]]]]]].
    { rewrite S1. fold s1. unfold s1. rewrite set_nth_length. lia. }
    { rewrite S1. fold s1. lia. }
    rewrite S1 in *. fold s1 in Ei, Sr, Gr, Pr, E. rewrite E. exists r, i.
    split; [reflexivity|]. split; [lia|]. split; auto. split; auto. split.
    + intros idx V. rewrite <- (G1 idx V). apply Gr. unfold s1.
      apply valid_idx_set; auto.
      assert (Hk' : k < List.length (tshape cur)) by lia.
      pose proof (valid_idx_nth _ _ k _ V (nth_error_nth0 _ k Hk')).
      assert (d / 2 <= d) by (apply Nat.div_le_upper_bound; lia). lia.
    + rewrite Pr, P1, <- app_assoc. apply Permutation_app_head.
      apply Permutation_refl'.
      replace (prod (grow (S k) ds s1) - prod (tshape cur))
        with ((prod s1 - prod (tshape cur)) + (prod (grow (S k) ds s1) - prod s1)) by lia.
      set (x := prod s1 - prod (tshape cur)). set (y := prod (grow (S k) ds s1) - prod s1).
      change (firstn x (skipn indx pars) ++ firstn y (skipn (indx + x) pars)
              = firstn (x + y) (skipn indx pars)).
      rewrite firstn_plus, skipn_skipn'. f_equal. f_equal. f_equal. lia.
Qed.
End Grow.

Lemma set_nth_app {B} (p : list B) v a r : set_nth (List.length p) v (p ++ a :: r) = p ++ v :: r.
Proof. induction p; simpl; auto. rewrite IHp. auto. Qed.

Lemma grow_zip ds : forall p s, List.length ds = List.length s ->
  grow (List.length p) ds (p ++ s) = p ++ zip_plus s ds.
Proof.
  induction ds as [|d ds IH]; intros p [|n s] H; simpl in H; try lia; simpl; auto.
  rewrite app_nth2, Nat.sub_diag by lia. simpl. rewrite set_nth_app.
  replace (p ++ (n + d) :: s) with ((p ++ [n + d]) ++ s) by (rewrite <- app_assoc; reflexivity).
  replace (S (List.length p)) with (List.length (p ++ [n + d])) by (rewrite app_length; simpl; lia).
  rewrite IH by lia. rewrite <- app_assoc. reflexivity.
Qed.

Lemma shift_zip ds : forall p s, List.length ds = List.length s ->
  shift (List.length p) ds (p ++ s) = p ++ zip_plus s (margins ds).
Proof.
  induction ds as [|d ds IH]; intros p [|n s] H; simpl in H; try lia;
    [reflexivity|]. cbn [shift margins map zip_plus].
  rewrite app_nth2, Nat.sub_diag by lia. cbn [nth]. rewrite set_nth_app.
  set (v := n + d / 2).
  replace (p ++ v :: s) with ((p ++ [v]) ++ s) by (rewrite <- app_assoc; reflexivity).
  replace (S (List.length p)) with (List.length (p ++ [v])) by (rewrite app_length; simpl; lia).
  rewrite IH by lia. rewrite <- app_assoc. reflexivity.
Qed.

Lemma enlarge_ok {A} (t : tensor A) pars diff :
  twf t -> List.length diff = List.length (tshape t) -> nth_error diff 1 = Some 0 ->
  prod (tshape t) + List.length pars = prod (zip_plus (tshape t) diff) ->
  exists r, enlarge_tensor t pars diff = Ok r /\ twf r /\
    tshape r = zip_plus (tshape t) diff /\
    (forall idx, valid_idx (tshape t) idx ->
       tget r (zip_plus idx (margins diff)) = tget t idx) /\
    Permutation (tdata r) (tdata t ++ pars).
Proof.
  intros W L C Hl. unfold enlarge_tensor, list_item. rewrite C. cbn [bind].
  simpl (negb _). cbn [negb Nat.eqb].
  pose proof (grow_zip diff [] (tshape t) L) as G. simpl in G.
  destruct (enlarge_loop pars diff 0 t 0 W L) as [r [i [E [Ei [Wr [Sr [Gr Pr]]]]]]].
  { rewrite G. lia. }
  rewrite E. cbn [bind]. exists r. rewrite G in Sr, Pr. repeat split; auto.
  - intros idx V. rewrite <- (Gr idx V).
    pose proof (shift_zip diff [] idx) as Sh. simpl in Sh. rewrite Sh; auto.
    rewrite L. symmetry. apply valid_idx_length; auto.
  - rewrite Pr. simpl. rewrite firstn_all2 by lia. auto.
Qed.

(** ** The positions of the parameters: enlarging commutes with relabelling *)

Lemma tget_tmap {A B} (f : A -> B) t idx : tget (tmap f t) idx = option_map f (tget t idx).
Proof. unfold tget, tmap; simpl. destruct (ravel _ _); auto. apply nth_error_map. Qed.

Lemma tgather_map {A B} (f : A -> B) s src src' :
  (forall idx, src' idx = option_map f (src idx)) -> tgather s src' = tmap f (tgather s src).
Proof.
  intro H. unfold tgather, tmap; simpl. f_equal. induction (all_idx s) as [|i l IH]; simpl; auto.
  rewrite H, map_app, <- IH. destruct (src i); reflexivity.
Qed.

Definition rmap {A B} (f : A -> B) (r : result A) : result B :=
  match r with Ok a => Ok (f a) | Raise e => Raise e end.

Lemma tcat_map {A B} (f : A -> B) d a b : tcat d (tmap f a) (tmap f b) = rmap (tmap f) (tcat d a b).
Proof.
  unfold tcat. simpl.
  destruct (nth_error (tshape a) d), (nth_error (tshape b) d); auto.
  destruct (eqb_list _ _); simpl; auto. f_equal. apply tgather_map.
  intro idx. destruct (nth d idx 0 <? _); apply tget_tmap.
Qed.

Lemma tview_map {A B} (f : A -> B) l s : tview (map f l) s = rmap (tmap f) (tview l s).
Proof. unfold tview. rewrite map_length. destruct (_ =? _); reflexivity. Qed.

Lemma enlarge_step_map {A B} (f : A -> B) pars cur i cd :
  enlarge_step (map f pars) (tmap f cur, i) cd
  = rmap (fun p => (tmap f (fst p), snd p)) (enlarge_step pars (cur, i) cd).
Proof.
  unfold enlarge_step. destruct cd as [c d]. destruct (0 <? d); [|reflexivity].
  simpl tshape. unfold list_set. destruct (c <? List.length (tshape cur)); [|reflexivity].
  cbn [bind]. rewrite !skipn_map, !firstn_map. rewrite !tview_map.
  destruct (tview _ (set_nth c (d / 2) _)) as [tb|]; [|reflexivity]. cbn [rmap bind].
  destruct (tview _ _) as [te|]; [|reflexivity]. cbn [rmap bind].
  rewrite tcat_map. destruct (tcat c tb cur) as [r|]; [|reflexivity]. cbn [rmap bind].
  rewrite tcat_map. destruct (tcat c r te); reflexivity.
Qed.

Lemma enlarge_map {A B} (f : A -> B) t pars diff :
  enlarge_tensor (tmap f t) (map f pars) diff = rmap (tmap f) (enlarge_tensor t pars diff).
Proof.
  unfold enlarge_tensor. destruct (list_item diff 1); [|reflexivity]. cbn [bind].
  destruct (negb _); [reflexivity|].
  generalize (combine (seq 0 (List.length diff)) diff) as l.
  assert (H : forall l t i,
    (' (r, _) <- foldM (enlarge_step (map f pars)) l (tmap f t, i) ;; Ok r)
    = rmap (tmap f) (' (r, _) <- foldM (enlarge_step pars) l (t, i) ;; Ok r)); [|auto].
  clear t. induction l as [|cd l IH]; intros t i; [reflexivity|].
  cbn [foldM]. rewrite enlarge_step_map.
  destruct (enlarge_step pars (t, i) cd) as [[r j]|]; [|reflexivity]. cbn [rmap bind fst snd].
  apply IH.
Qed.

Lemma NoDup_app_disjoint {A} (l1 l2 : list A) : NoDup l1 -> NoDup l2 ->
  (forall x, In x l1 -> In x l2 -> False) -> NoDup (l1 ++ l2).
Proof.
  induction l1 as [|a l1 IH]; simpl; intros H1 H2 D; auto. inversion H1; subst.
  constructor.
  - intro H. apply in_app_or in H as [H|H]; [auto|]. apply (D a); auto.
  - apply IH; auto. intros x Hx Hy. apply (D x); auto.
Qed.

Lemma map_nth_error_seq {A} (l : list A) :
  map (fun i => nth_error l i) (seq 0 (List.length l)) = map Some l.
Proof.
  apply list_ext. intro i. rewrite !nth_error_map.
  destruct (Nat.lt_ge_cases i (List.length l)).
  - rewrite nth_error_seq by auto. simpl. destruct (nth_error l i) eqn:E; auto.
    apply nth_error_None in E. lia.
  - rewrite (proj2 (nth_error_None l i)) by auto.
    rewrite (proj2 (nth_error_None (seq 0 (List.length l)) i)) by (rewrite seq_length; auto). auto.
Qed.

(** Every position outside the original block holds one parameter, each
    parameter exactly once. *)
Lemma enlarge_positions {A} (t : tensor A) pars diff :
  twf t -> List.length diff = List.length (tshape t) -> nth_error diff 1 = Some 0 ->
  prod (tshape t) + List.length pars = prod (zip_plus (tshape t) diff) ->
  exists r pos, enlarge_tensor t pars diff = Ok r /\
    (forall idx, valid_idx (tshape r) idx ->
       (exists i, valid_idx (tshape t) i /\ idx = zip_plus i (margins diff)) \/
       (pos idx < List.length pars /\ tget r idx = nth_error pars (pos idx))) /\
    (forall p, p < List.length pars ->
       exists idx, valid_idx (tshape r) idx /\ pos idx = p /\
         (forall i, valid_idx (tshape t) i -> idx <> zip_plus i (margins diff)) /\
         forall idx', valid_idx (tshape r) idx' ->
           (forall i, valid_idx (tshape t) i -> idx' <> zip_plus i (margins diff)) ->
           pos idx' = p -> idx' = idx).
Proof.
  intros W L C Hl.
  (* label the elements of the tensor by inl, the parameters by inr *)
  set (t0 := mkT (tshape t) (map (@inl nat nat) (seq 0 (prod (tshape t))))).
  set (p0 := map (@inr nat nat) (seq 0 (List.length pars))).
  assert (W0 : twf t0) by (unfold twf, t0; simpl; rewrite map_length, seq_length; auto).
  destruct (enlarge_ok t0 p0 diff W0) as [r0 [E0 [Wr0 [S0 [G0 P0]]]]]; auto.
  { unfold p0. rewrite map_length, seq_length. auto. }
  assert (ND : NoDup (tdata r0)).
  { apply (Permutation_NoDup (Permutation_sym P0)). unfold t0, p0. simpl.
    apply NoDup_app_disjoint; try (apply FinFun.Injective_map_NoDup;
      [intros x y [=]; auto|apply seq_NoDup]).
    intros x H1 H2. apply in_map_iff in H1 as [? [<- _]]. apply in_map_iff in H2 as [? [[=] _]]. }
  set (f := fun v => match v with inl i => nth_error (tdata t) i | inr j => nth_error pars j end).
  assert (Ft : tmap f t0 = tmap Some t).
  { unfold tmap, t0, f; simpl. f_equal. rewrite map_map. rewrite <- W. apply map_nth_error_seq. }
  assert (Fp : map f p0 = map Some pars).
  { unfold p0, f. rewrite map_map. apply map_nth_error_seq. }
  destruct (enlarge_ok t pars diff W L C Hl) as [r [E [Wr [Sr [Gr Pr]]]]].
  pose proof (enlarge_map f t0 p0 diff) as M0. rewrite E0, Ft, Fp, enlarge_map, E in M0.
  cbn [rmap] in M0. injection M0 as M1 M2.
  assert (Sh : tshape r = tshape r0) by congruence.
  assert (Get : forall idx v, tget r0 idx = Some v -> tget r idx = f v).
  { intros idx v Hv. assert (Eq : tget (tmap Some r) idx = tget (tmap f r0) idx).
    { unfold tget, tmap; simpl. rewrite Sh, M2. reflexivity. }
    rewrite !tget_tmap, Hv in Eq. destruct (tget r idx); simpl in Eq; congruence. }
  assert (In0 : forall idx v, tget r0 idx = Some v ->
    (exists i, v = inl i /\ i < prod (tshape t)) \/ (exists j, v = inr j /\ j < List.length pars)).
  { intros idx v Hv. unfold tget in Hv. destruct (ravel _ _); [|discriminate].
    apply nth_error_In in Hv. apply (Permutation_in _ P0) in Hv. apply in_app_or in Hv.
    unfold t0, p0 in Hv; simpl in Hv.
    destruct Hv as [Hv|Hv]; apply in_map_iff in Hv as [k [<- Hk]]; apply in_seq in Hk;
      [left|right]; exists k; split; auto; lia. }
  assert (Inj : forall i1 i2 v, tget r0 i1 = Some v -> tget r0 i2 = Some v -> i1 = i2).
  { intros i1 i2 v H1 H2. unfold tget in *.
    destruct (ravel (tshape r0) i1) as [n1|] eqn:R1; [|discriminate].
    destruct (ravel (tshape r0) i2) as [n2|] eqn:R2; [|discriminate].
    assert (n1 = n2).
    { apply (proj1 (NoDup_nth_error (tdata r0)) ND).
      - apply nth_error_Some. congruence.
      - congruence. }
    subst n2. apply all_idx_ravel in R1, R2. congruence. }
  assert (Inside : forall i, valid_idx (tshape t) i ->
    exists n, tget r0 (zip_plus i (margins diff)) = Some (inl n)).
  { intros i V. rewrite (G0 i V). destruct (tget_valid t0 i W0 V) as [v Hv]. rewrite Hv.
    unfold tget in Hv. destruct (ravel _ _); [|discriminate]. apply nth_error_In in Hv.
    unfold t0 in Hv; simpl in Hv. apply in_map_iff in Hv as [k [<- _]]. eauto. }
  exists r, (fun idx => match tget r0 idx with Some (inr j) => j | _ => 0 end).
  split; auto.
  assert (Class : forall idx, valid_idx (tshape r) idx ->
    (exists i, valid_idx (tshape t) i /\ idx = zip_plus i (margins diff)) \/
    exists j, tget r0 idx = Some (inr j) /\ j < List.length pars).
  { intros idx V. rewrite Sh in V. destruct (tget_valid r0 idx Wr0 V) as [v Hv].
    destruct (In0 idx v Hv) as [[i [-> Hi]]|[j [-> Hj]]]; [left|right; eauto].
    destruct (ravel_onto (tshape t) i Hi) as [i0 R0]. exists i0.
    pose proof (ravel_some_valid _ _ _ R0) as V0. split; auto.
    apply (Inj _ _ (inl i)); auto. rewrite (G0 i0 V0). unfold tget, t0. simpl. rewrite R0.
    rewrite nth_error_map, nth_error_seq by auto. reflexivity. }
  split.
  - intros idx V. destruct (Class idx V) as [H|[j [Ej Hj]]]; [left; exact H|right].
    rewrite Ej. split; auto. apply (Get idx (inr j)); auto.
  - intros p Hp.
    assert (Hin : In (inr p) (tdata r0)).
    { apply (Permutation_in _ (Permutation_sym P0)). apply in_or_app. right.
      unfold p0. apply in_map. apply in_seq. lia. }
    apply In_nth_error in Hin as [n Hn].
    assert (Hlt : n < prod (tshape r0)).
    { rewrite <- Wr0. apply nth_error_Some. congruence. }
    destruct (ravel_onto (tshape r0) n Hlt) as [idx Ri].
    assert (Hg : tget r0 idx = Some (inr p)) by (unfold tget; rewrite Ri; auto).
    exists idx. rewrite Hg. split; [rewrite Sh; eapply ravel_some_valid; eauto|]. split; auto.
    split.
    + intros i Vi ->. destruct (Inside i Vi) as [m Hm]. congruence.
    + intros idx' V' Out Hp'. destruct (Class idx' V') as [[i [Vi Ei]]|[j [Ej _]]].
      * exfalso. exact (Out i Vi Ei).
      * rewrite Ej in Hp'. subst j. apply (Inj _ _ (inr p)); auto.
Qed.

(** The difference computed at creation is the one that reaches the desired
    size. *)
Lemma size_diff_ok desired : forall current,
  Forall2 (fun c d => c <= d) current desired ->
  exists diff, size_diff desired current = Ok diff /\ List.length diff = List.length current /\
    zip_plus current diff = desired /\ prod current <= prod desired /\
    forall i c, nth_error current i = Some c -> nth_error desired i = Some c -> nth_error diff i = Some 0.
Proof.
  induction desired as [|d ds IH]; intros current F; destruct current as [|c cs]; try (inversion F; fail).
  - exists []. repeat split; auto. intros [|i] c [=].
  - assert (Hc : c <= d) by (inversion F; auto).
    assert (Fc : Forall2 (fun c d => c <= d) cs ds) by (inversion F; auto).
    destruct (IH _ Fc) as (diff & E & L & Z & P & N).
    assert (Hb : d <? c = false) by (apply Nat.ltb_ge; auto).
    exists ((d - c) :: diff). cbn [size_diff]. rewrite Hb, E. split; [reflexivity|].
    split; [simpl; auto|]. split; [simpl; rewrite Z; f_equal; lia|].
    split; [simpl; apply Nat.mul_le_mono; auto|].
    intros [|i] c1; simpl; [|apply N]. intros [= ->] [= ->]. rewrite Nat.sub_diag. reflexivity.
Qed.

Lemma enlarge_reaches {A} (t : tensor A) desired0 c pars :
  twf t -> nth_error (tshape t) 1 = Some c ->
  Forall2 (fun c d => c <= d) (tshape t) (set_nth 1 c desired0) ->
  List.length pars = prod (set_nth 1 c desired0) - prod (tshape t) ->
  exists diff r, size_diff (set_nth 1 c desired0) (tshape t) = Ok diff /\
    enlarge_tensor t pars diff = Ok r /\ tshape r = set_nth 1 c desired0 /\
    forall idx, valid_idx (tshape t) idx ->
      tget r (zip_plus idx (margins diff)) = tget t idx.
Proof.
  intros W C F HP. destruct (size_diff_ok _ _ F) as (diff & E & L & Z & P & N).
  assert (L1 : 1 < List.length desired0).
  { assert (List.length (tshape t) = List.length (set_nth 1 c desired0)) as X.
    { clear -F. induction F; simpl; auto. }
    rewrite set_nth_length in X. apply nth_error_lt in C. lia. }
  destruct (enlarge_ok t pars diff W L) as (r & Er & _ & Sr & Gr & _).
  - apply (N 1 c C). apply nth_error_set_nth_same. exact L1.
  - rewrite Z. lia.
  - exists diff, r. rewrite Z in Sr. auto.
Qed.

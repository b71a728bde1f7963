(** Facts about tensors: row-major indexing, extensionality, cat and slice. *)
From Coq Require Import List Arith Lia Bool.
From Verif Require Import Base BaseFacts Tensor.
Import ListNotations.

Lemma ravel_valid s idx : valid_idx s idx -> exists r, ravel s idx = Some r /\ r < prod s.
Proof.
  revert idx; induction s as [|n s IH]; intros [|i idx]; simpl; try tauto.
  - intros _; exists 0; auto.
  - intros [Hi Hv]. destruct (IH _ Hv) as [r [-> Hr]].
    apply Nat.ltb_lt in Hi as Hi'. rewrite Hi'. simpl. eexists; split; [reflexivity|].
    nia.
Qed.

Lemma ravel_some_valid s idx r : ravel s idx = Some r -> valid_idx s idx.
Proof.
  revert idx r; induction s as [|n s IH]; intros [|i idx] r; simpl; try discriminate; auto.
  destruct (Nat.ltb_spec i n); [|discriminate].
  destruct (ravel s idx) eqn:E; [|discriminate]. intros _; split; eauto.
Qed.

Lemma all_idx_length s : length (all_idx s) = prod s.
Proof.
  induction s as [|n s IH]; simpl; auto.
  assert (forall l, length (flat_map (fun i => map (cons i) (all_idx s)) l) = length l * prod s).
  { induction l; simpl; auto. rewrite app_length, map_length, IHl, IH; auto. }
  rewrite H, seq_length; auto.
Qed.

Lemma nth_error_flat_map_const {A B} (f : A -> list B) m l i a j :
  (forall x, In x l -> length (f x) = m) ->
  nth_error l i = Some a -> j < m ->
  nth_error (flat_map f l) (i * m + j) = nth_error (f a) j.
Proof.
  revert i; induction l as [|x l IH]; intros [|i] Hlen Hn Hj; simpl in *; try discriminate.
  - inversion Hn; subst. apply nth_error_app1. rewrite Hlen; auto.
  - rewrite nth_error_app2 by (rewrite Hlen by auto; lia).
    rewrite Hlen by auto.
    replace (m + i * m + j - m) with (i * m + j) by lia. apply IH; auto.
Qed.

Lemma nth_error_seq n a i : i < n -> nth_error (seq a n) i = Some (a + i).
Proof.
  revert a i; induction n; intros a i H; [lia|]. destruct i; simpl; [f_equal; lia|].
  rewrite IHn by lia. f_equal; lia.
Qed.

Lemma all_idx_ravel s idx r : ravel s idx = Some r -> nth_error (all_idx s) r = Some idx.
Proof.
  revert idx r; induction s as [|n s IH]; intros [|i idx] r; simpl; try discriminate.
  - intros [=]; subst; reflexivity.
  - destruct (Nat.ltb_spec i n) as [Hi|]; [|discriminate].
    destruct (ravel s idx) as [r'|] eqn:E; [|discriminate]. intros [=]; subst.
    assert (r' < prod s) as Hr.
    { apply ravel_some_valid in E as V. destruct (ravel_valid _ _ V) as [r'' [E' ?]].
      congruence. }
    erewrite nth_error_flat_map_const with (m := prod s) (a := i).
    + rewrite nth_error_map. rewrite (IH _ _ E). reflexivity.
    + intros. rewrite map_length, all_idx_length; auto.
    + rewrite nth_error_seq by auto. f_equal.
    + auto.
Qed.

Lemma all_idx_valid s idx : In idx (all_idx s) <-> valid_idx s idx.
Proof.
  split.
  - revert idx; induction s as [|n s IH]; simpl; intros idx H.
    + destruct H as [<-|[]]; simpl; auto.
    + apply in_flat_map in H as [i [Hi H]]. apply in_map_iff in H as [idx' [<- H]].
      apply in_seq in Hi. split; [lia|auto].
  - intro V. destruct (ravel_valid _ _ V) as [r [E _]]. apply all_idx_ravel in E.
    eapply nth_error_In; eauto.
Qed.

Lemma tget_valid {A} (t : tensor A) idx :
  twf t -> valid_idx (tshape t) idx -> exists a, tget t idx = Some a.
Proof.
  intros W V. unfold tget. destruct (ravel_valid _ _ V) as [r [-> Hr]].
  destruct (nth_error (tdata t) r) eqn:E; eauto.
  apply nth_error_None in E. unfold twf in W. lia.
Qed.

Lemma tget_invalid {A} (t : tensor A) idx a : tget t idx = Some a -> valid_idx (tshape t) idx.
Proof.
  unfold tget. destruct (ravel (tshape t) idx) eqn:E; [|discriminate].
  intros _; eapply ravel_some_valid; eauto.
Qed.

Lemma list_ext {A} (l1 l2 : list A) :
  (forall i, nth_error l1 i = nth_error l2 i) -> l1 = l2.
Proof.
  revert l2; induction l1; intros [|b l2] H; auto.
  - specialize (H 0); discriminate.
  - specialize (H 0); discriminate.
  - f_equal; [specialize (H 0); simpl in H; congruence|].
    apply IHl1. intro i. apply (H (S i)).
Qed.

(** Row-major positions are exactly the valid indices. *)
Lemma ravel_onto s r : r < prod s -> exists idx, ravel s idx = Some r.
Proof.
  revert r; induction s as [|n s IH]; simpl; intros r H.
  - exists []; f_equal; lia.
  - assert (prod s <> 0) by (intro Z; rewrite Z in H; lia).
    destruct (IH (r mod prod s)) as [idx E]. { apply Nat.mod_upper_bound; auto. }
    exists (r / prod s :: idx).
    assert (r / prod s < n) as Hq. { apply Nat.div_lt_upper_bound; auto. lia. }
    simpl. apply Nat.ltb_lt in Hq. rewrite Hq, E. simpl. f_equal.
    rewrite (Nat.div_mod r (prod s)) at 3 by auto. lia.
Qed.

(** Two tensors with the same shape and the same elements are equal. *)
Lemma tensor_ext {A} (t1 t2 : tensor A) :
  twf t1 -> twf t2 -> tshape t1 = tshape t2 ->
  (forall idx, valid_idx (tshape t1) idx -> tget t1 idx = tget t2 idx) -> t1 = t2.
Proof.
  destruct t1 as [s1 d1], t2 as [s2 d2]; unfold twf; simpl. intros W1 W2 <- H.
  f_equal. apply list_ext. intro i.
  destruct (Nat.lt_ge_cases i (prod s1)) as [Hi|Hi].
  - destruct (ravel_onto _ _ Hi) as [idx E].
    specialize (H idx (ravel_some_valid _ _ _ E)). unfold tget in H. simpl in H.
    rewrite E in H. auto.
  - rewrite !(proj2 (nth_error_None _ _)) by lia. auto.
Qed.

Lemma flat_map_opt_total {A B} (f : A -> option B) l :
  (forall a, In a l -> f a <> None) ->
  length (flat_map (fun a => opt_list (f a)) l) = length l /\
  forall i a, nth_error l i = Some a ->
              nth_error (flat_map (fun a => opt_list (f a)) l) i = f a.
Proof.
  induction l as [|x l IH]; simpl; intros H.
  - split; auto. intros [|]; discriminate.
  - destruct IH as [L N]; [auto|].
    destruct (f x) eqn:E; [|exfalso; eapply H; eauto]. simpl. split; [auto|].
    intros [|i] a; simpl; [intros [=]; subst; auto|auto].
Qed.

Lemma tgather_wf {A} s (src : list nat -> option A) :
  (forall idx, valid_idx s idx -> src idx <> None) -> twf (tgather s src).
Proof.
  intro H. unfold twf, tgather; simpl.
  rewrite (proj1 (flat_map_opt_total src (all_idx s) (fun a Ha => H a (proj1 (all_idx_valid s a) Ha)))).
  apply all_idx_length.
Qed.

Lemma tget_gather {A} s (src : list nat -> option A) idx :
  (forall idx, valid_idx s idx -> src idx <> None) ->
  valid_idx s idx -> tget (tgather s src) idx = src idx.
Proof.
  intros H V. unfold tget, tgather; simpl.
  destruct (ravel_valid _ _ V) as [r [E _]]. rewrite E.
  apply (proj2 (flat_map_opt_total src (all_idx s)
           (fun a Ha => H a (proj1 (all_idx_valid s a) Ha)))).
  apply all_idx_ravel; auto.
Qed.

Lemma prod_app s1 s2 : prod (s1 ++ s2) = prod s1 * prod s2.
Proof. induction s1; simpl; [lia|]. rewrite IHs1; lia. Qed.

Lemma prod_pos_valid s : 0 < prod s -> exists idx, valid_idx s idx.
Proof.
  intro H. destruct (ravel_onto s 0 H) as [idx E]. exists idx. eapply ravel_some_valid; eauto.
Qed.

(** * set_nth *)

Lemma set_nth_length {A} d (v : A) l : length (set_nth d v l) = length l.
Proof. revert d; induction l; intros [|d]; simpl; auto. Qed.

Lemma nth_error_set_nth_same {A} d (v : A) l : d < length l -> nth_error (set_nth d v l) d = Some v.
Proof. revert d; induction l; intros [|d]; simpl; intros; try lia; auto. apply IHl; lia. Qed.

Lemma nth_error_set_nth_other {A} d e (v : A) l : d <> e -> nth_error (set_nth d v l) e = nth_error l e.
Proof. revert d e; induction l; intros [|d] [|e]; simpl; intros; auto; try congruence. Qed.

Lemma set_nth_set_nth {A} d (v w : A) l : set_nth d v (set_nth d w l) = set_nth d v l.
Proof. revert d; induction l; intros [|d]; simpl; congruence. Qed.

Lemma set_nth_id {A} d (v : A) l : nth_error l d = Some v -> set_nth d v l = l.
Proof. revert d; induction l; intros [|d]; simpl; intros; try congruence. rewrite IHl; auto. Qed.

Lemma set_nth_nth d l : d < length l -> set_nth d (nth d l 0) l = l.
Proof. intro H. apply set_nth_id. apply nth_error_nth'; auto. Qed.

Lemma nth_set_nth_same d v l : d < length l -> nth d (set_nth d v l) 0 = v.
Proof. intro H. apply nth_error_nth. apply nth_error_set_nth_same; auto. Qed.

Lemma valid_idx_length s idx : valid_idx s idx -> length idx = length s.
Proof.
  revert idx; induction s; intros [|i idx]; simpl; try tauto. intros [_ H]. rewrite IHs; auto.
Qed.

Lemma valid_idx_nth s idx d n :
  valid_idx s idx -> nth_error s d = Some n -> nth d idx 0 < n.
Proof.
  revert idx d; induction s as [|m s IH]; intros [|i idx] [|d]; simpl; try discriminate; try tauto.
  - intros [H _] [=]; subst; auto.
  - intros [_ H]; apply IH; auto.
Qed.

Lemma valid_idx_set s idx d m i :
  valid_idx s idx -> i < m -> valid_idx (set_nth d m s) (set_nth d i idx).
Proof.
  revert idx d; induction s as [|n s IH]; intros [|j idx] [|d]; simpl; try tauto.
  intros [H V] Hi. split; auto.
Qed.

(** Changing only the extent and the index in dimension [d]. *)
Lemma valid_idx_change s s' idx d n i :
  valid_idx s' idx -> set_nth d 0 s = set_nth d 0 s' ->
  nth_error s d = Some n -> i < n -> valid_idx s (set_nth d i idx).
Proof.
  intros V E Hn Hi.
  assert (s = set_nth d n s') as ->.
  { transitivity (set_nth d n (set_nth d 0 s)).
    - rewrite set_nth_set_nth. symmetry. apply set_nth_id; auto.
    - rewrite E, set_nth_set_nth; auto. }
  apply valid_idx_set; auto.
Qed.

Lemma nth_error_lt {A} (l : list A) d x : nth_error l d = Some x -> d < length l.
Proof. intro H. apply nth_error_Some. congruence. Qed.

Lemma eqb_list_eq l1 l2 : eqb_list l1 l2 = true <-> l1 = l2.
Proof.
  revert l2; induction l1 as [|a l1 IH]; intros [|b l2]; simpl; split; intro H; try discriminate; auto.
  - apply andb_true_iff in H as [H1 H2]. apply Nat.eqb_eq in H1. apply IH in H2. congruence.
  - inversion H; subst. rewrite Nat.eqb_refl; simpl. apply IH; auto.
Qed.

(** * Slicing *)

Lemma tslice_gen {A} d lo hi (t : tensor A) n :
  twf t -> nth_error (tshape t) d = Some n ->
  exists r, tslice d lo hi t = Ok r /\ twf r /\
    tshape r = set_nth d (Nat.min hi n - Nat.min lo n) (tshape t) /\
    forall idx, valid_idx (tshape r) idx ->
      tget r idx = tget t (set_nth d (nth d idx 0 + Nat.min lo n) idx).
Proof.
  intros W Hn. unfold tslice. rewrite Hn.
  set (s' := set_nth d (Nat.min hi n - Nat.min lo n) (tshape t)).
  assert (Hsrc : forall idx, valid_idx s' idx ->
    tget t (set_nth d (nth d idx 0 + Nat.min lo n) idx) <> None).
  { intros idx V. edestruct (tget_valid t) as [a ->]; [exact W| |discriminate].
    assert (nth d idx 0 < Nat.min hi n - Nat.min lo n).
    { eapply valid_idx_nth; eauto. unfold s'. apply nth_error_set_nth_same.
      eapply nth_error_lt; eauto. }
    eapply valid_idx_change; eauto.
    - unfold s'. rewrite set_nth_set_nth; auto.
    - lia. }
  eexists; split; [reflexivity|]. split; [apply tgather_wf; auto|]. split; [reflexivity|].
  intros idx V. exact (tget_gather _ _ idx Hsrc V).
Qed.

Lemma tslice_ok {A} d lo hi (t : tensor A) n :
  twf t -> nth_error (tshape t) d = Some n -> lo <= hi -> hi <= n ->
  exists r, tslice d lo hi t = Ok r /\ twf r /\ tshape r = set_nth d (hi - lo) (tshape t) /\
    forall idx, valid_idx (tshape r) idx ->
      tget r idx = tget t (set_nth d (nth d idx 0 + lo) idx).
Proof.
  intros W Hn Hl Hh. unfold tslice. rewrite Hn.
  rewrite (Nat.min_l lo n), (Nat.min_l hi n) by lia.
  assert (forall idx, valid_idx (set_nth d (hi - lo) (tshape t)) idx ->
            tget t (set_nth d (nth d idx 0 + lo) idx) <> None) as Hsrc.
  { intros idx V. assert (nth d idx 0 < hi - lo).
    { eapply valid_idx_nth; eauto. apply nth_error_set_nth_same. eapply nth_error_lt; eauto. }
    edestruct (tget_valid t (set_nth d (nth d idx 0 + lo) idx) W) as [a ->]; [|discriminate].
    eapply valid_idx_change with (s' := set_nth d (hi - lo) (tshape t)); eauto.
    - rewrite set_nth_set_nth; auto.
    - lia. }
  eexists; split; [reflexivity|]. split; [apply tgather_wf; auto|]. split; [reflexivity|].
  intros idx V. exact (tget_gather _ _ idx Hsrc V).
Qed.

(** * Concatenation *)

Lemma tcat_ok {A} d (a b : tensor A) na nb :
  twf a -> twf b -> nth_error (tshape a) d = Some na -> nth_error (tshape b) d = Some nb ->
  set_nth d 0 (tshape a) = set_nth d 0 (tshape b) ->
  exists r, tcat d a b = Ok r /\ twf r /\ tshape r = set_nth d (na + nb) (tshape a) /\
    forall idx, valid_idx (tshape r) idx ->
      tget r idx = if nth d idx 0 <? na then tget a idx
                   else tget b (set_nth d (nth d idx 0 - na) idx).
Proof.
  intros Wa Wb Ha Hb E. unfold tcat. rewrite Ha, Hb.
  rewrite (proj2 (eqb_list_eq _ _) E).
  match goal with |- exists r, Ok (tgather ?s ?src) = _ /\ _ =>
    assert (forall idx, valid_idx s idx -> src idx <> None) as Hsrc end.
  { intros idx V. assert (nth d idx 0 < na + nb).
    { eapply valid_idx_nth; eauto. apply nth_error_set_nth_same. eapply nth_error_lt; eauto. }
    assert (length idx = length (tshape a)) as HL.
    { apply valid_idx_length in V. rewrite set_nth_length in V; auto. }
    destruct (Nat.ltb_spec (nth d idx 0) na).
    - edestruct (tget_valid a idx Wa) as [x ->]; [|discriminate].
      rewrite <- (set_nth_nth d idx) by (rewrite HL; eapply nth_error_lt; eauto).
      eapply valid_idx_change; [exact V| |exact Ha|auto]. rewrite set_nth_set_nth; auto.
    - edestruct (tget_valid b (set_nth d (nth d idx 0 - na) idx) Wb) as [x ->]; [|discriminate].
      eapply valid_idx_change; [exact V| |exact Hb|lia]. rewrite set_nth_set_nth; auto. }
  eexists; split; [reflexivity|]. split; [apply tgather_wf; auto|]. split; [reflexivity|].
  intros idx V. exact (tget_gather _ _ idx Hsrc V).
Qed.

Lemma tcat_ok_inv {A} d (a b r : tensor A) :
  tcat d a b = Ok r ->
  exists na nb, nth_error (tshape a) d = Some na /\ nth_error (tshape b) d = Some nb /\
    set_nth d 0 (tshape a) = set_nth d 0 (tshape b) /\
    tshape r = set_nth d (na + nb) (tshape a).
Proof.
  unfold tcat. destruct (nth_error (tshape a) d), (nth_error (tshape b) d); try discriminate.
  destruct (eqb_list _ _) eqn:E; [|discriminate].
  apply eqb_list_eq in E. intros [=]; subst. eauto 10.
Qed.

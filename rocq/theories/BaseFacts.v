(** Facts about strings, sorted dictionaries and the exception monad. *)
From Coq Require Import List String Ascii Arith NArith Lia Bool Sorting.Sorted.
From Verif Require Import Base.
Import ListNotations.
Local Open Scope string_scope.

(** * Strings *)

Lemma str_ltb_irrefl a : str_ltb a a = false.
Proof. induction a; simpl; auto. rewrite Ascii.eqb_refl; auto. Qed.

Lemma N_of_ascii_inj x y : N_of_ascii x = N_of_ascii y -> x = y.
Proof.
  intro H. rewrite <- (ascii_N_embedding x), <- (ascii_N_embedding y), H; auto.
Qed.

Lemma str_lt_trans a b c : str_lt a b -> str_lt b c -> str_lt a c.
Proof.
  unfold str_lt. revert b c; induction a as [|x a IH]; intros [|y b] [|z c]; simpl;
    try discriminate; auto.
  destruct (Ascii.eqb_spec x y) as [->|Hxy]; destruct (Ascii.eqb_spec y z) as [->|Hyz]; auto.
  - apply IH.
  - destruct (Ascii.eqb_spec x z); [congruence|auto].
  - intros H1 H2. apply N.ltb_lt in H1, H2.
    destruct (Ascii.eqb_spec x z) as [->|]; [lia|]. apply N.ltb_lt; lia.
Qed.

Lemma str_lt_irrefl a : ~ str_lt a a.
Proof. unfold str_lt; rewrite str_ltb_irrefl; discriminate. Qed.

Lemma str_lt_asym a b : str_lt a b -> ~ str_lt b a.
Proof. intros H1 H2. eapply str_lt_irrefl, str_lt_trans; eauto. Qed.

Lemma str_total a b : a <> b -> str_lt a b \/ str_lt b a.
Proof.
  unfold str_lt. revert b; induction a as [|x a IH]; intros [|y b]; simpl; auto; try congruence.
  intro H. destruct (Ascii.eqb_spec x y) as [->|Hxy].
  - rewrite Ascii.eqb_refl. apply IH. congruence.
  - destruct (Ascii.eqb_spec y x); [congruence|].
    destruct (N.lt_trichotomy (N_of_ascii x) (N_of_ascii y)) as [|[|]].
    + left; apply N.ltb_lt; auto.
    + exfalso. apply Hxy, N_of_ascii_inj; auto.
    + right; apply N.ltb_lt; auto.
Qed.

Lemma str_lt_neq a b : str_lt a b -> a <> b.
Proof. intros H ->; eapply str_lt_irrefl; eauto. Qed.

Lemma str_ltb_prefix p a b : str_ltb (p ++ a) (p ++ b) = str_ltb a b.
Proof. induction p; simpl; auto. rewrite Ascii.eqb_refl; auto. Qed.

Lemma append_inj_l p a b : p ++ a = p ++ b -> a = b.
Proof. induction p; simpl; auto. intros [=]; auto. Qed.

Lemma str_app_nil_r a : a ++ "" = a.
Proof. induction a; simpl; congruence. Qed.

Lemma str_app_assoc a b c : (a ++ b) ++ c = a ++ (b ++ c).
Proof. induction a; simpl; congruence. Qed.

(** * The monad *)

Lemma bind_ok {A B} (m : result A) (f : A -> result B) b :
  bind m f = Ok b -> exists a, m = Ok a /\ f a = Ok b.
Proof. destruct m; simpl; [eauto|discriminate]. Qed.

Lemma mapM_ok_ext {A B} (f : A -> result B) (g : A -> B) l :
  (forall a, In a l -> f a = Ok (g a)) -> mapM f l = Ok (map g l).
Proof.
  induction l as [|a l IH]; simpl; intros H; auto.
  rewrite (H a) by auto. simpl. rewrite IH by (intros; apply H; auto). reflexivity.
Qed.

Lemma foldM_app {A S} (f : S -> A -> result S) l1 l2 s :
  foldM f (l1 ++ l2) s = (s' <- foldM f l1 s ;; foldM f l2 s').
Proof.
  revert s; induction l1; simpl; intros; auto. destruct (f s a); simpl; auto.
Qed.

Lemma foldM_ok {A S} (f : S -> A -> result S) (g : S -> A -> S) l s :
  (forall s a, In a l -> f s a = Ok (g s a)) -> foldM f l s = Ok (fold_left g l s).
Proof.
  revert s; induction l as [|a l IH]; simpl; intros s H; auto.
  rewrite H by auto; simpl. apply IH; intros; apply H; auto.
Qed.

(** * Sorted dictionaries *)

Lemma sd_wf_nil {A} : @sd_wf A [].
Proof. constructor. Qed.

Lemma sd_wf_cons_inv {A} k (v : A) d :
  sd_wf ((k, v) :: d) -> sd_wf d /\ Forall (str_lt k) (keys d).
Proof. intro H; inversion H; subst; auto. Qed.

Lemma sd_wf_cons {A} k (v : A) d :
  sd_wf d -> Forall (str_lt k) (keys d) -> sd_wf ((k, v) :: d).
Proof. intros; constructor; auto. Qed.

Lemma keys_set {A} k (v : A) d k' :
  In k' (keys (sd_set k v d)) -> k' = k \/ In k' (keys d).
Proof.
  induction d as [|[k0 v0] d IH]; simpl.
  - intuition.
  - destruct (String.eqb_spec k k0); subst; simpl; [intuition|].
    destruct (str_ltb k k0); simpl; intuition.
Qed.

Lemma keys_set_conv {A} k (v : A) d k' :
  k' = k \/ In k' (keys d) -> In k' (keys (sd_set k v d)).
Proof.
  induction d as [|[k0 v0] d IH]; simpl.
  - intuition.
  - destruct (String.eqb_spec k k0); subst; simpl; [intuition|].
    destruct (str_ltb k k0); simpl; intuition.
Qed.

Lemma sd_set_wf {A} k (v : A) d : sd_wf d -> sd_wf (sd_set k v d).
Proof.
  induction d as [|[k0 v0] d IH]; simpl; intro H.
  - constructor; constructor.
  - apply sd_wf_cons_inv in H as [Hd Hk].
    destruct (String.eqb_spec k k0); subst.
    + apply sd_wf_cons; auto.
    + destruct (str_ltb k k0) eqn:E.
      * apply sd_wf_cons; [apply sd_wf_cons; auto|].
        simpl; constructor; auto.
        eapply Forall_impl; [|eassumption]. intros; eapply str_lt_trans; eauto.
      * apply sd_wf_cons; auto. apply Forall_forall. intros x Hx.
        apply keys_set in Hx as [->|Hx].
        -- destruct (str_total k k0); auto. unfold str_lt in *; congruence.
        -- rewrite Forall_forall in Hk; auto.
Qed.

Lemma sd_get_set_same {A} k (v : A) d : sd_get k (sd_set k v d) = Some v.
Proof.
  induction d as [|[k0 v0] d IH]; simpl.
  - rewrite String.eqb_refl; auto.
  - destruct (String.eqb_spec k k0); subst; simpl.
    + rewrite String.eqb_refl; auto.
    + destruct (str_ltb k k0); simpl.
      * rewrite String.eqb_refl; auto.
      * destruct (String.eqb_spec k k0); congruence.
Qed.

Lemma sd_get_set_other {A} k k' (v : A) d :
  k <> k' -> sd_get k (sd_set k' v d) = sd_get k d.
Proof.
  intro Hne. induction d as [|[k0 v0] d IH]; simpl.
  - destruct (String.eqb_spec k k'); congruence.
  - destruct (String.eqb_spec k' k0); subst; simpl.
    + destruct (String.eqb_spec k k0); congruence.
    + destruct (str_ltb k' k0); simpl.
      * destruct (String.eqb_spec k k'); congruence.
      * destruct (String.eqb_spec k k0); auto.
Qed.

Lemma sd_get_in {A} k (v : A) d : sd_get k d = Some v -> In (k, v) d.
Proof.
  induction d as [|[k0 v0] d IH]; simpl; [discriminate|].
  destruct (String.eqb_spec k k0); subst; [intros [=]; subst; auto|auto].
Qed.

Lemma sd_get_none {A} k (d : sdict A) : sd_get k d = None <-> ~ In k (keys d).
Proof.
  induction d as [|[k0 v0] d IH]; simpl; [intuition|].
  destruct (String.eqb_spec k k0); subst; intuition congruence.
Qed.

Lemma sd_in_get {A} k (v : A) d : sd_wf d -> In (k, v) d -> sd_get k d = Some v.
Proof.
  induction d as [|[k0 v0] d IH]; simpl; [intuition|].
  intros Hw [H|H].
  - inversion H; subst. rewrite String.eqb_refl; auto.
  - apply sd_wf_cons_inv in Hw as [Hw Hk].
    destruct (String.eqb_spec k k0); subst; auto.
    exfalso. rewrite Forall_forall in Hk. eapply str_lt_irrefl, Hk.
    change k0 with (fst (k0, v)). apply in_map; auto.
Qed.

Lemma sd_get_keys {A} k (d : sdict A) : In k (keys d) -> exists v, sd_get k d = Some v.
Proof.
  intro H. destruct (sd_get k d) eqn:E; eauto. apply sd_get_none in E; tauto.
Qed.

(** Two well-formed dictionaries with the same lookups are equal. *)
Lemma sd_ext {A} (d1 d2 : sdict A) :
  sd_wf d1 -> sd_wf d2 -> (forall k, sd_get k d1 = sd_get k d2) -> d1 = d2.
Proof.
  revert d2; induction d1 as [|[k1 v1] d1 IH]; intros [|[k2 v2] d2] W1 W2 H; auto.
  - specialize (H k2); simpl in H. rewrite String.eqb_refl in H; discriminate.
  - specialize (H k1); simpl in H. rewrite String.eqb_refl in H; discriminate.
  - apply sd_wf_cons_inv in W1 as [W1 F1]. apply sd_wf_cons_inv in W2 as [W2 F2].
    rewrite Forall_forall in F1, F2.
    assert (k1 = k2) as ->.
    { destruct (String.eqb_spec k1 k2) as [|Hne]; auto. exfalso.
      pose proof (H k1) as Ha. simpl in Ha. rewrite String.eqb_refl in Ha.
      destruct (String.eqb_spec k1 k2); [congruence|].
      pose proof (H k2) as Hb. simpl in Hb. rewrite String.eqb_refl in Hb.
      destruct (String.eqb_spec k2 k1); [congruence|].
      symmetry in Ha. apply sd_get_in in Ha. apply sd_get_in in Hb.
      apply (in_map fst) in Ha. apply (in_map fst) in Hb. simpl in *.
      apply F2 in Ha. apply F1 in Hb. eapply str_lt_asym; eauto. }
    pose proof (H k2) as Hv. simpl in Hv. rewrite String.eqb_refl in Hv.
    inversion Hv; subst. f_equal. apply IH; auto.
    intro k. specialize (H k). simpl in H.
    destruct (String.eqb_spec k k2); subst; auto.
    transitivity (@None A).
    + apply sd_get_none. intro Hin. eapply str_lt_irrefl; eauto.
    + symmetry. apply sd_get_none. intro Hin. eapply str_lt_irrefl; eauto.
Qed.

(** Inserting a key above all others appends it. *)
Lemma sd_set_last {A} k (v : A) d :
  Forall (fun k' => str_lt k' k) (keys d) -> sd_set k v d = (d ++ [(k, v)])%list.
Proof.
  induction d as [|[k0 v0] d IH]; simpl; intro H; auto.
  inversion H; subst.
  destruct (String.eqb_spec k k0); subst.
  - exfalso; eapply str_lt_irrefl; eauto.
  - destruct (str_ltb k k0) eqn:E.
    + exfalso; eapply str_lt_asym; eauto.
    + rewrite IH; auto.
Qed.

(** Rebuilding a dictionary entry by entry, with values mapped by [f] and keys
    renamed by an order preserving [g], is a plain [map]. *)
Lemma sd_rebuild_acc {A B} (g : string -> string) (f : string * A -> B) (d : sdict A) acc :
  sd_wf (map (fun kv => (g (fst kv), f kv)) d) ->
  Forall (fun k => Forall (fun kv => str_lt k (g (fst kv))) d) (keys acc) ->
  fold_left (fun acc kv => sd_set (g (fst kv)) (f kv) acc) d acc
  = (acc ++ map (fun kv => (g (fst kv), f kv)) d)%list.
Proof.
  revert acc; induction d as [|[k v] d IH]; simpl; intros acc W F.
  - rewrite app_nil_r; auto.
  - apply sd_wf_cons_inv in W as [W Fk].
    rewrite sd_set_last.
    + rewrite IH; auto.
      * rewrite <- app_assoc; auto.
      * unfold keys. rewrite map_app. apply Forall_app; split.
        -- eapply Forall_impl; [|exact F]. intros a Ha. inversion Ha; auto.
        -- constructor; [|constructor]. apply Forall_forall. intros [k0 v0] Hin. simpl.
           rewrite Forall_forall in Fk. apply Fk. unfold keys. rewrite map_map.
           apply in_map_iff. exists (k0, v0); auto.
    + eapply Forall_impl; [|exact F]. intros a Ha. inversion Ha; auto.
Qed.

Lemma sd_wf_map {A B} (f : string * A -> B) (d : sdict A) :
  sd_wf d -> sd_wf (map (fun kv => (fst kv, f kv)) d).
Proof. unfold sd_wf, keys. rewrite map_map. auto. Qed.

Lemma sd_wf_map_prefix {A B} p (f : string * A -> B) (d : sdict A) :
  sd_wf d -> sd_wf (map (fun kv => (p ++ fst kv, f kv)) d).
Proof.
  unfold sd_wf, keys. rewrite map_map. simpl.
  induction d as [|[k v] d IH]; simpl; intro H; [constructor|].
  inversion H; subst. constructor; auto.
  rewrite Forall_forall in *. intros x Hx. apply in_map_iff in Hx as [[k0 v0] [<- Hin]].
  unfold str_lt. simpl. rewrite str_ltb_prefix. apply H3. apply (in_map fst) in Hin; auto.
Qed.

Lemma sd_rebuild {A B} (f : string * A -> B) (d : sdict A) :
  sd_wf d ->
  fold_left (fun acc kv => sd_set (fst kv) (f kv) acc) d []
  = map (fun kv => (fst kv, f kv)) d.
Proof.
  intro W. rewrite (sd_rebuild_acc (fun k => k)); [auto| |constructor].
  apply sd_wf_map; auto.
Qed.

Lemma sd_rebuild_prefix {A B} p (f : string * A -> B) (d : sdict A) :
  sd_wf d ->
  fold_left (fun acc kv => sd_set (p ++ fst kv) (f kv) acc) d []
  = map (fun kv => (p ++ fst kv, f kv)) d.
Proof.
  intro W. rewrite (sd_rebuild_acc (fun k => p ++ k)); [auto| |constructor].
  apply sd_wf_map_prefix; auto.
Qed.

Lemma sd_get_map {A B} (f : string -> A -> B) k (d : sdict A) :
  sd_get k (map (fun kv => (fst kv, f (fst kv) (snd kv))) d) = option_map (f k) (sd_get k d).
Proof.
  induction d as [|[k0 v0] d IH]; simpl; auto.
  destruct (String.eqb_spec k k0); subst; auto.
Qed.

Lemma sd_wf_NoDup {A} (d : sdict A) : sd_wf d -> NoDup (keys d).
Proof.
  unfold sd_wf. induction (keys d); intro H; constructor; inversion H; subst.
  - rewrite Forall_forall in H3. intro Hin. eapply str_lt_irrefl; eauto.
  - auto.
Qed.

Lemma sd_wf_filter {A} (f : string * A -> bool) (d : sdict A) : sd_wf d -> sd_wf (filter f d).
Proof.
  induction d as [|[k v] d IH]; simpl; intro W; auto.
  apply sd_wf_cons_inv in W as [W F].
  destruct (f (k, v)); auto. apply sd_wf_cons; auto.
  rewrite Forall_forall in *. intros x Hx. apply F.
  unfold keys in *. apply in_map_iff in Hx as [kv [<- Hin]]. apply in_map_iff.
  apply filter_In in Hin as [Hin _]. eauto.
Qed.

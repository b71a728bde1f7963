(** Proofs about the sweep tools. *)
From Coq Require Import List String Ascii Arith ZArith Bool Lia DecimalString DecimalNat.
From Verif Require Import Base BaseFacts SweepModel SweepSpec.
Import ListNotations.
Open Scope string_scope.
Open Scope list_scope.

(** *** The product recursively *)
Fixpoint cart (pars : pdict (list pyval)) : list config :=
  match pars with
  | [] => [[]]
  | (k, vs) :: r => flat_map (fun v => map (cons (k, v)) (cart r)) vs
  end.

Lemma flat_map_seq_nth {A B} (f : A -> list B) d l :
  flat_map (fun i => f (nth i l d)) (seq 0 (List.length l)) = flat_map f l.
Proof.
  enough (H : forall l pre, flat_map (fun i => f (nth i (pre ++ l) d))
              (seq (List.length pre) (List.length l)) = flat_map f l) by exact (H l []).
  clear l. induction l as [|a l IH]; intro pre; simpl; auto. f_equal.
  - rewrite app_nth2, Nat.sub_diag by lia. reflexivity.
  - specialize (IH (pre ++ [a])). rewrite app_length in IH. simpl in IH.
    rewrite Nat.add_1_r in IH. rewrite <- IH. rewrite <- app_assoc. reflexivity.
Qed.

Lemma product_cart pars : product pars = cart pars.
Proof.
  unfold product. induction pars as [|[k vs] r IH]; auto.
  cbn [map snd choices cart]. 
  rewrite <- (flat_map_seq_nth _ VNone vs). rewrite <- IH.
  rewrite !flat_map_concat_map, concat_map, !map_map. f_equal. apply map_ext. intro i.
  rewrite !map_map. reflexivity.
Qed.

Lemma cart_keys pars : forall c, In c (cart pars) -> map fst c = map fst pars.
Proof.
  induction pars as [|[k vs] r IH]; simpl; intros c H.
  - destruct H as [<-|[]]. reflexivity.
  - apply in_flat_map in H. destruct H as [v [_ H]]. apply in_map_iff in H.
    destruct H as [c' [<- H]]. simpl. f_equal. auto.
Qed.

(** *** Updating dictionaries *)
Lemma updated_app d c1 c2 : updated d (c1 ++ c2) = updated (updated d c1) c2.
Proof. unfold updated. apply fold_left_app. Qed.

Lemma pd_set_twice {A} k (v w : A) d : pd_set k w (pd_set k v d) = pd_set k w d.
Proof.
  induction d as [|[k' x] d IH]; simpl.
  - rewrite String.eqb_refl. reflexivity.
  - destruct (String.eqb k k') eqn:E; simpl; rewrite E; congruence.
Qed.

Lemma pd_set_keys {A} k (v : A) d :
  map fst (pd_set k v d) = if existsb (String.eqb k) (map fst d) then map fst d
                           else map fst d ++ [k].
Proof.
  induction d as [|[k' x] d IH]; simpl; auto.
  destruct (String.eqb k k') eqn:E; simpl; auto.
  rewrite IH. destruct (existsb _ _); auto.
Qed.

Lemma pd_set_in {A} k (v : A) d : In k (map fst (pd_set k v d)).
Proof.
  rewrite pd_set_keys. destruct (existsb _ _) eqn:E.
  - apply existsb_exists in E. destruct E as [x [H E]]. apply String.eqb_eq in E. subst. auto.
  - apply in_or_app. right. left. reflexivity.
Qed.

Lemma pd_set_in_mono {A} k k' (v : A) d : In k (map fst d) -> In k (map fst (pd_set k' v d)).
Proof.
  rewrite pd_set_keys. destruct (existsb _ _); auto. intro. apply in_or_app. auto.
Qed.

(** A key that is present can be written before or after another key. *)
Lemma pd_set_comm {A} k k' (v w : A) d : k <> k' -> In k (map fst d) ->
  pd_set k v (pd_set k' w d) = pd_set k' w (pd_set k v d).
Proof.
  intros N. induction d as [|[q x] d IH]; simpl; intro H.
  - destruct H.
  - destruct (String.eqb k' q) eqn:E1, (String.eqb k q) eqn:E2; simpl; rewrite ?E1, ?E2; auto.
    + apply String.eqb_eq in E1, E2. congruence.
    + f_equal. apply IH. destruct H as [<-|H]; auto. rewrite String.eqb_refl in E2. discriminate.
Qed.

Lemma updated_cons d k v c : updated d ((k, v) :: c) = updated (pd_set k v d) c.
Proof. reflexivity. Qed.

Lemma updated_set_comm c : forall d k v, ~ In k (map fst c) -> In k (map fst d) ->
  pd_set k v (updated d c) = updated (pd_set k v d) c.
Proof.
  induction c as [|[q x] c IH]; intros d k v N H; auto.
  rewrite !updated_cons. rewrite IH.
  - rewrite pd_set_comm; auto. intros ->. apply N. left. reflexivity.
  - simpl in N. tauto.
  - apply pd_set_in_mono. exact H.
Qed.

(** Writing a full combination hides whatever a prefix of its keys held. *)
Lemma updated_prefix s : forall c d, NoDup (map fst c) ->
  (exists tl, map fst c = map fst s ++ tl) -> updated (updated d s) c = updated d c.
Proof.
  induction s as [|[k v] s IH]; intros c d ND [tl E]; auto.
  destruct c as [|[k' w] c]; simpl in E; [discriminate|]. injection E as -> E.
  simpl in ND. apply NoDup_cons_iff in ND. destruct ND as [N ND].
  rewrite !updated_cons. rewrite updated_set_comm.
  - rewrite pd_set_twice. apply IH; eauto.
  - rewrite E in N. intro. apply N. apply in_or_app. auto.
  - apply pd_set_in.
Qed.

Lemma pd_set_fresh {A} k (v : A) d : ~ In k (map fst d) -> pd_set k v d = d ++ [(k, v)].
Proof.
  induction d as [|[q x] d IH]; simpl; auto. intro N.
  destruct (String.eqb k q) eqn:E; [apply String.eqb_eq in E; subst; tauto|].
  f_equal. apply IH. tauto.
Qed.

Lemma updated_fresh c : forall d, NoDup (map fst d ++ map fst c) -> updated d c = d ++ c.
Proof.
  induction c as [|[k v] c IH]; intros d ND.
  - rewrite app_nil_r. reflexivity.
  - rewrite updated_cons, pd_set_fresh.
    + rewrite IH, <- app_assoc; auto. rewrite map_app, <- app_assoc. exact ND.
    + simpl in ND. apply NoDup_remove_2 in ND. intro. apply ND. apply in_or_app. auto.
Qed.

(** *** The recursion *)
Lemma sweep_rec_spec pars : NoDup (map fst pars) -> forall pd L,
  snd (sweep_rec pars (pd, L)) = L ++ map (updated pd) (cart pars) /\
  exists s tl, fst (sweep_rec pars (pd, L)) = updated pd s /\ map fst pars = map fst s ++ tl.
Proof.
  induction pars as [|[k vs] rest IH]; intros ND pd L.
  - simpl. split; [reflexivity|]. exists [], []. split; reflexivity.
  - simpl in ND. apply NoDup_cons_iff in ND. destruct ND as [N ND]. specialize (IH ND).
    cbn [sweep_rec cart].
    enough (G : forall vs p L, (exists s tl, p = updated pd s /\ k :: map fst rest = map fst s ++ tl) ->
      snd (fold_left (fun s v => sweep_rec rest (pd_set k v (fst s), snd s)) vs (p, L)) =
        L ++ map (updated pd) (flat_map (fun v => map (cons (k, v)) (cart rest)) vs) /\
      exists s tl, fst (fold_left (fun s v => sweep_rec rest (pd_set k v (fst s), snd s)) vs (p, L))
        = updated pd s /\ k :: map fst rest = map fst s ++ tl).
    { apply G. exists [], (k :: map fst rest). split; reflexivity. }
    clear vs L. induction vs as [|v vs IHv]; intros p L [s [tl [-> E]]].
    + simpl. rewrite app_nil_r. split; [reflexivity|]. eauto.
    + cbn [fold_left fst snd flat_map].
      destruct (IH (pd_set k v (updated pd s)) L) as [H1 [s' [tl' [H2 E']]]].
      destruct (sweep_rec rest (pd_set k v (updated pd s), L)) as [p1 L1] eqn:R.
      assert (H2' := eq_trans (eq_sym (f_equal fst R)) H2).
      assert (H1' := eq_trans (eq_sym (f_equal snd R)) H1).
      cbn [fst snd] in H1', H2'. clear H1 H2. rename H1' into H1, H2' into H2.
      (* whatever was written below, the dictionary is [pd] with [k] and some of [rest] *)
      assert (P : exists s1 tl1, p1 = updated pd s1 /\ k :: map fst rest = map fst s1 ++ tl1
                  /\ True).
      { destruct s as [|[k0 v0] s].
        - exists ((k, v) :: s'), tl'. rewrite H2. simpl. split; [reflexivity|].
          split; [f_equal; exact E'|trivial].
        - simpl in E. injection E as <- E. rewrite H2.
          assert (Ns : ~ In k (map fst s)).
          { rewrite E in N. intro. apply N. apply in_or_app. auto. }
          rewrite updated_cons, updated_set_comm; auto using pd_set_in.
          rewrite pd_set_twice.
          assert (NDs : forall l t, map fst rest = map fst l ++ t -> NoDup (map fst (l : config))).
          { intros l t El. rewrite El in ND. clear -ND.
            induction (map fst l) as [|x m IHm]; constructor; simpl in ND;
              apply NoDup_cons_iff in ND; destruct ND as [A B]; auto.
            intro. apply A. apply in_or_app. auto. }
          (* of two prefixes of the same key list, one extends the other *)
          assert (T : (exists t, map fst s' = map fst s ++ t) \/
                      (exists t, map fst s = map fst s' ++ t)).
          { clear -E E'. rewrite E in E'. revert E'.
            generalize (map fst s) as a, (map fst s') as b.
            induction a as [|x a IHa]; intros b Eb.
            - left. exists b. reflexivity.
            - destruct b as [|y b]; [right; eexists; reflexivity|].
              simpl in Eb. injection Eb as -> Eb. destruct (IHa b Eb) as [[t ->]|[t ->]];
                [left|right]; exists t; reflexivity. }
          destruct T as [T|[t T]].
          + exists ((k, v) :: s'), tl'. rewrite updated_cons. rewrite updated_prefix; eauto.
            split; [reflexivity|]. split; [simpl; f_equal; exact E'|trivial].
          + (* s' overwrites a prefix of s *)
            assert (Q : exists s1, map fst s1 = map fst s /\
               forall d, updated (updated d s) s' = updated d s1).
            { pose (n := List.length s').
              exists (s' ++ skipn n s). split.
              - rewrite map_app, <- skipn_map, T. f_equal. unfold n.
                rewrite <- (map_length fst s'). rewrite skipn_app, skipn_all, Nat.sub_diag.
                reflexivity.
              - intro d. rewrite updated_app.
                assert (S1 : s = firstn n s ++ skipn n s) by (rewrite firstn_skipn; auto).
                rewrite S1 at 1. rewrite updated_app.
                assert (K1 : map fst (firstn n s) = map fst s').
                { rewrite <- firstn_map, T. unfold n. rewrite <- (map_length fst s').
                  rewrite firstn_app, Nat.sub_diag, firstn_all. simpl. apply app_nil_r. }
                rewrite <- (updated_prefix (firstn n s) s' d).
                2: { apply (NDs s' tl'). exact E'. }
                2: { exists []. rewrite app_nil_r. auto. }
                assert (C : forall u e, NoDup (map fst s' ++ map fst u) ->
                  (forall q, In q (map fst s') -> In q (map fst e)) ->
                  updated (updated e u) s' = updated (updated e s') u).
                { assert (ND' : NoDup (map fst s')) by (apply (NDs s' tl'); exact E').
                  revert ND'. clear. induction s' as [|[q w] s' IH]; intros ND' u e H K; auto.
                  rewrite !updated_cons. simpl in H. apply NoDup_cons_iff in H. destruct H as [H1 H2].
                  simpl in ND'. apply NoDup_cons_iff in ND'. destruct ND' as [_ ND'].
                  rewrite updated_set_comm.
                  - apply IH; auto. intros q' Hq. apply pd_set_in_mono. apply K. right. auto.
                  - intro. apply H1. apply in_or_app. auto.
                  - apply K. left. reflexivity. }
                apply C.
                + rewrite <- K1, <- map_app, firstn_skipn. apply (NDs s tl). exact E.
                + intros q Hq. rewrite <- K1 in Hq. clear -Hq. revert d Hq.
                  generalize (firstn n s) as u.
                  assert (M : forall u d q, In q (map fst d) -> In q (map fst (updated d u))).
                  { induction u as [|[a b] u IH]; intros; auto. rewrite updated_cons.
                    apply IH. apply pd_set_in_mono. auto. }
                  induction u as [|[a b] u IH]; intros d Hq; [destruct Hq|].
                  rewrite updated_cons. destruct Hq as [<-|Hq]; auto.
                  apply M. apply pd_set_in. }
            destruct Q as [s1 [K1 Q]]. rewrite Q. exists ((k, v) :: s1), tl.
            split; [reflexivity|]. split; [|trivial]. simpl. f_equal. rewrite K1. exact E. }
      destruct P as [s1 [tl1 [-> [E1 _]]]].
      destruct (IHv (updated pd s1) L1) as [H3 H4]; eauto.
      split; [|exact H4]. rewrite H3, H1. rewrite map_app, <- app_assoc. f_equal. f_equal.
      rewrite map_map. apply map_ext_in. intros c Hc. apply cart_keys in Hc.
      transitivity (updated (updated pd s) ((k, v) :: c)); [reflexivity|].
      apply updated_prefix.
      * simpl. rewrite Hc. constructor; auto.
      * exists tl. simpl. rewrite Hc. exact E.
Qed.

(** *** Sweeping theorems *)
Lemma sweep_extends pars st : dict_ok pars ->
  snd (snd (recursively_sweep pars st)) = snd st ++ map (updated (fst st)) (product pars).
Proof.
  intro H. rewrite product_cart. destruct st as [pd L].
  exact (proj1 (sweep_rec_spec pars H pd L)).
Qed.

Lemma sweep_result pars st : dict_ok pars -> pars <> [] ->
  fst (recursively_sweep pars st) =
  SweptList (snd st ++ map (updated (fst st)) (product pars)).
Proof.
  intros H N. rewrite <- sweep_extends by exact H. unfold recursively_sweep.
  destruct pars; [congruence|reflexivity].
Qed.

Lemma product_keys pars c : In c (product pars) -> map fst c = map fst pars.
Proof. rewrite product_cart. apply cart_keys. Qed.

Lemma updated_product_prefix pars pd : dict_ok pars ->
  (exists tl, map fst pars = map fst pd ++ tl) ->
  map (updated pd) (product pars) = product pars.
Proof.
  intros H [tl E]. rewrite <- (map_id (product pars)) at 2. apply map_ext_in.
  intros c Hc. apply product_keys in Hc.
  assert (P : pd = updated [] pd).
  { rewrite updated_fresh; auto. simpl. unfold dict_ok in H. rewrite E in H. clear -H.
    revert H. generalize (map fst pd). induction l as [|x m IHm]; intro H; constructor; simpl in H;
      apply NoDup_cons_iff in H; destruct H as [A B]; auto.
    intro. apply A. apply in_or_app. auto. }
  rewrite P, updated_prefix.
  - apply updated_fresh. simpl. rewrite Hc. exact H.
  - rewrite Hc. exact H.
  - exists tl. rewrite Hc. exact E.
Qed.

Lemma sweep_fresh pars : dict_ok pars -> pars <> [] ->
  fst (sweep_default pars process0) = SweptList (product pars).
Proof.
  intros H N. unfold sweep_default. rewrite sweep_result by auto. simpl. f_equal.
  apply updated_product_prefix; auto. exists (map fst pars). reflexivity.
Qed.

Lemma sweep_same_keys pars st : dict_ok pars -> pars <> [] ->
  (exists tl, map fst pars = map fst (fst st) ++ tl) ->
  fst (recursively_sweep pars st) = SweptList (snd st ++ product pars).
Proof.
  intros H N E. rewrite sweep_result by auto. f_equal. f_equal.
  apply updated_product_prefix; auto.
Qed.

(** Position tuples: exactly those below the lengths, each once. *)
Lemma choices_in lens : forall idx, In idx (choices lens) <-> Forall2 lt idx lens.
Proof.
  induction lens as [|n r IH]; intro idx; simpl.
  - split; [intros [<-|[]]; constructor|]. inversion 1. auto.
  - rewrite in_flat_map. split.
    + intros [i [Hi H]]. apply in_map_iff in H. destruct H as [c [<- H]].
      apply in_seq in Hi. constructor; [lia|]. apply IH. exact H.
    + inversion 1 as [|i ? c ? Hi Hc]; subst. exists i. split; [apply in_seq; lia|].
      apply in_map. apply IH. exact Hc.
Qed.

Lemma nodup_app {A} (a b : list A) : NoDup a -> NoDup b -> (forall x, In x a -> ~ In x b) ->
  NoDup (a ++ b).
Proof.
  induction a as [|x a IH]; intros Ha Hb D; auto. simpl. apply NoDup_cons_iff in Ha.
  destruct Ha as [N Ha]. constructor.
  - rewrite in_app_iff. intros [|]; auto. apply (D x); simpl; auto.
  - apply IH; auto. intros y Hy. apply D. right. exact Hy.
Qed.

Lemma nodup_flat_map {A B} (f : A -> list B) l : NoDup l -> (forall a, NoDup (f a)) ->
  (forall a a' b, In b (f a) -> In b (f a') -> a = a') -> NoDup (flat_map f l).
Proof.
  intros H F D. induction l as [|a l IH]; simpl; [constructor|].
  apply NoDup_cons_iff in H. destruct H as [N H]. apply nodup_app; auto.
  intros b Hb Hb'. apply in_flat_map in Hb'. destruct Hb' as [a' [Ha' Hb']].
  rewrite (D a a' b) in N; auto.
Qed.

Lemma nodup_map_inj {A B} (f : A -> B) l : (forall x y, f x = f y -> x = y) -> NoDup l -> NoDup (map f l).
Proof.
  intros F. induction l as [|a l IH]; intro H; simpl; constructor;
    apply NoDup_cons_iff in H; destruct H as [N H]; auto.
  rewrite in_map_iff. intros [x [E Hx]]. apply F in E. subst. auto.
Qed.

Lemma choices_nodup lens : NoDup (choices lens).
Proof.
  induction lens as [|n r IH]; simpl; [repeat constructor; intros []|].
  apply nodup_flat_map.
  - apply seq_NoDup.
  - intro a. apply nodup_map_inj; auto. intros x y [=]. auto.
  - intros a a' b H H'. apply in_map_iff in H, H'. destruct H as [x [<- _]], H' as [y [E _]].
    congruence.
Qed.

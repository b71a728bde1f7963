(** Proofs about the registration of parameters (C26, C27). *)
From Coq Require Import List String Ascii Arith ZArith QArith Qcanon Lia Bool.
From Coq Require Import DecimalString DecimalNat Decimal.
From Verif Require Import Base BaseFacts Tensor TensorFacts ScdModel ScdProofs3 BlockModel BlockSpec
  BlockProofs BlockProofs2.
Import ListNotations.
Open Scope nat_scope.

Section Register.
Context {A : Type}.
Variable zero : A.
Variable ig : @integrand A.
Variable has_attr : string -> bool.
Variable rnd : nat -> nat -> A.
Variable solve : @block A -> list A -> list Qc -> result (tensor A).
Notation block := (@block A).
Notation fwd := (forward zero ig has_attr rnd solve).

Definition pt_name (k : string) : string := ("pt_enlarge_" ++ k)%string.

Definition add_entries (l : list (string * nat)) (r : pdict pobj) : pdict pobj :=
  fold_left (fun r kp => pd_set (pt_name (fst kp)) (OEnlarge (snd kp)) r) l r.

Lemma register_parameter_ok name p r r' :
  register_parameter has_attr name p r = Ok r' -> r' = pd_set name p r.
Proof.
  unfold register_parameter. destruct (has_dot name); [discriminate|].
  destruct (String.eqb name ""); [discriminate|]. destruct (_ && _); [discriminate|congruence].
Qed.

Lemma register_inner z (d : list (string * option (nat * list nat))) : forall u (b b' : block) v,
  loop (register_entry has_attr z) d u b = (b', Ok v) ->
  b' = set_registry (add_entries (flat_map (fun ke => match snd ke with
         | Some (p, _) => [(fst ke, p)] | None => [] end) d) (b_registry b)) b.
Proof.
  induction d as [|[k e] d IH]; intros u b b' v E.
  - injection E as <- _. destruct b; reflexivity.
  - cbn [loop] in E. rewrite mbind_at in E. unfold register_entry at 1 in E. cbn [snd fst] in E.
    destruct e as [[p df]|].
    + destruct z; [discriminate|].
      destruct (register_parameter has_attr (String.append "pt_enlarge_" k) (OEnlarge p) (b_registry b)) eqn:ER;
        [|discriminate].
      apply register_parameter_ok in ER. apply IH in E. subst. destruct b; reflexivity.
    + apply IH in E. exact E.
Qed.

Lemma register_outer z d : forall u (b b' : block) v,
  loop (fun u kd => loop (register_entry has_attr z) (snd kd) u) d u b = (b', Ok v) ->
  b' = set_registry (add_entries (used_enlargements (Some d)) (b_registry b)) b.
Proof.
  induction d as [|[n e] d IH]; intros u b b' v E.
  - injection E as <- _. destruct b; reflexivity.
  - cbn [loop] in E. rewrite mbind_at in E. cbn [snd] in E.
    destruct (loop (register_entry has_attr z) e u b) as [b1 [u1|]] eqn:E1; [|discriminate].
    apply register_inner in E1. apply IH in E. subst. destruct b; cbn.
    unfold add_entries. rewrite fold_left_app. reflexivity.
Qed.

Lemma register_block z d (b b' : block) v :
  register_enlargement has_attr z d b = (b', Ok v) ->
  b' = set_registry (add_entries (used_enlargements d) (b_registry b)) b.
Proof.
  destruct d as [d|]; simpl; intro E.
  - eapply register_outer; exact E.
  - injection E as <- _. destruct b; reflexivity.
Qed.

Lemma pt_name_inj a b : pt_name a = pt_name b -> a = b.
Proof. intro H. repeat (injection H as H). exact H. Qed.

Lemma add_entries_other l : forall r k,
  ~ In k (map fst l) -> pd_get (pt_name k) (add_entries l r) = pd_get (pt_name k) r.
Proof.
  induction l as [|[k0 p0] l IH]; intros r k N; simpl in *; auto.
  unfold add_entries in *. rewrite IH by tauto. apply pd_get_set_other.
  intro H. apply pt_name_inj in H. auto.
Qed.

Lemma add_entries_get l : forall r k p, NoDup (map fst l) -> In (k, p) l ->
  pd_get (pt_name k) (add_entries l r) = Some (OEnlarge p).
Proof.
  induction l as [|[k0 p0] l IH]; intros r k p N H; simpl in *; [tauto|].
  inversion N as [|? ? N1 N2]; subst. destruct H as [[= -> ->]|H].
  - pose proof (add_entries_other l (pd_set (pt_name k) (OEnlarge p) r) k N1) as X.
    unfold add_entries in *. cbn [fst snd]. rewrite X. apply pd_get_set_same.
  - apply IH; auto.
Qed.

Lemma create_registry d o s (b : block) :
  b_registry (fst (create_enlargement zero ig rnd d o s b)) = b_registry b.
Proof.
  pose (R := fun b b' : block => b_registry b' = b_registry b).
  assert (P : preorder R) by (split; unfold R; [auto|intros; congruence]).
  change (R b (fst (create_enlargement zero ig rnd d o s b))).
  assert (K : keeps R (create_enlargement zero ig rnd d o s)); [|apply K].
  unfold create_enlargement. destruct o; [|apply keeps_ret; apply P].
  destruct (ig_enlargement ig); [|apply keeps_ret; apply P].
  apply keeps_bind; [apply P| |intro; apply keeps_ret; apply P].
  apply keeps_loop; [apply P|]. intros. apply keeps_loop; [apply P|]. intros.
  unfold create_enlargement_step.
  do 5 (apply keeps_bind; [apply P|apply keeps_lift; apply P|intro]).
  destruct (existsb _ _); [|apply keeps_ret; apply P].
  apply keeps_bind; [apply P| |intro; apply keeps_ret; apply P].
  unfold create_raw_enlargement_parameters. destruct (_ <? _); [apply keeps_raise; apply P|].
  intro b1. unfold create_parameters_of_size, R.
  destruct s, (b_keep_zero b1), (ig_state_random ig), (ig_costate_random ig); reflexivity.
Qed.

Lemma create_dicts d o s (b b' : block) r : create_enlargement zero ig rnd d o s b = (b', Ok r) ->
  b_registry b' = b_registry b.
Proof. intro E. pose proof (create_registry d o s b) as H. rewrite E in H. exact H. Qed.

(** What the first forward call registers. *)
Lemma get_or_create_registers st co (b b' : block) s c : b_fresh b = true ->
  get_or_create_enlargement zero ig has_attr rnd st co b = (b', Ok (s, c)) ->
  b_registry b' = add_entries (used_enlargements s ++ used_enlargements c) (b_registry b).
Proof.
  intros F E. unfold get_or_create_enlargement in E. rewrite F in E. destruct (_ || _); [discriminate|].
  rewrite mbind_at in E.
  destruct (create_enlargement zero ig rnd st (b_state b) true b) as [b1 [s1|]] eqn:E1; [|discriminate].
  rewrite mbind_at in E.
  destruct (create_enlargement zero ig rnd co (b_costate b) false b1) as [b2 [c1|]] eqn:E2; [|discriminate].
  rewrite mbind_at in E.
  destruct (register_enlargement has_attr (b_keep_zero b) s1 b2) as [b3 [u|]] eqn:E3; [|discriminate].
  rewrite mbind_at in E.
  destruct (register_enlargement has_attr false c1 b3) as [b4 [u'|]] eqn:E4; [|discriminate].
  injection E as <- -> ->.
  apply register_block in E3. apply register_block in E4. apply create_dicts in E1. apply create_dicts in E2.
  subst b4 b3. cbn. rewrite E2, E1. unfold add_entries. rewrite fold_left_app. reflexivity.
Qed.

(** Forward after the pass-through has been handled changes neither registry nor
    enlargement parameters. *)
Lemma forward_after x st co data (b b' : block) o :
  fwd x st co data b = (b', Ok o) ->
  same_parameters (fst (effective_pass_through zero ig has_attr rnd st co b)) b' /\
  exists r, snd (effective_pass_through zero ig has_attr rnd st co b) = Ok r.
Proof.
  intro E. rewrite forward_split in E.
  destruct (forward_body zero ig has_attr rnd solve x st co data b) as [b1 [r|]] eqn:EB; [|discriminate].
  injection E as <- _. rewrite forward_body_rest in EB.
  assert (G : (stco <-- effective_pass_through zero ig has_attr rnd st co ;;;
      dz <-- effective_data ig x data ;;;
      xp <-- initial_conditions zero ig (fst dz) (fst stco) (snd stco) (snd dz) ;;;
      forward_rest ig solve xp) b = (b1, Ok r)).
  { destruct x, st, co; try exact EB; discriminate. }
  clear EB. rewrite mbind_at in G.
  destruct (effective_pass_through zero ig has_attr rnd st co b) as [b2 [stco|]]; [|discriminate].
  split; [|eexists; reflexivity]. cbn [fst].
  rewrite mbind_at in G.
  assert (ED : fst (effective_data ig x data b2) = b2).
  { unfold effective_data. destruct x, data; reflexivity. }
  destruct (effective_data ig x data b2) as [b3 [dz|]]; [|discriminate]. cbn [fst] in ED. subst b3.
  rewrite mbind_at in G.
  destruct (initial_conditions_only_scratch zero ig (fst dz) (fst stco) (snd stco) (snd dz) b2) as [n EN].
  destruct (initial_conditions zero ig (fst dz) (fst stco) (snd stco) (snd dz) b2) as [b3 [xp|]]; [|discriminate].
  cbn [fst] in EN. subst b3.
  pose proof (forward_rest_block ig solve xp (set_data_dim n b2)) as R. rewrite G in R. cbn [fst] in R.
  subst b1. repeat split.
Qed.

(** ** C26 *)
Lemma enlargements_registered x st co data (b b' : block) o :
  b_fresh b = true -> b_st_enl b = None -> b_co_enl b = None ->
  fwd x st co data b = (b', Ok o) ->
  let used := used_enlargements (b_st_enl b') ++ used_enlargements (b_co_enl b') in
  NoDup (map fst used) ->
  forall k p, In (k, p) used -> exists name, pd_get name (b_registry b') = Some (OEnlarge p).
Proof.
  intros F N1 N2 E. destruct (forward_after _ _ _ _ _ _ _ E) as [[S1 [S2 [_ S3]]] [r ER]].
  rewrite S1, S2, S3. clear S1 S2 S3 E. cbv zeta. intros ND k p I. exists (pt_name k).
  unfold effective_pass_through in *.
  destruct st as [st|], co as [co|];
    try (unfold ret in I; cbn [fst] in I; rewrite ?N1, ?N2 in I; simpl in I; contradiction).
  destruct (b_enlarge b).
  2:{ unfold ret in I; cbn [fst] in I; rewrite ?N1, ?N2 in I; simpl in I; contradiction. }
  rewrite mbind_at in *.
  destruct (get_or_create_enlargement zero ig has_attr rnd st co b) as [b1 [[es ec]|]] eqn:EG; [|discriminate].
  apply get_or_create_registers in EG; [|exact F].
  unfold mbind, modify, enlarge_pass_through, ret in *. cbn in *.
  destruct (bind _ _) as [[s' c']|]; [|discriminate]. cbn in *. rewrite EG.
  apply add_entries_get; auto.
Qed.

(** With one pass-through block the names cannot clash. *)
Lemma create_single n d (desired : sdict (tensor A)) : forall acc s (b b' : block) acc',
  acc = [] \/ (exists inner, acc = [(n, inner)] /\ sd_wf inner) ->
  loop (fun acc kt => loop (create_enlargement_step zero ig rnd (fst kt) (tshape (snd kt)) s) [(n, d)] acc)
       desired acc b = (b', Ok acc') ->
  acc' = [] \/ (exists inner', acc' = [(n, inner')] /\ sd_wf inner' /\
    forall k, In k (keys inner') -> In k (keys desired) \/ exists inner, acc = [(n, inner)] /\ In k (keys inner)).
Proof.
  induction desired as [|[k t] desired IH]; intros acc s b b' acc' HA E.
  - injection E as <- <-. destruct HA as [->|[inner [-> W]]]; [left; auto|].
    right. exists inner. split; auto. split; auto. intros. right. eauto.
  - cbn [loop] in E. rewrite mbind_at in E. cbn [fst snd] in E.
    destruct ((s' <-- create_enlargement_step zero ig rnd k (tshape t) s acc (n, d);;; ret s') b)
      as [b1 [acc1|]] eqn:E1; [|discriminate].
    assert (H1 : exists inner1, acc1 = [(n, inner1)] /\ sd_wf inner1 /\
      forall j, In j (keys inner1) -> j = k \/ exists inner, acc = [(n, inner)] /\ In j (keys inner)).
    { rewrite mbind_at in E1.
      destruct (create_enlargement_step zero ig rnd k (tshape t) s acc (n, d) b) as [b2 [acc2|]] eqn:E2; [|discriminate].
      injection E1 as <- <-.
      unfold create_enlargement_step in E2. cbn [fst snd] in E2.
      rewrite mbind_at in E2. unfold lift at 1 in E2. destruct (sd_item k d); [|discriminate].
      rewrite mbind_at in E2. unfold lift at 1 in E2. destruct (list_item _ _); [|discriminate].
      rewrite mbind_at in E2. unfold lift at 1 in E2. destruct (list_set _ _ _); [|discriminate].
      rewrite mbind_at in E2. unfold lift at 1 in E2. destruct (size_diff _ _); [|discriminate].
      rewrite mbind_at in E2. unfold lift at 1 in E2.
      set (acc0 := if sd_mem n acc then acc else sd_set n [] acc) in E2.
      assert (HA0 : exists inner0, acc0 = [(n, inner0)] /\ sd_wf inner0 /\
        forall j, In j (keys inner0) -> exists inner, acc = [(n, inner)] /\ In j (keys inner)).
      { unfold acc0. destruct HA as [->|[inner [-> W]]].
        - exists []. split; [reflexivity|]. split; [apply sd_wf_nil|]. intros j [].
        - unfold sd_mem. simpl. rewrite String.eqb_refl. exists inner. eauto. }
      destruct HA0 as [inner0 [-> [W0 K0]]]. unfold sd_item in E2. simpl sd_get in E2.
      rewrite String.eqb_refl in E2.
      assert (Q : forall e, exists inner1, sd_set n (sd_set k e inner0) [(n, inner0)] = [(n, inner1)] /\
        sd_wf inner1 /\ forall j, In j (keys inner1) -> j = k \/ exists inner, acc = [(n, inner)] /\ In j (keys inner)).
      { intro e. exists (sd_set k e inner0). simpl. rewrite String.eqb_refl. split; auto.
        split; [apply sd_set_wf; auto|]. intros j Hj. apply keys_set in Hj. destruct Hj; auto. }
      destruct (existsb _ _).
      - rewrite mbind_at in E2.
        destruct (create_raw_enlargement_parameters _ _ _ _ _ _ _) as [b3 [p|]]; [|discriminate].
        injection E2 as _ <-. apply Q.
      - injection E2 as _ <-. apply Q. }
    destruct H1 as [inner1 [-> [W1 K1]]].
    destruct (IH _ _ _ _ _ (or_intror (ex_intro _ inner1 (conj eq_refl W1))) E) as [->|[inner' [-> [W' K']]]].
    + left; auto.
    + right. exists inner'. split; auto. split; auto. intros j Hj. destruct (K' j Hj) as [H|[i [[= <-] Hi]]].
      * left. right. exact H.
      * destruct (K1 j Hi) as [->|H]; auto. left. left. reflexivity.
Qed.

Lemma used_keys n inner : forall k, In k (map fst (used_enlargements (Some [(n, inner)]))) -> In k (keys inner).
Proof.
  unfold used_enlargements. cbn [flat_map snd]. rewrite app_nil_r.
  induction inner as [|[j [[p df]|]] inner IH]; simpl; intros k H; auto. destruct H; auto.
Qed.

Lemma used_nodup n inner : sd_wf inner -> NoDup (map fst (used_enlargements (Some [(n, inner)]))).
Proof.
  intro W. apply sd_wf_NoDup in W. pose proof (fun i => used_keys n i) as K.
  unfold used_enlargements in *. cbn [flat_map snd] in *. rewrite app_nil_r.
  induction inner as [|[j [[p df]|]] inner IH]; simpl in *; [constructor| |]; inversion W; subst; auto.
  constructor; auto. intro H. apply H1. specialize (K inner j). rewrite app_nil_r in K. auto.
Qed.

Lemma create_single_used n d desired s (b b' : block) r :
  create_enlargement zero ig rnd [(n, d)] desired s b = (b', Ok r) ->
  NoDup (map fst (used_enlargements r)) /\
  forall k, In k (map fst (used_enlargements r)) -> exists t, desired = Some t /\ In k (keys t).
Proof.
  unfold create_enlargement. destruct desired as [t|].
  2:{ intro E. injection E as _ <-. split; [constructor|intros k []]. }
  destruct (ig_enlargement ig).
  2:{ intro E. injection E as _ <-. split; [constructor|intros k []]. }
  intro E. rewrite mbind_at in E.
  destruct (loop _ t [] b) as [b1 [acc|]] eqn:E1; [|discriminate]. injection E as _ <-.
  apply create_single in E1; [|left; reflexivity].
  destruct E1 as [->|[inner [-> [W K]]]].
  - split; [constructor|intros k []].
  - split; [apply used_nodup; auto|]. intros k H. exists t. split; auto.
    apply used_keys in H. destruct (K k H) as [?|[? [[=] _]]]; auto.
Qed.

Lemma single_block_registered x n1 d1 n2 d2 data (b b' : block) o ks kc :
  b_fresh b = true -> b_st_enl b = None -> b_co_enl b = None ->
  b_state b = Some ks -> b_costate b = Some kc -> (forall k, In k (keys ks) -> ~ In k (keys kc)) ->
  fwd x (Some [(n1, d1)]) (Some [(n2, d2)]) data b = (b', Ok o) ->
  forall k p, In (k, p) (used_enlargements (b_st_enl b') ++ used_enlargements (b_co_enl b')) ->
  exists name, pd_get name (b_registry b') = Some (OEnlarge p).
Proof.
  intros F N1 N2 ES EC D E. eapply enlargements_registered; eauto.
  destruct (forward_after _ _ _ _ _ _ _ E) as [[S1 [S2 [_ S3]]] [r ER]].
  rewrite S1, S2. clear S1 S2 S3 E. unfold effective_pass_through in *.
  destruct (b_enlarge b).
  2:{ cbn [fst]. rewrite N1, N2. constructor. }
  rewrite mbind_at in *.
  destruct (get_or_create_enlargement zero ig has_attr rnd [(n1, d1)] [(n2, d2)] b) as [b1 [[es ec]|]] eqn:EG; [|discriminate].
  unfold mbind, modify, enlarge_pass_through, ret in *. cbn in *.
  destruct (bind _ _) as [[s' c']|]; [|discriminate]. cbn [fst b_st_enl b_co_enl set_enl].
  unfold get_or_create_enlargement in EG. rewrite F in EG. destruct (_ || _); [discriminate|].
  rewrite mbind_at in EG.
  destruct (create_enlargement zero ig rnd [(n1, d1)] (b_state b) true b) as [b2 [s1|]] eqn:E1; [|discriminate].
  rewrite mbind_at in EG.
  destruct (create_enlargement zero ig rnd [(n2, d2)] (b_costate b) false b2) as [b3 [c1|]] eqn:E2; [|discriminate].
  rewrite mbind_at in EG.
  destruct (register_enlargement has_attr (b_keep_zero b) s1 b3) as [b4 [u|]] eqn:E3; [|discriminate].
  rewrite mbind_at in EG.
  destruct (register_enlargement has_attr false c1 b4) as [b5 [u'|]] eqn:E4; [|discriminate].
  injection EG as _ <- <-.
  apply create_single_used in E1. apply create_single_used in E2.
  destruct E1 as [ND1 K1], E2 as [ND2 K2].
  rewrite map_app. clear -ND1 K1 ND2 K2 ES EC D.
  induction (map fst (used_enlargements s1)) as [|k l IH]; simpl; auto.
  inversion ND1; subst. constructor.
  - rewrite in_app_iff. intros [H|H]; [auto|]. destruct (K2 k H) as [t [X Hk]].
    destruct (K1 k (or_introl eq_refl)) as [t' [X' Hk']].
    assert (t = kc) by congruence. assert (t' = ks) by congruence. subst. eapply D; eauto.
  - apply IH; auto. intros k' H. apply K1. right. auto.
Qed.
End Register.

(** ** C27 *)

Fixpoint has_underscore (s : string) : bool :=
  match s with
  | EmptyString => false
  | String c r => Ascii.eqb c "_"%char || has_underscore r
  end.

(** Splitting at the last separator: unique when the part behind it has none. *)
Lemma split_last a : forall b k k', has_underscore k = false -> has_underscore k' = false ->
  (a ++ "_" ++ k = b ++ "_" ++ k')%string -> a = b /\ k = k'.
Proof.
  assert (X : forall a k, has_underscore (a ++ String "_" k) = true).
  { induction a0 as [|c a0 IH]; intro k; simpl; auto. rewrite IH. apply orb_true_r. }
  induction a as [|c a IH]; intros b k k' H H' E; destruct b as [|c' b]; simpl in E.
  - injection E as ->. auto.
  - injection E as <- ->. rewrite X in H. discriminate.
  - injection E as -> <-. rewrite X in H'. discriminate.
  - injection E as <- E. destruct (IH b k k' H H' E) as [-> ->]. auto.
Qed.

Lemma digits_no_underscore d : has_underscore (NilEmpty.string_of_uint d) = false.
Proof. induction d; simpl; auto. Qed.

(** Splitting at the first separator. *)
Lemma split_first a : forall b k k', has_underscore a = false -> has_underscore b = false ->
  (a ++ "_" ++ k = b ++ "_" ++ k')%string -> a = b /\ k = k'.
Proof.
  induction a as [|c a IH]; intros b k k' H H' E; destruct b as [|c' b]; simpl in E.
  - injection E as ->. auto.
  - injection E as <- ->. discriminate.
  - injection E as -> <-. discriminate.
  - injection E as <- E. simpl in H, H'. apply orb_false_iff in H. apply orb_false_iff in H'.
    destruct H as [_ H], H' as [_ H']. destruct (IH b k k' H H' E) as [-> ->]. auto.
Qed.

Lemma str_nat_inj a b : str_nat a = str_nat b -> a = b.
Proof.
  unfold str_nat. intro H.
  assert (E : NilEmpty.uint_of_string (NilEmpty.string_of_uint (Nat.to_uint a))
            = NilEmpty.uint_of_string (NilEmpty.string_of_uint (Nat.to_uint b))) by (rewrite H; auto).
  rewrite !NilEmpty.usu in E. injection E as E.
  rewrite <- (Unsigned.of_to a), <- (Unsigned.of_to b), E. reflexivity.
Qed.

(** The time step is always recoverable; layer and parameter are when the
    parameter name has no underscore. *)
Lemma free_name_step i l k i' l' k' : free_name i l k = free_name i' l' k' ->
  i = i' /\ (l ++ "_" ++ k = l' ++ "_" ++ k')%string.
Proof.
  unfold free_name. intro H. apply append_inj_l in H.
  apply split_first in H; try apply digits_no_underscore.
  destruct H as [H ->]. split; [apply str_nat_inj; exact H|reflexivity].
Qed.

Lemma free_name_inj i l k i' l' k' :
  has_underscore k = false -> has_underscore k' = false ->
  free_name i l k = free_name i' l' k' -> i = i' /\ l = l' /\ k = k'.
Proof.
  intros H H' E. apply free_name_step in E. destruct E as [-> E].
  destruct (split_last _ _ _ _ H H' E) as [-> ->]. auto.
Qed.

(** All triples of a family of layers. *)
Definition triples (steps : list (sdict (list string))) : list (nat * string * string) :=
  flat_map (fun il => flat_map (fun lk => map (fun k => (fst il, fst lk, k)) (snd lk)) (snd il))
           (combine (seq 0 (List.length steps)) steps).

Definition triple_name (t : nat * string * string) : string :=
  let '(i, l, k) := t in free_name i l k.
Definition triple_obj (t : nat * string * string) : pobj :=
  let '(i, l, k) := t in OFree i l k.

Section Free.
Variable has_attr : string -> bool.

Definition reg_triple (r : pdict pobj) (t : nat * string * string) : result (pdict pobj) :=
  register_parameter has_attr (triple_name t) (triple_obj t) r.

Lemma foldM_flat_map {X Y S} (f : S -> Y -> result S) (g : X -> list Y) l : forall s,
  foldM f (flat_map g l) s = foldM (fun s x => foldM f (g x) s) l s.
Proof.
  induction l as [|a l IH]; intro s; simpl; auto. rewrite foldM_app.
  unfold bind. destruct (foldM f (g a) s); auto.
Qed.

Lemma foldM_map {X Y S} (f : S -> Y -> result S) (g : X -> Y) l : forall s,
  foldM f (map g l) s = foldM (fun s x => f s (g x)) l s.
Proof.
  induction l as [|a l IH]; intro s; simpl; auto. unfold bind. destruct (f s (g a)); auto.
Qed.

Lemma foldM_ext {X S} (f g : S -> X -> result S) l :
  (forall s x, f s x = g s x) -> forall s, foldM f l s = foldM g l s.
Proof.
  intros H. induction l as [|a l IH]; intro s; simpl; auto. rewrite H. unfold bind.
  destruct (g s a); auto.
Qed.

Lemma register_free_triples steps r :
  register_free has_attr steps r = foldM reg_triple (triples steps) r.
Proof.
  unfold register_free, triples. rewrite foldM_flat_map. apply foldM_ext. intros s [i d].
  rewrite foldM_flat_map. apply foldM_ext. intros s' [l ks]. cbn [fst snd].
  rewrite foldM_map. reflexivity.
Qed.

Lemma reg_triples_get l : forall r r',
  NoDup (map triple_name l) -> foldM reg_triple l r = Ok r' ->
  forall t, In t l -> pd_get (triple_name t) r' = Some (triple_obj t).
Proof.
  induction l as [|t0 l IH]; intros r r' N E t I; [destruct I|].
  cbn [foldM] in E. unfold bind in E. destruct (reg_triple r t0) as [r1|] eqn:E1; [|discriminate].
  cbn [map] in N. inversion N as [|? ? N1 N2]; subst. destruct I as [->|I]; [|eapply IH; eauto].
  apply register_parameter_ok in E1. subst r1.
  assert (G : forall l r r', ~ In (triple_name t) (map triple_name l) -> foldM reg_triple l r = Ok r' ->
            pd_get (triple_name t) r' = pd_get (triple_name t) r).
  { clear. induction l as [|a l IH]; intros r r' N E; simpl in E; [congruence|].
    unfold bind in E. destruct (reg_triple r a) as [r1|] eqn:E1; [|discriminate].
    simpl in N. rewrite (IH _ _ (fun H => N (or_intror H)) E).
    apply register_parameter_ok in E1. subst r1. apply pd_get_set_other. intro H. apply N. left. auto. }
  rewrite (G _ _ _ N1 E). apply pd_get_set_same.
Qed.

Lemma nodup_map_on {X Y} (f : X -> Y) l : NoDup l ->
  (forall a b, In a l -> In b l -> f a = f b -> a = b) -> NoDup (map f l).
Proof.
  induction l as [|a l IH]; intros N I; simpl; constructor; inversion N; subst.
  - rewrite in_map_iff. intros [b [E Hb]]. apply I in E; [subst; auto|right; auto|left; auto].
  - apply IH; auto. intros x y Hx Hy. apply I; right; auto.
Qed.

Lemma nodup_flat_map {X Y} (g : X -> list Y) l : NoDup l -> (forall a, In a l -> NoDup (g a)) ->
  (forall a b y, In a l -> In b l -> In y (g a) -> In y (g b) -> a = b) -> NoDup (flat_map g l).
Proof.
  induction l as [|a l IH]; intros N G D; simpl; [constructor|]. inversion N; subst.
  assert (D' : NoDup (flat_map g l)).
  { apply IH; auto. intros; apply G; right; auto. intros x y z Hx Hy. apply D; right; auto. }
  assert (DD : forall y, In y (g a) -> ~ In y (flat_map g l)).
  { intros y Hy Hf. apply in_flat_map in Hf. destruct Hf as [b [Hb Hy']].
    assert (a = b) by (eapply D; eauto; [left; auto|right; auto]). subst. auto. }
  specialize (G a (or_introl eq_refl)). revert G DD. clear -D'.
  induction (g a) as [|y m IHm]; intros G DD; simpl; auto. inversion G; subst. constructor.
  - rewrite in_app_iff. intros [H|H]; auto. eapply DD; eauto. left; auto.
  - apply IHm; auto. intros z Hz. apply DD. right; auto.
Qed.

Lemma in_triples steps i l k : In (i, l, k) (triples steps) <->
  exists d ks, nth_error steps i = Some d /\ In (l, ks) d /\ In k ks.
Proof.
  unfold triples. rewrite in_flat_map. split.
  - intros [[i' d] [H1 H2]]. cbn [fst snd] in H2. apply in_flat_map in H2.
    destruct H2 as [[l' ks] [H2 H3]]. cbn [fst snd] in H3. apply in_map_iff in H3.
    destruct H3 as [k' [[= -> -> ->] H3]]. exists d, ks. split; auto.
    clear -H1. change i with (0 + i) in H1. 
    assert (G : forall n, In (n + i, d) (combine (seq n (List.length steps)) steps) -> nth_error steps i = Some d).
    { clear. revert i. induction steps as [|a steps IH]; intros i n H; simpl in H; [tauto|].
      destruct i as [|i].
      - destruct H as [[= _ ->]|H]; [reflexivity|]. exfalso. apply in_combine_l in H. apply in_seq in H. lia.
      - destruct H as [[= H _]|H]; [lia|]. simpl. apply (IH i (S n)).
        replace (S n + i) with (n + S i) by lia. exact H. }
    eapply G; exact H1.
  - intros [d [ks [H1 [H2 H3]]]]. exists (i, d). split.
    + assert (G : forall n, In (n + i, d) (combine (seq n (List.length steps)) steps)).
      { clear -H1. revert i H1. induction steps as [|a steps IH]; intros i H n; destruct i as [|i]; try discriminate; simpl in *.
        - left. rewrite Nat.add_0_r. congruence.
        - right. replace (n + S i) with (S n + i) by lia. apply IH. auto. }
      apply (G 0).
    + cbn [fst snd]. apply in_flat_map. exists (l, ks). split; auto. cbn [fst snd].
      apply in_map_iff. exists k. auto.
Qed.

Lemma nodup_triples steps :
  (forall i d l ks, nth_error steps i = Some d -> In (l, ks) d -> NoDup ks) ->
  (forall i d, nth_error steps i = Some d -> NoDup (keys d)) -> NoDup (triples steps).
Proof.
  intros H1 H2. unfold triples.
  assert (S0 : forall i d, In (i, d) (combine (seq 0 (List.length steps)) steps) -> nth_error steps i = Some d).
  { assert (G : forall (l : list (sdict (list string))) n i d,
      In (i, d) (combine (seq n (List.length l)) l) -> n <= i /\ nth_error l (i - n) = Some d).
    { induction l as [|a l IH]; intros n i d H; simpl in H; [tauto|]. destruct H as [[= <- <-]|H].
      - rewrite Nat.sub_diag. auto.
      - apply IH in H. destruct H as [H3 H]. split; [lia|].
        replace (i - n) with (S (i - S n)) by lia. exact H. }
    intros i d H. apply G in H. rewrite Nat.sub_0_r in H. apply H. }
  apply nodup_flat_map.
  - assert (N : NoDup (map fst (combine (seq 0 (List.length steps)) steps))).
    { assert (G : forall (l : list (sdict (list string))) n, map fst (combine (seq n (List.length l)) l) = seq n (List.length l)).
      { induction l as [|a l IH]; intro n; simpl; auto. f_equal. apply IH. }
      rewrite G. apply seq_NoDup. }
    apply NoDup_map_inv in N. exact N.
  - intros [i d] I. apply S0 in I. cbn [fst snd]. apply nodup_flat_map.
    + apply NoDup_map_inv with (f := fst). apply (H2 _ _ I).
    + intros [l ks] I2. cbn [fst snd]. apply nodup_map_on; [eapply H1; eauto|]. congruence.
    + intros [l ks] [l' ks'] y I1 I2 Y1 Y2. cbn [fst snd] in *. apply in_map_iff in Y1. apply in_map_iff in Y2.
      destruct Y1 as [k [<- _]], Y2 as [k' [Y2 _]].
      assert (l' = l) as -> by congruence. f_equal.
      specialize (H2 _ _ I). clear -H2 I1 I2. induction d as [|[a b] d IH]; [destruct I1|].
      simpl in H2. inversion H2; subst.
      destruct I1 as [I1|I1], I2 as [I2|I2]; auto.
      * congruence.
      * exfalso. apply H1. apply (in_map fst) in I2. injection I1 as -> _. exact I2.
      * exfalso. apply H1. apply (in_map fst) in I1. injection I2 as -> _. exact I1.
  - intros [i d] [i' d'] y I1 I2 Y1 Y2. cbn [fst snd] in *.
    apply in_flat_map in Y1. apply in_flat_map in Y2.
    destruct Y1 as [[l ks] [_ Y1]], Y2 as [[l' ks'] [_ Y2]]. cbn [fst snd] in *.
    apply in_map_iff in Y1. apply in_map_iff in Y2.
    destruct Y1 as [k [<- _]], Y2 as [k' [Y2 _]]. assert (i' = i) as -> by congruence.
    apply S0 in I1. apply S0 in I2. congruence.
Qed.

Lemma free_registered steps r r' :
  (forall i d, nth_error steps i = Some d -> NoDup (keys d)) ->
  (forall i d l ks, nth_error steps i = Some d -> In (l, ks) d ->
     NoDup ks /\ Forall (fun k => has_underscore k = false) ks) ->
  register_free has_attr steps r = Ok r' ->
  forall i d l ks k, nth_error steps i = Some d -> In (l, ks) d -> In k ks ->
    pd_get (free_name i l k) r' = Some (OFree i l k).
Proof.
  intros H1 H2 E i d l ks k I1 I2 I3. rewrite register_free_triples in E.
  apply (reg_triples_get _ _ _) with (t := (i, l, k)) in E; auto.
  - apply nodup_map_on.
    + apply nodup_triples; auto. intros. eapply H2; eauto.
    + intros [[i1 l1] k1] [[i2 l2] k2] T1 T2 N. simpl in N.
      apply in_triples in T1. apply in_triples in T2.
      destruct T1 as [d1 [ks1 [A1 [B1 C1]]]], T2 as [d2 [ks2 [A2 [B2 C2]]]].
      destruct (H2 _ _ _ _ A1 B1) as [_ U1]. destruct (H2 _ _ _ _ A2 B2) as [_ U2].
      rewrite Forall_forall in U1, U2.
      destruct (free_name_inj _ _ _ _ _ _ (U1 _ C1) (U2 _ C2) N) as [-> [-> ->]]. reflexivity.
  - apply in_triples. eauto.
Qed.

Lemma free_register_ok steps : forall r,
  (forall i d l ks k, nth_error steps i = Some d -> In (l, ks) d -> In k ks ->
     has_dot l = false /\ has_dot k = false /\ has_attr (free_name i l k) = false) ->
  exists r', register_free has_attr steps r = Ok r'.
Proof.
  intros r H. rewrite register_free_triples.
  assert (G : forall l r, (forall i n k, In (i, n, k) l ->
      has_dot n = false /\ has_dot k = false /\ has_attr (free_name i n k) = false) ->
      exists r', foldM reg_triple l r = Ok r').
  { clear. induction l as [|[[i n] k] l IH]; intros r H; simpl; [eauto|].
    destruct (H i n k (or_introl eq_refl)) as [D1 [D2 D3]].
    assert (X : register_parameter has_attr (free_name i n k) (OFree i n k) r
              = Ok (pd_set (free_name i n k) (OFree i n k) r)).
    { unfold register_parameter. rewrite D3.
      assert (HD : forall a b, has_dot (a ++ b) = has_dot a || has_dot b).
      { induction a as [|c a IHa]; intro b; simpl; auto. rewrite IHa, orb_assoc. auto. }
      assert (HU : forall d, has_dot (NilEmpty.string_of_uint d) = false) by (induction d; simpl; auto).
      unfold free_name at 1. rewrite !HD. unfold str_nat. rewrite HU, D1, D2. reflexivity. }
    change (reg_triple r (i, n, k)) with (register_parameter has_attr (free_name i n k) (OFree i n k) r).
    rewrite X. simpl. apply IH.
    intros; apply H; right; auto. }
  apply G. intros i n k I. apply in_triples in I. destruct I as [d [ks [A1 [B1 C1]]]]. eapply H; eauto.
Qed.
End Free.

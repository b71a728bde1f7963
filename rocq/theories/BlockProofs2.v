(** Proofs about retrying failed forward calls (C23) and time settings (C28). *)
From Coq Require Import List String Ascii Arith ZArith QArith Qcanon Lia Bool.
From Verif Require Import Base BaseFacts Tensor TensorFacts ScdModel BlockModel BlockSpec BlockProofs.
Import ListNotations.
Open Scope nat_scope.

Section Scratch.
Context {A : Type}.
Notation block := (@block A).

(** Overwriting the two attributes the integrand keeps from the last call. *)
Definition scratch (p : option plans) (n : nat) (b : block) : block :=
  set_plans p (set_data_dim n b).

Lemma scratch_id b : b = scratch (b_plans b) (b_data_dim b) b.
Proof. destruct b; reflexivity. Qed.

Lemma scratch_scratch p n p' n' b : scratch p n (scratch p' n' b) = scratch p n b.
Proof. destruct b; reflexivity. Qed.

(** [f] changes attributes the methods below neither read nor write. *)
Record inert (f : block -> block) : Prop := {
  inert_name : forall b, b_name (f b) = b_name b;
  inert_state : forall b, b_state (f b) = b_state b;
  inert_costate : forall b, b_costate (f b) = b_costate b;
  inert_enlarge : forall b, b_enlarge (f b) = b_enlarge b;
  inert_keep : forall b, b_keep_zero (f b) = b_keep_zero b;
  inert_fresh : forall b, b_fresh (f b) = b_fresh b;
  inert_st : forall b, b_st_enl (f b) = b_st_enl b;
  inert_co : forall b, b_co_enl (f b) = b_co_enl b;
  inert_store : forall b, b_store (f b) = b_store b;
  inert_registry : forall b, b_registry (f b) = b_registry b;
  inert_set_enl : forall v w b, f (set_enl v w b) = set_enl v w (f b);
  inert_set_store : forall v b, f (set_store v b) = set_store v (f b);
  inert_set_registry : forall v b, f (set_registry v b) = set_registry v (f b) }.

Lemma scratch_inert p n : inert (scratch p n).
Proof. split; intros; destruct b; reflexivity. Qed.

Lemma set_times_inert v w : inert (set_times v w).
Proof. split; intros; destruct b; reflexivity. Qed.

Definition commutes {B} (f : block -> block) (m : @M A B) : Prop :=
  forall b, m (f b) = (f (fst (m b)), snd (m b)).

Section Commutes.
Variable f : block -> block.
Lemma blind_ret {B} (x : B) : commutes f (ret x).
Proof. intros b. reflexivity. Qed.
Lemma blind_raise {B} e : commutes f (@raise A B e).
Proof. intros b. reflexivity. Qed.
Lemma blind_lift {B} (r : result B) : commutes f (lift r).
Proof. intros b. reflexivity. Qed.
Lemma blind_bind {B C} (m : @M A B) (g : B -> @M A C) :
  commutes f m -> (forall x, commutes f (g x)) -> commutes f (mbind m g).
Proof.
  intros H1 H2 b. unfold mbind. rewrite H1. destruct (m b) as [b' [x|e]]; cbn [fst snd]; auto.
  apply H2.
Qed.
Lemma blind_loop {B S} (g : S -> B -> @M A S) l :
  (forall s x, commutes f (g s x)) -> forall s, commutes f (loop g l s).
Proof.
  intro H. induction l as [|a l IH]; intro s; simpl; [apply blind_ret|apply blind_bind; auto].
Qed.
End Commutes.
End Scratch.

Section Retry.
Context {A : Type}.
Variable zero : A.
Variable ig : @integrand A.
Variable has_attr : string -> bool.
Variable rnd : nat -> nat -> A.
Variable solve : @block A -> list A -> list Qc -> result (tensor A).
Notation block := (@block A).
Notation fwd := (forward zero ig has_attr rnd solve).
Notation run := (run_ops zero ig has_attr rnd solve).
Notation run1 := (run_op zero ig has_attr rnd solve).

Section Inert.
Variable f : block -> block.
Hypothesis I : inert f.

Lemma blind_create k d s acc dd : commutes f (create_enlargement_step zero ig rnd k d s acc dd).
Proof.
  unfold create_enlargement_step.
  do 5 (apply blind_bind; [apply blind_lift|intro]).
  destruct (existsb _ _); [|apply blind_ret].
  apply blind_bind; [|intro; apply blind_ret].
  unfold create_raw_enlargement_parameters. destruct (_ <? _); [apply blind_raise|].
  intros b. unfold create_parameters_of_size. rewrite (inert_keep _ I), (inert_store _ I).
  destruct s, (b_keep_zero b), (ig_state_random ig), (ig_costate_random ig);
    cbn [fst snd]; rewrite ?(inert_set_store _ I); reflexivity.
Qed.

Lemma blind_create_enlargement d o s : commutes f (create_enlargement zero ig rnd d o s).
Proof.
  unfold create_enlargement. destruct o; [|apply blind_ret].
  destruct (ig_enlargement ig); [|apply blind_ret].
  apply blind_bind; [|intro; apply blind_ret].
  apply blind_loop. intros. apply blind_loop. intros. apply blind_create.
Qed.

Lemma blind_register z o : commutes f (@register_enlargement A has_attr z o).
Proof.
  unfold register_enlargement. destruct o; [|apply blind_ret].
  apply blind_loop. intros. apply blind_loop. intros u [k e].
  unfold register_entry. cbn [snd]. destruct e as [[q df]|]; [|apply blind_ret].
  destruct z; [apply blind_raise|]. intros b. rewrite (inert_registry _ I).
  destruct (register_parameter _ _ _ _); cbn [fst snd]; rewrite ?(inert_set_registry _ I); reflexivity.
Qed.

Lemma blind_get_or_create st co :
  commutes f (get_or_create_enlargement zero ig has_attr rnd st co).
Proof.
  intros b. unfold get_or_create_enlargement.
  rewrite (inert_fresh _ I), (inert_st _ I), (inert_co _ I), (inert_state _ I), (inert_costate _ I),
    (inert_keep _ I).
  destruct (b_fresh b); [|reflexivity]. destruct (_ || _); [reflexivity|].
  apply blind_bind; [apply blind_create_enlargement|intro].
  apply blind_bind; [apply blind_create_enlargement|intro].
  apply blind_bind; [apply blind_register|intro].
  apply blind_bind; [apply blind_register|intro]. apply blind_ret.
Qed.

Lemma blind_effective st co : commutes f (effective_pass_through zero ig has_attr rnd st co).
Proof.
  unfold effective_pass_through. destruct st, co; try apply blind_ret.
  intros b. rewrite (inert_enlarge _ I). destruct (b_enlarge b); [|reflexivity].
  apply blind_bind; [apply blind_get_or_create|intros [es ec]].
  apply blind_bind; [intros b1; unfold modify; cbn [fst snd]; rewrite (inert_set_enl _ I); reflexivity|intros _].
  apply blind_bind; [|intros [s' c']; apply blind_ret].
  intros b1. unfold enlarge_pass_through. rewrite (inert_store _ I), (inert_st _ I), (inert_co _ I). reflexivity.
Qed.

Lemma blind_data x d : commutes f (effective_data ig x d).
Proof.
  unfold effective_data. destruct x, d; try apply blind_raise; try apply blind_ret.
  intros b. rewrite (inert_name _ I). reflexivity.
Qed.

Lemma blind_initial_conditions d st co z :
  (forall n b, f (set_data_dim n b) = set_data_dim n (f b)) ->
  commutes f (initial_conditions zero ig d st co z).
Proof.
  intros HD b. unfold initial_conditions.
  rewrite (inert_name _ I), (inert_state _ I), (inert_costate _ I).
  apply blind_bind; [apply blind_lift|intro].
  apply blind_bind; [apply blind_lift|intro].
  apply blind_bind; [|intro; apply blind_lift].
  destruct z, (b_state b); try apply blind_ret.
  apply blind_bind; [apply blind_lift|intros [dim|]]; [|apply blind_raise].
  apply blind_bind; [intros b1; unfold modify; cbn [fst snd]; rewrite HD; reflexivity|intros _].
  apply blind_bind; [apply blind_lift|intro]. apply blind_lift.
Qed.
End Inert.

(** What follows the assembled initial conditions. *)
Definition forward_rest (r : list A * plans) : @M A outputs :=
  let '(x0, ps) := r in
  _ <-- modify (set_plans (Some ps)) ;;;
  r <-- integrate_and_disassemble ig solve x0 ;;;
  finish_outputs ig r.

Lemma forward_rest_block xp b : fst (forward_rest xp b) = set_plans (Some (snd xp)) b.
Proof.
  destruct xp as [x0 ps]. unfold forward_rest, mbind, modify, integrate_and_disassemble, finish_outputs.
  cbn [snd]. match goal with |- context [match ?m with Ok _ => _ | Raise _ => _ end] => destruct m end; reflexivity.
Qed.

Lemma initial_conditions_scratch d st co z p n b :
  snd (initial_conditions zero ig d st co z (scratch p n b))
  = snd (initial_conditions zero ig d st co z b).
Proof.
  unfold initial_conditions, mbind, lift, ret, modify, raise. cbn [scratch set_plans set_data_dim b_state b_costate b_name].
  destruct (merge_dict (b_state b) st (b_name b)); [|reflexivity].
  destruct (merge_dict (b_costate b) co (b_name b)); [|reflexivity].
  destruct z, (b_state b); try reflexivity.
  destruct (get_data_concatenation_dim _ _ _) as [[dim|]|]; try reflexivity.
  destruct (zero_data_dict_matching _ _ _ _ _); [|reflexivity].
  destruct (merge_dict _ _ _); reflexivity.
Qed.

Lemma initial_conditions_block d st co z b b1 r :
  initial_conditions zero ig d st co z b = (b1, Ok r) ->
  (z = true /\ b_state b <> None /\ exists dim, b1 = set_data_dim dim b /\
     forall p n, fst (initial_conditions zero ig d st co z (scratch p n b)) = scratch p dim b) \/
  (b1 = b /\ forall p n, fst (initial_conditions zero ig d st co z (scratch p n b)) = scratch p n b
     /\ (z = false \/ b_state b = None)).
Proof.
  unfold initial_conditions, mbind, lift, ret, modify, raise. cbn [scratch set_plans set_data_dim b_state b_costate b_name].
  destruct (merge_dict (b_state b) st (b_name b)); [|discriminate].
  destruct (merge_dict (b_costate b) co (b_name b)); [|discriminate].
  destruct z, (b_state b) eqn:Es.
  - destruct (get_data_concatenation_dim _ _ _) as [[dim|]|]; try discriminate.
    destruct (zero_data_dict_matching _ _ _ _ _); [|discriminate].
    destruct (merge_dict _ _ _); [|discriminate]. intro E. injection E as <- _.
    left. split; auto. split; [discriminate|]. exists dim. split; auto.
  - intro E. injection E as <- _. right. split; [reflexivity|]. intros. split; auto.
  - intro E. injection E as <- _. right. split; [reflexivity|]. intros. split; auto.
  - intro E. injection E as <- _. right. split; [reflexivity|]. intros. split; auto.
Qed.

Lemma initial_conditions_only_scratch d st co z b :
  exists n, fst (initial_conditions zero ig d st co z b) = set_data_dim n b.
Proof.
  assert (I : b = set_data_dim (b_data_dim b) b) by (destruct b; reflexivity).
  unfold initial_conditions, mbind, lift, ret, modify, raise.
  destruct (merge_dict (b_state b) st (b_name b)); [|eexists; exact I].
  destruct (merge_dict (b_costate b) co (b_name b)); [|eexists; exact I].
  destruct z, (b_state b); try (eexists; exact I).
  destruct (get_data_concatenation_dim _ _ _) as [[dim|]|]; try (eexists; exact I).
  destruct (zero_data_dict_matching _ _ _ _ _); [|eexists; reflexivity].
  destruct (merge_dict _ _ _); eexists; reflexivity.
Qed.

Lemma forward_body_rest x st co data b :
  forward_body zero ig has_attr rnd solve x st co data b =
  match x, st, co with
  | None, None, None => raise ValueError b
  | _, None, Some _ | _, Some _, None => raise ValueError b
  | _, _, _ =>
     (stco <-- effective_pass_through zero ig has_attr rnd st co ;;;
      dz <-- effective_data ig x data ;;;
      xp <-- initial_conditions zero ig (fst dz) (fst stco) (snd stco) (snd dz) ;;;
      forward_rest xp) b
  end.
Proof.
  unfold forward_body. destruct x, st, co; try reflexivity; apply mbind_ext; intros [? ?] ?;
    apply mbind_ext; intros [? ?] ?; apply mbind_ext; intros [? ?] ?; reflexivity.
Qed.

Lemma mbind_at {B C} (m : @M A B) (f : B -> @M A C) b :
  mbind m f b = match m b with (b', Ok x) => f x b' | (b', Raise e) => (b', Raise e) end.
Proof. reflexivity. Qed.

(** The outcome does not depend on what earlier calls left in the scratch
    attributes, provided the data concatenation dimension is the same or is
    recomputed by this call. *)
Lemma forward_scratch x st co data p n b :
  n = b_data_dim b \/ (data <> None /\ b_state b <> None) ->
  snd (fwd x st co data (scratch p n b)) = snd (fwd x st co data b).
Proof.
  intro H. rewrite !forward_split.
  assert (K : snd (forward_body zero ig has_attr rnd solve x st co data (scratch p n b))
            = snd (forward_body zero ig has_attr rnd solve x st co data b)).
  2:{ destruct (forward_body _ _ _ _ _ x st co data (scratch p n b)) as [b1 [o1|e1]],
               (forward_body _ _ _ _ _ x st co data b) as [b2 [o2|e2]]; cbn [snd] in K |- *; congruence. }
  rewrite !forward_body_rest.
  assert (G : snd ((stco <-- effective_pass_through zero ig has_attr rnd st co ;;;
      dz <-- effective_data ig x data ;;;
      xp <-- initial_conditions zero ig (fst dz) (fst stco) (snd stco) (snd dz) ;;;
      forward_rest xp) (scratch p n b)) =
     snd ((stco <-- effective_pass_through zero ig has_attr rnd st co ;;;
      dz <-- effective_data ig x data ;;;
      xp <-- initial_conditions zero ig (fst dz) (fst stco) (snd stco) (snd dz) ;;;
      forward_rest xp) b)).
  2:{ destruct x, st, co; try exact G; reflexivity. }
  rewrite !(mbind_at (effective_pass_through zero ig has_attr rnd st co)).
  rewrite (blind_effective _ (scratch_inert p n) st co b).
  pose proof (effective_pass_through_static zero ig has_attr rnd st co b) as SS.
  assert (D1 : b_data_dim (fst (effective_pass_through zero ig has_attr rnd st co b)) = b_data_dim b).
  { pose proof (blind_effective _ (scratch_inert (b_plans b) (b_data_dim b)) st co b) as X. rewrite <- scratch_id in X.
    rewrite X at 1. destruct (fst (effective_pass_through _ _ _ _ st co b)). reflexivity. }
  destruct (effective_pass_through _ _ _ _ st co b) as [b1 [stco|e]]; cbn [fst snd] in *; [|reflexivity].
  rewrite !(mbind_at (effective_data ig x data)). rewrite (blind_data _ (scratch_inert p n) x data b1).
  assert (ED : fst (effective_data ig x data b1) = b1).
  { unfold effective_data. destruct x, data; reflexivity. }
  assert (EZ : forall dz, snd (effective_data ig x data b1) = Ok dz -> data <> None -> snd dz = true).
  { unfold effective_data. destruct x, data; simpl; intros dz E N; try discriminate; try congruence.
    injection E as <-. reflexivity. }
  destruct (effective_data ig x data b1) as [b2 [dz|e]]; cbn [fst snd] in *; subst b2; [|reflexivity].
  rewrite !(mbind_at (initial_conditions zero ig (fst dz) (fst stco) (snd stco) (snd dz))).
  pose proof (initial_conditions_scratch (fst dz) (fst stco) (snd stco) (snd dz) p n b1) as IS.
  destruct (initial_conditions zero ig (fst dz) (fst stco) (snd stco) (snd dz) b1) as [b3 [xp|e]] eqn:EI;
  destruct (initial_conditions zero ig (fst dz) (fst stco) (snd stco) (snd dz) (scratch p n b1)) as [b3' [xp'|e']] eqn:EI';
    cbn [snd] in IS; try discriminate.
  2:{ injection IS as ->. reflexivity. }
  injection IS as ->.
  assert (B3 : exists q, b3' = set_plans q b3).
  { destruct (initial_conditions_block _ _ _ _ _ _ _ EI) as [[Z [S [dim [-> F]]]]|[-> F]].
    - specialize (F p n). rewrite EI' in F. cbn [fst] in F. subst b3'. exists p. destruct b1; reflexivity.
    - specialize (F p n). rewrite EI' in F. cbn [fst] in F. destruct F as [-> F].
      exists p. assert (n = b_data_dim b1) as ->.
      { destruct H as [->|[H1 H2]]; [auto|]. exfalso. destruct F as [F|F].
        - rewrite (EZ _ eq_refl H1) in F. discriminate.
        - destruct SS as [_ [SS _]]. congruence. }
      destruct b1; reflexivity. }
  destruct B3 as [q ->]. unfold forward_rest. destruct xp as [x0 ps].
  rewrite !mbind_at. unfold modify.
  replace (set_plans (Some ps) (set_plans q b3)) with (set_plans (Some ps) b3) by (destruct b3; reflexivity).
  reflexivity.
Qed.

(** No enlargement parameters can be created: the block does not enlarge, the
    model does not support it, or the block has no parameters of its own. *)
Definition never_enlarges (b : block) : Prop :=
  b_st_enl b = None /\ b_co_enl b = None /\
  (b_enlarge b = false \/ ig_enlargement ig = false \/ (b_state b = None /\ b_costate b = None)).

Lemma never_enlarges_scratch p n b : never_enlarges b -> never_enlarges (scratch p n b).
Proof. intro H; exact H. Qed.

Lemma create_none d o s b : ig_enlargement ig = false \/ o = None ->
  create_enlargement zero ig rnd d o s b = (b, Ok None).
Proof.
  intros [H| ->]; unfold create_enlargement; [rewrite H; destruct o; reflexivity|reflexivity].
Qed.

Lemma effective_unchanged st co b : never_enlarges b \/ st = None \/ co = None ->
  fst (effective_pass_through zero ig has_attr rnd st co b) = b.
Proof.
  intros [H|H].
  - destruct H as [H1 [H2 H3]]. unfold effective_pass_through. destruct st, co; try reflexivity.
    destruct (b_enlarge b) eqn:E; [|reflexivity].
    destruct H3 as [H3|H3]; [discriminate|].
    assert (HS : ig_enlargement ig = false \/ b_state b = None) by (destruct H3 as [?|[? ?]]; auto).
    assert (HC : ig_enlargement ig = false \/ b_costate b = None) by (destruct H3 as [?|[? ?]]; auto).
    rewrite mbind_at. unfold get_or_create_enlargement. rewrite H1, H2. cbn [orb].
    assert (S0 : set_enl None None b = b) by (destruct b; simpl in *; subst; reflexivity).
    destruct (b_fresh b).
    + rewrite mbind_at, create_none by auto. rewrite mbind_at, create_none by auto.
      unfold register_enlargement. rewrite !mbind_at. unfold ret at 1. rewrite !mbind_at. unfold ret at 1.
      unfold ret at 1. rewrite !mbind_at. unfold modify. rewrite S0.
      unfold mbind, enlarge_pass_through. rewrite ?H1, ?H2. reflexivity.
    + rewrite !mbind_at. unfold modify. rewrite S0.
      unfold mbind, enlarge_pass_through. rewrite ?H1, ?H2. reflexivity.
  - unfold effective_pass_through. destruct H as [-> | ->]; [reflexivity|]. destruct st; reflexivity.
Qed.

Lemma initial_conditions_x d st co z (b : block) : z = false \/ b_state b = None ->
  fst (initial_conditions zero ig d st co z b) = b.
Proof.
  intro H. unfold initial_conditions, mbind, lift, ret.
  destruct (merge_dict (b_state b) st (b_name b)); [|reflexivity].
  destruct (merge_dict (b_costate b) co (b_name b)); [|reflexivity].
  destruct H as [-> | ->]; [reflexivity|]. destruct z; reflexivity.
Qed.

(** Such a failing call changes the scratch attributes only. *)
Lemma failed_only_scratch x st co data b b' e :
  never_enlarges b \/ st = None \/ co = None ->
  fwd x st co data b = (b', Raise e) -> exists p n, b' = scratch p n b /\ (b_state b = None -> n = b_data_dim b).
Proof.
  intros H E. rewrite forward_split in E.
  destruct (forward_body zero ig has_attr rnd solve x st co data b) as [b1 [o|e']] eqn:EB; [discriminate|].
  injection E as <- _. rewrite forward_body_rest in EB.
  assert (I : exists p n, b = scratch p n b /\ (b_state b = None -> n = b_data_dim b))
    by (exists (b_plans b), (b_data_dim b); split; [apply scratch_id|auto]).
  assert (G : forall r, (stco <-- effective_pass_through zero ig has_attr rnd st co ;;;
      dz <-- effective_data ig x data ;;;
      xp <-- initial_conditions zero ig (fst dz) (fst stco) (snd stco) (snd dz) ;;;
      forward_rest xp) b = (b1, r) -> exists p n, b1 = scratch p n b /\ (b_state b = None -> n = b_data_dim b)).
  2:{ destruct x, st, co; try (eapply G; exact EB); injection EB as <- _; exact I. }
  clear EB. intros r EB. rewrite mbind_at in EB. pose proof (effective_unchanged st co b H) as U.
  destruct (effective_pass_through _ _ _ _ st co b) as [b2 [stco|e1]]; cbn [fst] in U; subst b2.
  2:{ injection EB as <- _. exact I. }
  rewrite mbind_at in EB.
  assert (ED : fst (effective_data ig x data b) = b).
  { unfold effective_data. destruct x, data; reflexivity. }
  destruct (effective_data ig x data b) as [b2 [dz|e1]]; cbn [fst] in ED; subst b2.
  2:{ injection EB as <- _. exact I. }
  rewrite mbind_at in EB.
  destruct (initial_conditions_only_scratch (fst dz) (fst stco) (snd stco) (snd dz) b) as [n EN].
  assert (EN' : b_state b = None -> n = b_data_dim b).
  { intro D. rewrite initial_conditions_x in EN by (right; exact D).
    apply (f_equal b_data_dim) in EN. symmetry. exact EN. }
  destruct (initial_conditions _ _ _ _ _ _ b) as [b2 [xp|e1]]; cbn [fst] in EN; subst b2.
  2:{ injection EB as <- _. exists (b_plans b), n. split; [destruct b; reflexivity|exact EN']. }
  pose proof (forward_rest_block xp (set_data_dim n b)) as R. rewrite EB in R. cbn [fst] in R. subst b1.
  exists (Some (snd xp)), n. split; [destruct b; reflexivity|exact EN'].
Qed.

(** A failing forward call that cannot create enlargement parameters. *)
Definition harmless_call (b : block) (o : @op A) : Prop :=
  match o with
  | OpForward x st co data => never_enlarges b \/ st = None \/ co = None
  | OpParameters => True
  | _ => False
  end.

Lemma failed_history os : forall b b' vs,
  Forall (harmless_call b) os -> run os b = (b', vs) -> Forall (fun v => ~ forward_succeeded v) vs ->
  exists p n, b' = scratch p n b /\ (b_state b = None -> n = b_data_dim b).
Proof.
  induction os as [|o os IH]; intros b b' vs F E NS; simpl in E.
  - injection E as <- <-. exists (b_plans b), (b_data_dim b). split; [apply scratch_id|auto].
  - destruct (run1 o b) as [b1 v] eqn:E1. destruct (run os b1) as [b2 vs'] eqn:E2.
    injection E as <- <-. inversion F as [|? ? Fo Fos]; subst. inversion NS as [|? ? No Nos]; subst.
    assert (H1 : exists p n, b1 = scratch p n b /\ (b_state b = None -> n = b_data_dim b)).
    { destruct o; simpl in Fo; try contradiction; simpl in E1.
      - destruct (fwd x st co data b) as [b3 [r|e]] eqn:EF.
        + injection E1 as <- <-. exfalso. apply No. eexists; reflexivity.
        + injection E1 as <- <-. eapply failed_only_scratch; eauto.
      - injection E1 as <- <-. exists (b_plans b), (b_data_dim b). split; [apply scratch_id|auto]. }
    destruct H1 as [p [n [-> N1]]].
    destruct (IH (scratch p n b) _ _ Fos E2 Nos) as [p' [n' [-> N2]]].
    exists p', n'. split; [apply scratch_scratch|]. intro N. rewrite (N2 N). simpl. auto.
Qed.

(** ** C28 *)

(** The times a forward call integrates over. *)
Inductive setting := Scalar (t : Qc) | Vector (ts : list Qc).

Definition last_setting (os : list (@op A)) (s : setting) : setting :=
  fold_left (fun s o => match o with
                        | OpSetTime t => Scalar t
                        | OpSetVector ts => Vector ts
                        | _ => s end) os s.

Definition has_setting (b : block) (s : setting) : Prop :=
  match s with
  | Scalar t => b_time b = Some t /\ b_time_vec b = None
  | Vector ts => b_time b = None /\ b_time_vec b = Some ts
  end.

Lemma run_op_setting o b b' v s : has_setting b s -> run1 o b = (b', v) ->
  has_setting b' (last_setting [o] s).
Proof.
  intros H E. destruct o; simpl in E |- *.
  - rewrite forward_split in E. pose proof (forward_body_static zero ig has_attr rnd solve x st co data b) as K.
    destruct (forward_body _ _ _ _ _ x st co data b) as [b1 [r|e]]; injection E as <- _;
      destruct K as (_ & _ & _ & _ & _ & _ & K1 & K2); unfold has_setting in *; cbn [fst] in *;
      destruct s; simpl; rewrite K1, K2; exact H.
  - injection E as <- _. exact H.
  - injection E as <- _. split; reflexivity.
  - injection E as <- _. split; reflexivity.
  - injection E as <- _. exact H.
  - injection E as <- _. exact H.
Qed.

Lemma run_setting os : forall b b' vs s, has_setting b s -> run os b = (b', vs) ->
  has_setting b' (last_setting os s).
Proof.
  induction os as [|o os IH]; intros b b' vs s H E; simpl in E.
  - injection E as <- _. exact H.
  - destruct (run1 o b) as [b1 v] eqn:E1. destruct (run os b1) as [b2 vs'] eqn:E2.
    injection E as <- _. apply (IH _ _ _ (last_setting [o] s)) in E2; [exact E2|].
    eapply run_op_setting; eauto.
Qed.
End Retry.

(** The times handed to the solver. *)
Definition solver_times (s : setting) : list Qc :=
  match s with Scalar t => [Q2Qc 0; t] | Vector ts => ts end.

Section Times.
Context {A : Type}.
Variable zero : A.
Variable ig : @integrand A.
Variable has_attr : string -> bool.
Variable rnd : nat -> nat -> A.
Notation block := (@block A).
Notation fwd := (forward zero ig has_attr rnd).

Lemma integrate_times solve1 solve2 s x0 (b : block) : has_setting b s ->
  (forall x0, solve1 b x0 (solver_times s) = solve2 b x0 (solver_times s)) ->
  integrate_and_disassemble ig solve1 x0 b = integrate_and_disassemble ig solve2 x0 b.
Proof.
  intros H E. unfold integrate_and_disassemble. destruct s; destruct H as [-> ->]; cbn in E; rewrite E; reflexivity.
Qed.

(** forward asks the solver for the current times and for nothing else. *)
Lemma forward_times solve1 solve2 s x st co data (b : block) : has_setting b s ->
  (forall b' x0, solve1 b' x0 (solver_times s) = solve2 b' x0 (solver_times s)) ->
  fwd solve1 x st co data b = fwd solve2 x st co data b.
Proof.
  intros H E. rewrite !forward_split.
  assert (K : forward_body zero ig has_attr rnd solve1 x st co data b
            = forward_body zero ig has_attr rnd solve2 x st co data b); [|rewrite K; reflexivity].
  rewrite !forward_body_rest.
  assert (G : (stco <-- effective_pass_through zero ig has_attr rnd st co ;;;
      dz <-- effective_data ig x data ;;;
      xp <-- initial_conditions zero ig (fst dz) (fst stco) (snd stco) (snd dz) ;;;
      forward_rest ig solve1 xp) b = (stco <-- effective_pass_through zero ig has_attr rnd st co ;;;
      dz <-- effective_data ig x data ;;;
      xp <-- initial_conditions zero ig (fst dz) (fst stco) (snd stco) (snd dz) ;;;
      forward_rest ig solve2 xp) b).
  2:{ destruct x, st, co; try exact G; reflexivity. }
  rewrite !(mbind_at (effective_pass_through zero ig has_attr rnd st co)).
  pose proof (effective_pass_through_static zero ig has_attr rnd st co b) as S1.
  destruct (effective_pass_through _ _ _ _ st co b) as [b1 [stco|e]]; cbn [fst] in S1; [|reflexivity].
  rewrite !(mbind_at (effective_data ig x data)).
  pose proof (effective_data_static ig x data b1) as S2.
  destruct (effective_data ig x data b1) as [b2 [dz|e]]; cbn [fst] in S2; [|reflexivity].
  rewrite !(mbind_at (initial_conditions zero ig _ _ _ _)).
  pose proof (initial_conditions_static zero ig (fst dz) (fst stco) (snd stco) (snd dz) b2) as S3.
  destruct (initial_conditions _ _ _ _ _ _ b2) as [b3 [[x0 ps]|e]]; cbn [fst] in S3; [|reflexivity].
  unfold forward_rest. rewrite !(mbind_at (modify _)). unfold modify.
  assert (HS : has_setting (set_plans (Some ps) b3) s).
  { destruct (@same_static_preorder A) as [_ T]. pose proof (T _ _ _ S1 (T _ _ _ S2 S3)) as S.
    destruct S as (_ & _ & _ & _ & _ & _ & K1 & K2). destruct s; simpl in *; rewrite K1, K2; exact H. }
  rewrite !(mbind_at (integrate_and_disassemble ig _ x0)).
  rewrite (integrate_times solve1 solve2 s x0 _ HS (E _)). reflexivity.
Qed.
End Times.

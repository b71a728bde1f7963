(** Proofs about histories of calls to a shooting block. *)
From Coq Require Import List String Ascii Arith ZArith QArith Qcanon Lia Bool Permutation.
From Verif Require Import Base BaseFacts Tensor TensorFacts ScdModel BlockModel BlockSpec EnlargeProofs.
Import ListNotations.
Open Scope nat_scope.

Notation "x <-- m ;;; k" := (mbind m (fun x => k))
  (at level 61, m at next level, right associativity).
Notation "' p <-- m ;;; k" := (mbind m (fun x => match x with p => k end))
  (at level 61, p pattern, m at next level, right associativity).

(** Everything that no method but the time setters and the end of forward
    changes. *)
Definition same_static {A} (b b' : @block A) : Prop :=
  b_name b' = b_name b /\ b_state b' = b_state b /\ b_costate b' = b_costate b /\
  b_enlarge b' = b_enlarge b /\ b_keep_zero b' = b_keep_zero b /\ b_fresh b' = b_fresh b /\
  b_time b' = b_time b /\ b_time_vec b' = b_time_vec b.

(** Additionally: no new parameters. *)
Definition same_parameters {A} (b b' : @block A) : Prop :=
  b_st_enl b' = b_st_enl b /\ b_co_enl b' = b_co_enl b /\ b_store b' = b_store b /\
  b_registry b' = b_registry b.

Section Rel.
Context {A : Type}.
Notation block := (@block A).

(** [m] relates the block before to the block after by [R]. *)
Definition keeps {B} (R : block -> block -> Prop) (m : @M A B) : Prop :=
  forall b, R b (fst (m b)).

Definition preorder (R : block -> block -> Prop) : Prop :=
  (forall b, R b b) /\ (forall a b c, R a b -> R b c -> R a c).

Lemma same_static_preorder : preorder same_static.
Proof.
  split; [intro b; repeat split|]. intros a b c H1 H2. unfold same_static in *. intuition congruence.
Qed.

Lemma same_parameters_preorder : preorder same_parameters.
Proof.
  split; [intro b; repeat split|]. intros a b c H1 H2. unfold same_parameters in *.
  intuition congruence.
Qed.

Lemma keeps_bind {B C} R (m : @M A B) (f : B -> @M A C) :
  preorder R -> keeps R m -> (forall x, keeps R (f x)) -> keeps R (mbind m f).
Proof.
  intros [_ T] H1 H2 b. unfold mbind. specialize (H1 b). destruct (m b) as [b' [x|e]]; simpl in *; auto.
  eapply T; [exact H1|]. apply H2.
Qed.

Lemma keeps_ret {B} (R : block -> block -> Prop) (x : B) : preorder R -> keeps R (ret x).
Proof. intros [H _] b. apply H. Qed.
Lemma keeps_raise {B} (R : block -> block -> Prop) e : preorder R -> keeps R (@raise A B e).
Proof. intros [H _] b. apply H. Qed.
Lemma keeps_lift {B} (R : block -> block -> Prop) (r : result B) : preorder R -> keeps R (lift r).
Proof. intros [H _] b. apply H. Qed.
Lemma keeps_modify (R : block -> block -> Prop) f : (forall b, R b (f b)) -> keeps R (modify f).
Proof. intros H b. apply H. Qed.

Lemma keeps_loop {B S} R (f : S -> B -> @M A S) l : preorder R ->
  (forall s x, keeps R (f s x)) -> forall s, keeps R (loop f l s).
Proof.
  intros P H. induction l as [|a l IH]; intro s; simpl.
  - apply keeps_ret; auto.
  - apply keeps_bind; auto.
Qed.
End Rel.

Section Block.
Context {A : Type}.
Variable zero : A.
Variable ig : @integrand A.
Variable has_attr : string -> bool.
Variable rnd : nat -> nat -> A.
Variable solve : @block A -> list A -> list Qc -> result (tensor A).
Notation block := (@block A).
Notation fwd := (forward zero ig has_attr rnd solve).
Notation SP := same_static_preorder.

Lemma create_size_static r z n : keeps same_static (create_parameters_of_size zero rnd r z n).
Proof.
  intro b. unfold create_parameters_of_size.
  destruct z; [repeat split|]. destruct r; repeat split.
Qed.

Lemma create_step_static k d s acc dd :
  keeps same_static (create_enlargement_step zero ig rnd k d s acc dd).
Proof.
  unfold create_enlargement_step.
  do 5 (apply keeps_bind; [apply SP|apply keeps_lift; apply SP|intro]).
  destruct (existsb _ _); [|apply keeps_ret; apply SP].
  apply keeps_bind; [apply SP| |intro; apply keeps_ret; apply SP].
  unfold create_raw_enlargement_parameters. destruct (_ <? _); [apply keeps_raise; apply SP|].
  intro b. destruct s; apply create_size_static.
Qed.

Lemma create_enlargement_static d o s : keeps same_static (create_enlargement zero ig rnd d o s).
Proof.
  unfold create_enlargement. destruct o; [|apply keeps_ret; apply SP].
  destruct (ig_enlargement ig); [|apply keeps_ret; apply SP].
  apply keeps_bind; [apply SP| |intro; apply keeps_ret; apply SP].
  apply keeps_loop; [apply SP|]. intros. apply keeps_loop; [apply SP|]. intros.
  apply create_step_static.
Qed.

Lemma register_enlargement_static z o : keeps same_static (@register_enlargement A has_attr z o).
Proof.
  unfold register_enlargement. destruct o; [|apply keeps_ret; apply SP].
  apply keeps_loop; [apply SP|]. intros. apply keeps_loop; [apply SP|]. intros u [k e].
  unfold register_entry. cbn [snd]. destruct e as [[p df]|]; [|apply keeps_ret; apply SP].
  destruct z; [apply keeps_raise; apply SP|]. intro b. destruct (register_parameter _ _ _ _); repeat split.
Qed.

Lemma get_or_create_static st co :
  keeps same_static (get_or_create_enlargement zero ig has_attr rnd st co).
Proof.
  intro b. unfold get_or_create_enlargement. destruct (b_fresh b); [|apply SP].
  destruct (_ || _); [apply SP|].
  assert (K : forall d1 d2 z, keeps same_static
     (s <-- create_enlargement zero ig rnd st d1 true ;;;
      c <-- create_enlargement zero ig rnd co d2 false ;;;
      _ <-- register_enlargement has_attr z s ;;;
      _ <-- register_enlargement has_attr false c ;;; ret (s, c))).
  { intros. repeat (apply keeps_bind; [apply SP|first [apply create_enlargement_static
      |apply register_enlargement_static]|intro]). apply keeps_ret; apply SP. }
  apply K.
Qed.

Lemma enlarge_pass_through_static st co : keeps same_static (@enlarge_pass_through A st co).
Proof. intro b. apply SP. Qed.

Lemma effective_pass_through_static st co :
  keeps same_static (effective_pass_through zero ig has_attr rnd st co).
Proof.
  unfold effective_pass_through. destruct st, co; try (apply keeps_ret; apply SP).
  intro b. destruct (b_enlarge b); [|apply SP].
  match goal with |- same_static b (fst (?m b)) => assert (K : keeps same_static m); [|apply K] end.
  apply keeps_bind; [apply SP|apply get_or_create_static|intros [es ec]].
  apply keeps_bind; [apply SP|apply keeps_modify; intro; repeat split|intros _].
  apply keeps_bind; [apply SP|apply enlarge_pass_through_static|intros [s' c']].
  apply keeps_ret; apply SP.
Qed.

Lemma effective_data_static x d : keeps same_static (effective_data ig x d).
Proof.
  unfold effective_data. destruct x, d; try (apply keeps_raise; apply SP);
    try (apply keeps_ret; apply SP). intro b. apply SP.
Qed.

Lemma initial_conditions_static d st co z : keeps same_static (initial_conditions zero ig d st co z).
Proof.
  intro b. unfold initial_conditions.
  match goal with |- same_static b (fst (?m b)) => assert (K : keeps same_static m); [|apply K] end.
  do 2 (apply keeps_bind; [apply SP|apply keeps_lift; apply SP|intro]).
  apply keeps_bind; [apply SP| |intro; apply keeps_lift; apply SP].
  destruct z, (b_state b); try (apply keeps_ret; apply SP).
  apply keeps_bind; [apply SP|apply keeps_lift; apply SP|intros [dim|]]; [|apply keeps_raise; apply SP].
  apply keeps_bind; [apply SP|apply keeps_modify; intro; repeat split|intros _].
  apply keeps_bind; [apply SP|apply keeps_lift; apply SP|intro]. apply keeps_lift; apply SP.
Qed.

(** The part of forward before the flag is cleared. *)
Definition forward_body x st co data : @M A outputs :=
  match x, st, co with
  | None, None, None => raise ValueError
  | _, None, Some _ | _, Some _, None => raise ValueError
  | _, _, _ =>
      '(st', co') <-- effective_pass_through zero ig has_attr rnd st co ;;;
      '(d, zero_pad) <-- effective_data ig x data ;;;
      '(x0, ps) <-- initial_conditions zero ig d st' co' zero_pad ;;;
      _ <-- modify (set_plans (Some ps)) ;;;
      r <-- integrate_and_disassemble ig solve x0 ;;;
      finish_outputs ig r
  end.

Lemma mbind_assoc {B C D} (m : @M A B) (f : B -> @M A C) (g : C -> @M A D) b :
  mbind (mbind m f) g b = mbind m (fun x => mbind (f x) g) b.
Proof. unfold mbind. destruct (m b) as [b' [x|e]]; auto. Qed.

Lemma mbind_ext {B C} (m : @M A B) (f g : B -> @M A C) b :
  (forall x b, f x b = g x b) -> mbind m f b = mbind m g b.
Proof. intro H. unfold mbind. destruct (m b) as [b' [x|e]]; auto. Qed.

Lemma forward_split x st co data b :
  fwd x st co data b =
  match forward_body x st co data b with
  | (b', Ok o) => (set_fresh false b', Ok o)
  | (b', Raise e) => (b', Raise e)
  end.
Proof.
  transitivity (mbind (forward_body x st co data)
    (fun o => _ <-- modify (set_fresh false) ;;; ret o) b).
  2:{ unfold mbind, modify, ret. destruct (forward_body x st co data b) as [b' [o|e]]; auto. }
  unfold forward, forward_body.
  destruct x, st, co; try reflexivity; rewrite mbind_assoc; apply mbind_ext; intros [? ?] b1;
    rewrite mbind_assoc; apply mbind_ext; intros [? ?] b2; rewrite mbind_assoc; apply mbind_ext;
    intros [? ?] b3; rewrite mbind_assoc; apply mbind_ext; intros _ b4; rewrite mbind_assoc;
    apply mbind_ext; intros r b5; reflexivity.
Qed.

Lemma forward_body_static x st co data : keeps same_static (forward_body x st co data).
Proof.
  unfold forward_body.
  assert (K : keeps same_static
     ('(st', co') <-- effective_pass_through zero ig has_attr rnd st co ;;;
      '(d, zero_pad) <-- effective_data ig x data ;;;
      '(x0, ps) <-- initial_conditions zero ig d st' co' zero_pad ;;;
      _ <-- modify (set_plans (Some ps)) ;;;
      r <-- integrate_and_disassemble ig solve x0 ;;;
      finish_outputs ig r)).
  { apply keeps_bind; [apply SP|apply effective_pass_through_static|intros [st' co']].
    apply keeps_bind; [apply SP|apply effective_data_static|intros [d z]].
    apply keeps_bind; [apply SP|apply initial_conditions_static|intros [x0 ps]].
    apply keeps_bind; [apply SP|apply keeps_modify; intro; repeat split|intros _].
    apply keeps_bind; [apply SP|intro b; apply SP|intros r]. intro b; apply SP. }
  destruct x, st, co; try exact K; apply keeps_raise; apply SP.
Qed.

(** ** C22 *)
Definition forward_succeeded (v : @observed A) : Prop := exists o, v = ObsForward (Ok o).

Notation run := (run_ops zero ig has_attr rnd solve).
Notation run1 := (run_op zero ig has_attr rnd solve).

Lemma run_op_fresh o b b' v : run1 o b = (b', v) ->
  (forward_succeeded v -> b_fresh b' = false) /\ (~ forward_succeeded v -> b_fresh b' = b_fresh b).
Proof.
  intro E. destruct o; simpl in E.
  - rewrite forward_split in E. pose proof (forward_body_static x st co data b) as K.
    destruct (forward_body x st co data b) as [b1 [r|e]]; injection E as <- <-.
    + split; [reflexivity|]. intro N. exfalso. apply N. eexists; reflexivity.
    + split; [intros [o [=]]|]. intros _. apply K.
  - injection E as <- <-. split; [intros [o [=]]|auto].
  - injection E as <- <-. split; [intros [o [=]]|auto].
  - injection E as <- <-. split; [intros [o [=]]|auto].
  - injection E as <- <-. split; [intros [o [=]]|auto].
  - injection E as <- <-. split; [intros [o [=]]|auto].
Qed.

Lemma forward_succeeded_dec v : {forward_succeeded v} + {~ forward_succeeded v}.
Proof.
  destruct v as [[o|e]|r|r]; [left; eexists; reflexivity|right..]; intros [o [=]].
Qed.

Lemma run_fresh os : forall b b' vs, run os b = (b', vs) ->
  b_fresh b' = false <-> b_fresh b = false \/ Exists forward_succeeded vs.
Proof.
  induction os as [|o os IH]; intros b b' vs E; simpl in E.
  - injection E as <- <-. split; [auto|intros [H|H]; [auto|inversion H]].
  - destruct (run1 o b) as [b1 v] eqn:E1. destruct (run os b1) as [b2 vs'] eqn:E2.
    injection E as <- <-. rewrite (IH _ _ _ E2). rewrite Exists_cons.
    destruct (run_op_fresh _ _ _ _ E1) as [F1 F2].
    destruct (forward_succeeded_dec v) as [S|S].
    + rewrite (F1 S). tauto.
    + rewrite (F2 S). tauto.
Qed.

Lemma parameters_available os b b' vs : b_fresh b = true -> run os b = (b', vs) ->
  (Exists forward_succeeded vs -> parameters b' = (b', Ok (b_registry b'))) /\
  (~ Exists forward_succeeded vs -> parameters b' = (b', Raise ValueError)).
Proof.
  intros F E. pose proof (run_fresh _ _ _ _ E) as H. unfold parameters. split; intro X.
  - rewrite (proj2 H (or_intror X)). reflexivity.
  - destruct (b_fresh b') eqn:Fb; auto. exfalso. destruct (proj1 H eq_refl); [congruence|auto].
Qed.

(** ** C24 *)
Lemma executed_keeps_parameters x st co data b : b_fresh b = false ->
  same_parameters b (fst (fwd x st co data b)).
Proof.
  intro F. rewrite forward_split.
  assert (K : same_parameters b (fst (forward_body x st co data b))).
  2:{ destruct (forward_body x st co data b) as [b' [o|e]]; exact K. }
  pose proof (@same_parameters_preorder A) as PP.
  assert (K1 : same_parameters b (fst (effective_pass_through zero ig has_attr rnd st co b))).
  { unfold effective_pass_through. destruct st, co; try apply PP.
    destruct (b_enlarge b); [|apply PP].
    unfold mbind at 1, get_or_create_enlargement. rewrite F. cbn [fst].
    unfold mbind, modify, enlarge_pass_through, ret. cbn.
    destruct (bind _ _) as [[? ?]|]; repeat split. }
  assert (K2 : forall st' co', keeps same_parameters
    ('(d, zero_pad) <-- effective_data ig x data ;;;
      '(x0, ps) <-- initial_conditions zero ig d st' co' zero_pad ;;;
      _ <-- modify (set_plans (Some ps)) ;;;
      r <-- integrate_and_disassemble ig solve x0 ;;;
      finish_outputs ig r)).
  { intros. apply keeps_bind; [apply PP| |intros [d z]].
    { unfold effective_data. destruct x, data; try (apply keeps_raise; apply PP);
      try (apply keeps_ret; apply PP). intro; apply PP. }
    apply keeps_bind; [apply PP| |intros [x0 ps]].
    { intro b1. unfold initial_conditions.
      match goal with |- same_parameters b1 (fst (?m b1)) =>
        assert (Q : keeps same_parameters m); [|apply Q] end.
      do 2 (apply keeps_bind; [apply PP|apply keeps_lift; apply PP|intro]).
      apply keeps_bind; [apply PP| |intro; apply keeps_lift; apply PP].
      destruct z, (b_state b1); try (apply keeps_ret; apply PP).
      apply keeps_bind; [apply PP|apply keeps_lift; apply PP|intros [dim|]];
        [|apply keeps_raise; apply PP].
      apply keeps_bind; [apply PP|apply keeps_modify; intro; repeat split|intros _].
      apply keeps_bind; [apply PP|apply keeps_lift; apply PP|intro]. apply keeps_lift; apply PP. }
    apply keeps_bind; [apply PP|apply keeps_modify; intro; repeat split|intros _].
    apply keeps_bind; [apply PP|intro; apply PP|intro r]. intro; apply PP. }
  unfold forward_body.
  assert (K3 : same_parameters b (fst (( '(st', co') <-- effective_pass_through zero ig has_attr rnd st co ;;;
      '(d, zero_pad) <-- effective_data ig x data ;;;
      '(x0, ps) <-- initial_conditions zero ig d st' co' zero_pad ;;;
      _ <-- modify (set_plans (Some ps)) ;;;
      r <-- integrate_and_disassemble ig solve x0 ;;;
      finish_outputs ig r) b))).
  { unfold mbind at 1. destruct (effective_pass_through _ _ _ _ st co b) as [b1 [[st' co']|e]];
      cbn [fst] in K1 |- *; [|exact K1].
    destruct PP as [_ T]. eapply T; [exact K1|]. apply K2. }
  destruct x, st, co; try exact K3; apply PP.
Qed.

(** Same objects: training may change values, nothing else. *)
Definition same_objects (b b' : block) : Prop :=
  b_st_enl b' = b_st_enl b /\ b_co_enl b' = b_co_enl b /\
  map (@List.length A) (b_store b') = map (@List.length A) (b_store b) /\
  b_registry b' = b_registry b.

Lemma train_lengths (f : nat -> nat -> A -> A) (l : list (list A)) k :
  map (@List.length A) (map (fun il => map (fun jv => f (fst il) (fst jv) (snd jv))
                      (combine (seq 0 (List.length (snd il))) (snd il)))
         (combine (seq k (List.length l)) l)) = map (@List.length A) l.
Proof.
  revert k; induction l as [|a l IH]; intro k; simpl; auto. f_equal; [|apply IH].
  rewrite map_length, combine_length, seq_length, Nat.min_id. reflexivity.
Qed.

Lemma executed_run_same_objects os : forall b b' vs, b_fresh b = false -> run os b = (b', vs) ->
  same_objects b b' /\ b_fresh b' = false.
Proof.
  induction os as [|o os IH]; intros b b' vs F E; simpl in E.
  - injection E as <- <-. repeat split; auto.
  - destruct (run1 o b) as [b1 v] eqn:E1. destruct (run os b1) as [b2 vs'] eqn:E2.
    injection E as <- <-.
    assert (H1 : same_objects b b1 /\ b_fresh b1 = false).
    { split.
      - destruct o; simpl in E1; try (injection E1 as <- <-; repeat split; fail).
        + pose proof (executed_keeps_parameters x st co data b F) as K.
          destruct (fwd x st co data b) as [b3 r]. injection E1 as <- <-.
          destruct K as [? [? [K1 ?]]]. repeat split; auto. simpl in K1. rewrite K1. auto.
        + injection E1 as <- <-. repeat split. simpl. apply train_lengths.
      - destruct (run_op_fresh _ _ _ _ E1) as [F1 F2].
        destruct (forward_succeeded_dec v); auto. rewrite F2; auto. }
    destruct H1 as [O1 F1]. destruct (IH _ _ _ F1 E2) as [O2 F2]. split; auto.
    unfold same_objects in *. intuition congruence.
Qed.
End Block.

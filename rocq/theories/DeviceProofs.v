(** Proofs about the devices of a block's parameters. *)
From Coq Require Import List String Ascii Arith ZArith QArith Qcanon Lia Bool.
From Verif Require Import Base BaseFacts Tensor ScdModel BlockModel BlockSpec BlockProofs BlockProofs2
  BlockProofs3 DeviceModel DeviceSpec.
Import ListNotations.
Open Scope nat_scope.

Lemma device_eqb_refl d : device_eqb d d = true.
Proof. destruct d; [reflexivity|apply Nat.eqb_refl]. Qed.

Lemma device_eqb_eq a b : device_eqb a b = true -> a = b.
Proof. destruct a, b; simpl; intro H; try discriminate; auto. apply Nat.eqb_eq in H. now subst. Qed.

Lemma device_eqb_neq a b : a <> b -> device_eqb a b = false.
Proof. intro N. destruct (device_eqb a b) eqn:E; auto. apply device_eqb_eq in E. contradiction. Qed.

Lemma pobj_eqb_refl o : pobj_eqb o o = true.
Proof.
  destruct o; simpl; rewrite ?String.eqb_refl, ?Nat.eqb_refl; reflexivity.
Qed.

Section Device.
Context {A : Type}.
Variable zero : A.
Variable ig : @integrand A.
Variable has_attr : string -> bool.
Variable rnd : nat -> nat -> A.
Variable solve : @block A -> list A -> list Qc -> result (tensor A).
Variable default : device.
Variable ev : evaluation.
Notation block := (@block A).
Notation pfwd := (placed_forward zero ig has_attr rnd solve default ev).
Notation fwd := (forward zero ig has_attr rnd solve).
Notation run := (run_calls zero ig has_attr rnd solve default ev).

Lemma require_ok wh dev os (b : block) : (forall o, In o os -> wh o = dev) ->
  require wh dev os b = (b, Ok tt).
Proof.
  intro H. unfold require.
  replace (forallb _ _) with true; [reflexivity|]. symmetry. apply forallb_forall.
  intros o I. rewrite (H o I). apply device_eqb_refl.
Qed.

(** Without enlargement parameters on another device the pass-through part is unchanged. *)
Lemma pass_through_all wh dev st co (b : block) : (forall o, wh o = dev) ->
  placed_pass_through zero ig has_attr rnd wh dev st co b = effective_pass_through zero ig has_attr rnd st co b.
Proof.
  intro H. unfold placed_pass_through, effective_pass_through. destruct st, co; try reflexivity.
  destruct (b_enlarge b); [|reflexivity].
  apply mbind_ext. intros [es ec] b1. apply mbind_ext. intros [] b2.
  rewrite mbind_at, require_ok by auto. reflexivity.
Qed.

Lemma pass_through_never wh dev st co (b : block) : never_enlarges ig b ->
  placed_pass_through zero ig has_attr rnd wh dev st co b = effective_pass_through zero ig has_attr rnd st co b.
Proof.
  intros [H1 [H2 H3]]. unfold placed_pass_through, effective_pass_through. destruct st as [s|], co as [c|]; try reflexivity.
  destruct (b_enlarge b) eqn:E; [|reflexivity].
  destruct H3 as [H3|H3]; [discriminate|].
  assert (HS : ig_enlargement ig = false \/ b_state b = None) by (destruct H3 as [?|[? ?]]; auto).
  assert (HC : ig_enlargement ig = false \/ b_costate b = None) by (destruct H3 as [?|[? ?]]; auto).
  assert (G : get_or_create_enlargement zero ig has_attr rnd s c b = (b, Ok (None, None))).
  { unfold get_or_create_enlargement. rewrite H1, H2. cbn [orb]. destruct (b_fresh b); [|reflexivity].
    rewrite mbind_at, create_none by auto. rewrite mbind_at, create_none by auto. reflexivity. }
  rewrite (mbind_at (get_or_create_enlargement zero ig has_attr rnd s c)), G.
  rewrite (mbind_at (get_or_create_enlargement zero ig has_attr rnd s c)), G. reflexivity.
Qed.

(** What [forward] needs. *)
Definition reachable (wh : pobj -> device) (dev : device) (b : block) : Prop :=
  (forall o, In o (integrand_objects b) -> wh o = dev) /\
  (forall o, In o (particle_objects b) -> wh o = dev) /\
  match ev with
  | FromStates => True
  | WithNew => default = dev
  | FromFree os => forall o, In o os -> wh o = dev
  end.

Lemma evaluation_ok wh dev (b : block) :
  match ev with
  | FromStates => True
  | WithNew => default = dev
  | FromFree os => forall o, In o os -> wh o = dev
  end -> (if evaluates b then require_evaluation default ev wh dev b else (b, Ok tt)) = (b, Ok tt).
Proof.
  intro H. destruct (evaluates b); [|reflexivity]. unfold require_evaluation. destruct ev.
  - reflexivity.
  - rewrite H, device_eqb_refl. reflexivity.
  - apply require_ok. exact H.
Qed.

Lemma initial_keeps d st co z (b b1 : block) r :
  initial_conditions zero ig d st co z b = (b1, r) ->
  b_registry b1 = b_registry b /\ b_state b1 = b_state b /\ b_costate b1 = b_costate b.
Proof.
  intro E. pose proof (initial_conditions_only_scratch zero ig d st co z b) as K. 
  destruct K as [n K]. rewrite E in K. cbn [fst] in K. rewrite K. destruct b; repeat split.
Qed.

(** [forward] on data which are where the parameters are is [forward]. *)
Lemma forward_reachable wh dev x st co data (b : block) :
  placed_pass_through zero ig has_attr rnd wh dev st co b = effective_pass_through zero ig has_attr rnd st co b ->
  (forall b1, fst (effective_pass_through zero ig has_attr rnd st co b) = b1 -> reachable wh dev b1) ->
  pfwd wh dev x st co data b = fwd x st co data b.
Proof.
  intros HP HR. unfold placed_forward, forward.
  assert (K : forall stco b1, reachable wh dev b1 ->
    mbind (match x, data with
           | Some _, None => fun b => require wh dev (integrand_objects b) b
           | _, _ => ret tt
           end) (fun _ => mbind (effective_data ig x data) (fun dz =>
      let '(d, z) := dz in
      mbind (initial_conditions zero ig d (fst stco) (snd stco) z) (fun xp =>
      let '(x0, ps) := xp in
      mbind (fun b => require wh dev (particle_objects b) b) (fun _ =>
      mbind (modify (set_plans (Some ps))) (fun _ =>
      mbind (fun b => if evaluates b then require_evaluation default ev wh dev b else (b, Ok tt)) (fun _ =>
      mbind (integrate_and_disassemble ig solve x0) (fun r =>
      mbind (finish_outputs ig r) (fun o =>
      mbind (modify (set_fresh false)) (fun _ => ret o))))))))) b1 =
    mbind (effective_data ig x data) (fun dz =>
      let '(d, z) := dz in
      mbind (initial_conditions zero ig d (fst stco) (snd stco) z) (fun xp =>
      let '(x0, ps) := xp in
      mbind (modify (set_plans (Some ps))) (fun _ =>
      mbind (integrate_and_disassemble ig solve x0) (fun r =>
      mbind (finish_outputs ig r) (fun o =>
      mbind (modify (set_fresh false)) (fun _ => ret o)))))) b1).
  { intros stco b1 [R1 [R2 R3]]. rewrite mbind_at.
    assert (E0 : match x, data with
           | Some _, None => fun b => require wh dev (integrand_objects b) b
           | _, _ => ret tt
           end b1 = (b1, Ok tt)).
    { destruct x; [destruct data|]; try reflexivity. apply require_ok. exact R1. }
    rewrite E0. clear E0.
    rewrite !mbind_at. assert (F : fst (effective_data ig x data b1) = b1)
      by (unfold effective_data; destruct data, x; reflexivity).
    destruct (effective_data ig x data b1) as [b2 [[d z]|e]]; [|reflexivity]. cbn [fst] in F. subst b2.
    rewrite !mbind_at. destruct (initial_conditions _ _ _ _ _ _ b1) as [b2 [[x0 ps]|e]] eqn:EI; [|reflexivity].
    apply initial_keeps in EI. destruct EI as [I1 [I2 I3]].
    rewrite mbind_at, require_ok.
    2:{ intros o Ho. apply R2. revert Ho. unfold particle_objects. rewrite I2, I3. auto. }
    rewrite !mbind_at. unfold modify at 1 3. rewrite mbind_at, evaluation_ok by exact R3. reflexivity. }
  destruct x as [x|], st as [st|], co as [co|]; try reflexivity;
    rewrite mbind_at, HP, mbind_at;
    (destruct (effective_pass_through _ _ _ _ _ _ b) as [b1 [[s c]|e]] eqn:EP; [|reflexivity]);
    specialize (HR b1 eq_refl); exact (K (s, c) b1 HR).
Qed.

(** ** Everything on one device *)
Lemma everything_forward wh dev x st co data (b : block) : (forall o, wh o = dev) -> default = dev ->
  pfwd wh dev x st co data b = fwd x st co data b.
Proof.
  intros H D. apply forward_reachable; [apply pass_through_all; exact H|].
  intros b1 _. split; [auto|]. split; [auto|]. destruct ev; auto.
Qed.

Lemma one_device os : forall (p : placed), (forall o, pl_where p o = default) ->
  Forall (only_on default) os ->
  let r := run os p in
  (pl_block (fst r), snd r) = run_ops zero ig has_attr rnd solve (map call os) (pl_block p).
Proof.
  induction os as [|o os IH]; intros p W F; [reflexivity|].
  inversion F as [|? ? FO FS]; subst. cbn [run_calls map run_ops].
  assert (S1 : let '(p', v) := run_call zero ig has_attr rnd solve default ev o p in
    (forall o, pl_where p' o = default) /\
    run_op zero ig has_attr rnd solve (call o) (pl_block p) = (pl_block p', v)).
  { destruct o; cbn [run_call call].
    - cbn [only_on] in FO. subst dev. cbn [run_op]. rewrite everything_forward by auto.
      destruct (fwd x st co data (pl_block p)); split; auto.
    - cbn [only_on] in FO. subst dev. unfold move. split.
      + intro o. cbn [pl_where]. destruct (reached _ _); auto.
      + reflexivity.
    - split; auto.
    - split; auto.
    - split; auto.
    - split; auto. }
  destruct (run_call zero ig has_attr rnd solve default ev o p) as [p' v] eqn:E1.
  destruct S1 as [W' S1]. rewrite S1. specialize (IH p' W' FS). cbn beta zeta in IH.
  destruct (run os p') as [p'' vs]. rewrite <- IH. reflexivity.
Qed.
End Device.

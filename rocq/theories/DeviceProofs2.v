(** Proofs about moving a block to another device. *)
From Coq Require Import List String Ascii Arith ZArith QArith Qcanon Lia Bool.
From Verif Require Import Base BaseFacts Tensor ScdModel ScdProofs3 BlockModel BlockSpec BlockProofs BlockProofs2
  BlockProofs3 DeviceModel DeviceSpec DeviceProofs.
Import ListNotations.
Open Scope nat_scope.

Lemma nodup_split {X} (a b : list X) : NoDup (a ++ b) ->
  NoDup a /\ NoDup b /\ forall x, In x a -> ~ In x b.
Proof.
  induction a as [|y a IH]; intro N; [repeat split; auto; constructor|].
  cbn [app] in N. inversion N as [|? ? N1 N2]; subst. destruct (IH N2) as [I1 [I2 I3]].
  split; [constructor; auto; intro H; apply N1, in_or_app; auto|]. split; [exact I2|].
  intros x [<-|H]; [|auto]. intro H. apply N1, in_or_app; auto.
Qed.

Section Moves.
Context {A : Type}.
Variable zero : A.
Variable ig : @integrand A.
Variable has_attr : string -> bool.
Variable rnd : nat -> nat -> A.
Variable solve : @block A -> list A -> list Qc -> result (tensor A).
Variable default : device.
Variable ev : evaluation.
Notation block := (@block A).
Notation pfwd := (placed_forward zero ig has_attr rnd solve default ev).
Notation fwd := (forward zero ig has_attr rnd solve).
Notation run := (run_calls zero ig has_attr rnd solve default ev).
Notation run1 := (run_call zero ig has_attr rnd solve default ev).

Lemma require_block wh dev os (b : block) : fst (require wh dev os b) = b.
Proof. reflexivity. Qed.

Lemma forward_keeps (R : block -> block -> Prop) wh dev x st co data : preorder R ->
  keeps R (placed_pass_through zero ig has_attr rnd wh dev st co) ->
  (forall b n, R b (set_data_dim n b)) -> (forall b v, R b (set_plans v b)) ->
  (forall b v, R b (set_fresh v b)) ->
  keeps R (pfwd wh dev x st co data).
Proof.
  intros P KP KD KL KF. destruct P as [RR RT].
  assert (PR : preorder R) by (split; assumption).
  unfold placed_forward.
  assert (K : keeps R (mbind (placed_pass_through zero ig has_attr rnd wh dev st co) (fun stco =>
    let '(st', co') := stco in
    mbind (match x, data with
           | Some _, None => fun b => require wh dev (integrand_objects b) b
           | _, _ => ret tt
           end) (fun _ => mbind (effective_data ig x data) (fun dz =>
      let '(d, z) := dz in
      mbind (initial_conditions zero ig d st' co' z) (fun xp =>
      let '(x0, ps) := xp in
      mbind (fun b => require wh dev (particle_objects b) b) (fun _ =>
      mbind (modify (set_plans (Some ps))) (fun _ =>
      mbind (fun b => if evaluates b then require_evaluation default ev wh dev b else (b, Ok tt)) (fun _ =>
      mbind (integrate_and_disassemble ig solve x0) (fun r =>
      mbind (finish_outputs ig r) (fun o =>
      mbind (modify (set_fresh false)) (fun _ => ret o)))))))))))).
  { apply keeps_bind; [exact PR|exact KP|]. intros [st' co'].
    apply keeps_bind; [exact PR| |].
    { intro b. destruct x, data; apply RR. }
    intros _. apply keeps_bind; [exact PR| |].
    { intro b. unfold effective_data. destruct data, x; apply RR. }
    intros [d z]. apply keeps_bind; [exact PR| |].
    { intro b. destruct (initial_conditions_only_scratch zero ig d st' co' z b) as [n ->]. apply KD. }
    intros [x0 ps]. apply keeps_bind; [exact PR| |].
    { intro b. apply RR. }
    intros _. apply keeps_bind; [exact PR| |].
    { apply keeps_modify. intro b. apply KL. }
    intros _. apply keeps_bind; [exact PR| |].
    { intro b. destruct (evaluates b); [|apply RR]. unfold require_evaluation. destruct ev; apply RR. }
    intros _. apply keeps_bind; [exact PR| |].
    { intro b. apply RR. }
    intros r. apply keeps_bind; [exact PR| |].
    { intro b. unfold finish_outputs. apply RR. }
    intros o. apply keeps_bind; [exact PR| |].
    { apply keeps_modify. intro b. apply KF. }
    intros _ b. apply RR. }
  destruct x, st, co; try exact K; apply keeps_raise; exact PR.
Qed.

(** ** Blocks which create no enlargement parameters *)
Definition same_place (b b' : block) : Prop :=
  b_registry b' = b_registry b /\ b_state b' = b_state b /\ b_costate b' = b_costate b /\
  b_enlarge b' = b_enlarge b /\ b_st_enl b' = b_st_enl b /\ b_co_enl b' = b_co_enl b.

Lemma same_place_never b b' : same_place b b' -> never_enlarges ig b -> never_enlarges ig b'.
Proof.
  intros [H1 [H2 [H3 [H4 [H5 H6]]]]] N. unfold never_enlarges in *.
  rewrite H2, H3, H4, H5, H6. exact N.
Qed.

Definition kept (b b' : block) : Prop := never_enlarges ig b -> same_place b b'.

Lemma kept_preorder : preorder kept.
Proof.
  split.
  - intros b _. repeat split.
  - intros a b c H1 H2 N. specialize (H1 N). specialize (H2 (same_place_never _ _ H1 N)).
    unfold same_place in *. intuition congruence.
Qed.

Lemma forward_kept wh dev x st co data : keeps kept (pfwd wh dev x st co data).
Proof.
  apply forward_keeps.
  - apply kept_preorder.
  - intros b N. rewrite pass_through_never by exact N. rewrite effective_unchanged by auto.
    repeat split.
  - intros b n _. repeat split.
  - intros b n _. repeat split.
  - intros b n _. repeat split.
Qed.

Lemma call_kept o (p : placed) : kept (pl_block p) (pl_block (fst (run1 o p))).
Proof.
  destruct o; cbn [run_call call].
  - pose proof (forward_kept (pl_where p) dev x st co data (pl_block p)) as K.
    destruct (pfwd (pl_where p) dev x st co data (pl_block p)) as [b' r]. exact K.
  - intros _. repeat split.
  - intros _. repeat split.
  - intros _. repeat split.
  - intros _. repeat split.
  - intros _. repeat split.
Qed.

Lemma calls_kept os : forall (p : placed), kept (pl_block p) (pl_block (fst (run os p))).
Proof.
  induction os as [|o os IH]; intro p; [apply kept_preorder|]. cbn [run_calls].
  pose proof (call_kept o p) as K1. destruct (run1 o p) as [p' v]. specialize (IH p').
  destruct (run os p') as [p'' vs]. cbn [fst] in *. eapply kept_preorder; eassumption.
Qed.

(** After a move to [d] everything reached stays on [d] until a move to another device. *)
Lemma calls_where d os : forall (p : placed) o, Forall (no_other_move d) os -> pl_where p o = d ->
  pl_where (fst (run os p)) o = d.
Proof.
  induction os as [|c os IH]; intros p o F W; [exact W|].
  pose proof (Forall_inv F) as FC. pose proof (Forall_inv_tail F) as FS. cbn [run_calls].
  assert (W1 : pl_where (fst (run1 c p)) o = d).
  { destruct c; cbn [run_call call].
    - destruct (pfwd (pl_where p) dev x st co data (pl_block p)); exact W.
    - cbn [no_other_move] in FC. subst dev. cbn [move fst pl_where]. destruct (reached _ _); auto.
    - exact W.
    - exact W.
    - exact W.
    - exact W. }
  destruct (run1 c p) as [p' v]. cbn [fst] in W1. specialize (IH p' o FS W1).
  destruct (run os p') as [p'' vs]. exact IH.
Qed.

Lemma run_app os1 : forall os2 (p : placed),
  fst (run (os1 ++ os2) p) = fst (run os2 (fst (run os1 p))).
Proof.
  induction os1 as [|o os1 IH]; intros os2 p; [reflexivity|]. cbn [app run_calls].
  destruct (run1 o p) as [p' v]. specialize (IH os2 p').
  destruct (run (os1 ++ os2) p') as [p1 v1]. destruct (run os1 p') as [p2 v2]. exact IH.
Qed.

(** ** What the constructor registers *)
Definition register_named (r : pdict pobj) (no : string * pobj) : result (pdict pobj) :=
  register_parameter has_attr (fst no) (snd no) r.

Lemma registered_named l : forall r r', foldM register_named l r = Ok r' ->
  (forall n, ~ In n (map fst l) -> pd_get n r' = pd_get n r) /\
  (NoDup (map fst l) -> forall n o, In (n, o) l -> pd_get n r' = Some o).
Proof.
  induction l as [|[n0 o0] l IH]; intros r r' E.
  - injection E as <-. split; [auto|]. intros _ n o [].
  - cbn [foldM] in E. unfold bind in E. destruct (register_named r (n0, o0)) as [r1|] eqn:E1; [|discriminate].
    apply register_parameter_ok in E1. cbn [fst snd] in E1. subst r1. destruct (IH _ _ E) as [I1 I2]. split.
    + intros n N. cbn [map fst] in N. rewrite I1 by (intro H; apply N; right; exact H).
      apply pd_get_set_other. intro H. apply N. left. auto.
    + intros D n o [H|H]; cbn [map fst] in D; inversion D as [|? ? D1 D2]; subst.
      * injection H as -> ->. rewrite I1 by exact D1. apply pd_get_set_same.
      * apply I2; auto.
Qed.

Lemma got_reached (b : block) n o : pd_get n (b_registry b) = Some o -> reached b o = true.
Proof.
  intro G. assert (E : existsb (fun kv => pobj_eqb (snd kv) o) (b_registry b) = true).
  { apply existsb_exists. exists (n, o). split; [|apply pobj_eqb_refl].
    revert G. generalize (b_registry b). intro l. induction l as [|[n1 o1] l IH]; [discriminate|].
    unfold pd_get, sd_get. destruct (String.eqb n n1) eqn:E; intro G.
    - injection G as ->. apply String.eqb_eq in E. subst. left. reflexivity.
    - right. apply IH. exact G. }
  unfold reached. destruct o; auto.
Qed.

Lemma new_particles_reached name state costate enlarge keep free names max_time dim (b : block) :
  NoDup (match state with None => [] | Some d => keys d end ++
         match costate with None => [] | Some d => keys d end ++ map undot names) ->
  new_block has_attr name state costate enlarge keep false false free names max_time dim = Ok b ->
  b_state b = state /\ b_costate b = costate /\ b_st_enl b = None /\ b_co_enl b = None /\
  b_enlarge b = enlarge /\
  forall o, In o (particle_objects b) -> reached b o = true.
Proof.
  intros N E. unfold new_block in E. cbn [andb orb] in E. unfold bind in E.
  destruct (register_state_and_costate has_attr state costate keep []) as [r1|] eqn:E1; [|discriminate].
  destruct (register_integrand has_attr names r1) as [r2|] eqn:E2; [|discriminate].
  assert (B : b_registry b = r2 /\ b_state b = state /\ b_costate b = costate /\ b_st_enl b = None /\
    b_co_enl b = None /\ b_enlarge b = enlarge) by (injection E as <-; repeat split).
  destruct B as [Br [Bs [Bc [B1 [B2 B3]]]]]. clear E.
  split; [exact Bs|]. split; [exact Bc|]. split; [exact B1|]. split; [exact B2|]. split; [exact B3|].
  unfold register_integrand in E2.
  change (foldM (fun r pn => register_named r (undot pn, OIntegrand pn)) names r1 = Ok r2) in E2.
  rewrite <- (foldM_map register_named (fun pn => (undot pn, OIntegrand pn))) in E2.
  destruct (registered_named _ _ _ E2) as [U2 _]. rewrite map_map in U2. cbn [fst] in U2.
  unfold register_state_and_costate, bind in E1.
  destruct (match state with None => Ok [] | Some d => _ end) as [r0|] eqn:E0; [|discriminate].
  destruct (nodup_split _ _ N) as [N1 [N2 N3]]. destruct (nodup_split _ _ N2) as [N4 [_ N5]].
  intros o I. unfold particle_objects in I. rewrite Bs, Bc in I. apply in_app_or in I.
  destruct I as [I|I].
  - destruct state as [d|]; [|destruct I]. destruct keep.
    { destruct d; [destruct I|discriminate]. }
    change (foldM (fun r (kv : string * tensor A) => register_named r (fst kv, OState (fst kv))) d [] = Ok r0) in E0.
    rewrite <- (foldM_map register_named (fun kv : string * tensor A => (fst kv, OState (fst kv)))) in E0.
    destruct (registered_named _ _ _ E0) as [_ G0]. rewrite map_map in G0. cbn [fst] in G0.
    apply in_map_iff in I. destruct I as [[k t] [<- I]]. cbn [fst].
    assert (Ik : In k (keys d)) by (apply in_map_iff; exists (k, t); auto).
    apply got_reached with k. rewrite Br.
    rewrite U2 by (intro H; apply (N3 k Ik), in_or_app; right; exact H).
    assert (G : pd_get k r1 = pd_get k r0).
    { destruct costate as [c|]; [|injection E1 as <-; reflexivity].
      change (foldM (fun r (kv : string * tensor A) => register_named r (fst kv, OCostate (fst kv))) c r0 = Ok r1) in E1.
      rewrite <- (foldM_map register_named (fun kv : string * tensor A => (fst kv, OCostate (fst kv)))) in E1.
      destruct (registered_named _ _ _ E1) as [G1 _]. rewrite map_map in G1. cbn [fst] in G1.
      apply G1. intro H. apply (N3 k Ik), in_or_app. left. exact H. }
    rewrite G. apply G0; [exact N1|]. apply in_map_iff. exists (k, t). auto.
  - destruct costate as [c|]; [|destruct I].
    change (foldM (fun r (kv : string * tensor A) => register_named r (fst kv, OCostate (fst kv))) c r0 = Ok r1) in E1.
    rewrite <- (foldM_map register_named (fun kv : string * tensor A => (fst kv, OCostate (fst kv)))) in E1.
    destruct (registered_named _ _ _ E1) as [_ G1]. rewrite map_map in G1. cbn [fst] in G1.
    apply in_map_iff in I. destruct I as [[k t] [<- I]]. cbn [fst].
    assert (Ik : In k (keys c)) by (apply in_map_iff; exists (k, t); auto).
    apply got_reached with k. rewrite Br. rewrite U2 by (apply N5; exact Ik).
    apply G1; [exact N4|]. apply in_map_iff. exists (k, t). auto.
Qed.

(** ** Moving a block whose parameters are computed from the particles *)
Lemma moved_block name state costate enlarge keep free names max_time dim (b : block) os1 os2 d x st co data :
  ev = FromStates ->
  NoDup (match state with None => [] | Some d => keys d end ++
         match costate with None => [] | Some d => keys d end ++ map undot names) ->
  enlarge = false \/ ig_enlargement ig = false ->
  new_block has_attr name state costate enlarge keep false false free names max_time dim = Ok b ->
  Forall (no_other_move d) os2 ->
  let p := fst (run (os1 ++ PTo d :: os2) (place default b)) in
  pfwd (pl_where p) d x st co data (pl_block p) = fwd x st co data (pl_block p).
Proof.
  intros EV N EN E F p.
  destruct (new_particles_reached _ _ _ _ _ _ _ _ _ _ N E) as [Bs [Bc [B1 [B2 [B3 R]]]]].
  assert (NE : never_enlarges ig b).
  { split; [exact B1|]. split; [exact B2|]. rewrite B3. destruct EN; auto. }
  pose proof (calls_kept (os1 ++ PTo d :: os2) (place default b) NE) as K. fold p in K. cbn [place pl_block] in K.
  pose proof (same_place_never _ _ K NE) as NP.
  apply forward_reachable; [apply pass_through_never; exact NP|].
  intros b1 E1. rewrite effective_unchanged in E1 by auto. subst b1.
  assert (W : forall o, reached b o = true -> pl_where p o = d).
  { intros o Ho. unfold p. rewrite run_app. cbn [run_calls].
    set (q := fst (run os1 (place default b))).
    assert (Rq : reached (pl_block q) o = true).
    { pose proof (calls_kept os1 (place default b) NE) as K1. fold q in K1. destruct K1 as [K1 _].
      cbn [place pl_block] in K1. unfold reached in *. rewrite K1. exact Ho. }
    assert (W1 : pl_where (fst (run1 (PTo d) q)) o = d).
    { cbn [run_call move fst pl_where]. rewrite Rq. reflexivity. }
    destruct (run1 (PTo d) q) as [q1 v]. cbn [fst] in W1.
    pose proof (calls_where d os2 q1 o F W1) as W2.
    destruct (run os2 q1). exact W2. }
  destruct K as [K1 [K2 [K3 K4]]].
  split; [|split].
  - intros o Ho. apply W. unfold integrand_objects in Ho. apply filter_In in Ho.
    destruct Ho as [_ Ho]. destruct o; try discriminate. reflexivity.
  - intros o Ho. apply W, R. revert Ho. unfold particle_objects. rewrite K2, K3. auto.
  - rewrite EV. exact I.
Qed.

(** ** New tensors in the evaluation *)
Lemma mbind_raises {B C} (m : @M A B) (f : B -> @M A C) b o :
  snd (mbind m f b) = Ok o -> exists x b', m b = (b', Ok x) /\ snd (f x b') = Ok o.
Proof.
  unfold mbind. destruct (m b) as [b' [x|e]]; cbn [snd]; intro E; [|discriminate].
  exists x, b'. auto.
Qed.

Lemma pass_through_static wh dev st co :
  keeps same_static (placed_pass_through zero ig has_attr rnd wh dev st co).
Proof.
  pose proof (@same_static_preorder A) as P.
  unfold placed_pass_through. destruct st as [s|], co as [c|]; try (apply keeps_ret; exact P).
  intro b. destruct (b_enlarge b); [|apply P].
  refine (keeps_bind same_static _ _ P _ _ b); [apply get_or_create_static|intros [es ec]].
  apply keeps_bind; [exact P|apply keeps_modify; intro; repeat split|intros _].
  apply keeps_bind; [exact P|intro; apply P|intros _].
  apply keeps_bind; [exact P|apply enlarge_pass_through_static|intros [s' c']].
  apply keeps_ret; exact P.
Qed.

(** A successful call went through all checks. *)
Lemma forward_checked wh dev x st co data (b : block) o :
  snd (pfwd wh dev x st co data b) = Ok o ->
  exists b1 b2, same_static b b1 /\ same_static b b2 /\
    snd (require wh dev (particle_objects b1) b1) = Ok tt /\
    (evaluates b2 = true -> snd (require_evaluation default ev wh dev b2) = Ok tt).
Proof.
  pose proof (@same_static_preorder A) as [PR PT].
  unfold placed_forward. intro E.
  assert (K : exists stco b1, same_static b b1 /\
    snd (mbind (match x, data with
           | Some _, None => fun b => require wh dev (integrand_objects b) b
           | _, _ => ret tt
           end) (fun _ => mbind (effective_data ig x data) (fun dz =>
      let '(d, z) := dz in
      mbind (initial_conditions zero ig d (fst stco) (snd stco) z) (fun xp =>
      let '(x0, ps) := xp in
      mbind (fun b => require wh dev (particle_objects b) b) (fun _ =>
      mbind (modify (set_plans (Some ps))) (fun _ =>
      mbind (fun b => if evaluates b then require_evaluation default ev wh dev b else (b, Ok tt)) (fun _ =>
      mbind (integrate_and_disassemble ig solve x0) (fun r =>
      mbind (finish_outputs ig r) (fun o =>
      mbind (modify (set_fresh false)) (fun _ => ret o))))))))) b1) = Ok o).
  { destruct x as [x|], st as [st|], co as [co|]; try discriminate;
      (apply mbind_raises in E; destruct E as [[s c] [b1 [E1 E2]]]; exists (s, c), b1; split; [|exact E2];
       match type of E1 with placed_pass_through _ _ _ _ _ _ ?u ?v _ = _ =>
         pose proof (pass_through_static wh dev u v b) as H end;
       rewrite E1 in H; exact H). }
  clear E. destruct K as [[s c] [b1 [S1 E]]].
  apply mbind_raises in E. destruct E as [[] [b2 [E1 E]]].
  assert (b2 = b1).
  { assert (H : fst (match x, data with
           | Some _, None => fun b => require wh dev (integrand_objects b) b
           | _, _ => ret tt
           end b1) = b1) by (destruct x, data; reflexivity). rewrite E1 in H. exact H. }
  subst b2. apply mbind_raises in E. destruct E as [[d z] [b2 [E2 E]]].
  assert (b2 = b1).
  { assert (H : fst (effective_data ig x data b1) = b1) by (unfold effective_data; destruct data, x; reflexivity).
    rewrite E2 in H. exact H. }
  subst b2. apply mbind_raises in E. destruct E as [[x0 ps] [b2 [E3 E]]].
  assert (S2 : same_static b1 b2).
  { destruct (initial_conditions_only_scratch zero ig d (fst (s, c)) (snd (s, c)) z b1) as [n H].
    rewrite E3 in H. cbn [fst] in H. subst b2. repeat split. }
  apply mbind_raises in E. destruct E as [[] [b3 [E4 E]]].
  assert (b3 = b2) by (unfold require in E4; congruence). subst b3.
  apply mbind_raises in E. destruct E as [[] [b3 [E5 E]]].
  apply mbind_raises in E. destruct E as [[] [b4 [E6 E]]].
  exists b2, b3. split; [eapply PT; eassumption|]. split.
  { eapply PT; [exact S1|]. eapply PT; [exact S2|]. injection E5 as <-. repeat split. }
  split; [rewrite E4; reflexivity|].
  intro EV. rewrite EV in E6. rewrite E6. reflexivity.
Qed.

Lemma new_tensors_never wh dev x st co data (b : block) o :
  ev = WithNew -> default <> dev -> (forall ts, b_time_vec b = Some ts -> 2 <= List.length ts) ->
  snd (pfwd wh dev x st co data b) <> Ok o.
Proof.
  intros EV ND EB0 E.
  assert (EB : evaluates b = true).
  { unfold evaluates. destruct (b_time_vec b) as [ts|]; [|reflexivity]. apply Nat.leb_le, EB0. reflexivity. } apply forward_checked in E. destruct E as [b1 [b2 [_ [S2 [_ H]]]]].
  assert (E2 : evaluates b2 = true).
  { unfold evaluates in *. destruct S2 as [_ [_ [_ [_ [_ [_ [_ ->]]]]]]]. exact EB. }
  specialize (H E2). unfold require_evaluation in H. rewrite EV in H.
  rewrite device_eqb_neq in H by exact ND. discriminate.
Qed.

(** With a single time nothing is evaluated: the kind of evaluation is irrelevant. *)
Lemma mbind_same {B C} (m : @M A B) (f g : B -> @M A C) b :
  (forall x b', m b = (b', Ok x) -> f x b' = g x b') -> mbind m f b = mbind m g b.
Proof. intro H. rewrite !mbind_at. destruct (m b) as [b' [x|e]]; [apply H|]; reflexivity. Qed.

Lemma single_time_any wh dev x st co data (b : block) t :
  b_time_vec b = Some [t] ->
  pfwd wh dev x st co data b
  = placed_forward zero ig has_attr rnd solve default FromStates wh dev x st co data b.
Proof.
  intro T.
  assert (K : forall s c, mbind (placed_pass_through zero ig has_attr rnd wh dev s c) (fun stco : option _ * option _ =>
      let '(st', co') := stco in
      mbind (match x, data with
           | Some _, None => fun b => require wh dev (integrand_objects b) b
           | _, _ => ret tt
           end) (fun _ => mbind (effective_data ig x data) (fun dz =>
      let '(d, z) := dz in
      mbind (initial_conditions zero ig d st' co' z) (fun xp =>
      let '(x0, ps) := xp in
      mbind (fun b => require wh dev (particle_objects b) b) (fun _ =>
      mbind (modify (set_plans (Some ps))) (fun _ =>
      mbind (fun b => if evaluates b then require_evaluation default ev wh dev b else (b, Ok tt)) (fun _ =>
      mbind (integrate_and_disassemble ig solve x0) (fun r =>
      mbind (finish_outputs ig r) (fun o =>
      mbind (modify (set_fresh false)) (fun _ => ret o)))))))))) b
    = mbind (placed_pass_through zero ig has_attr rnd wh dev s c) (fun stco : option _ * option _ =>
      let '(st', co') := stco in
      mbind (match x, data with
           | Some _, None => fun b => require wh dev (integrand_objects b) b
           | _, _ => ret tt
           end) (fun _ => mbind (effective_data ig x data) (fun dz =>
      let '(d, z) := dz in
      mbind (initial_conditions zero ig d st' co' z) (fun xp =>
      let '(x0, ps) := xp in
      mbind (fun b => require wh dev (particle_objects b) b) (fun _ =>
      mbind (modify (set_plans (Some ps))) (fun _ =>
      mbind (fun b => if evaluates b then require_evaluation default FromStates wh dev b else (b, Ok tt)) (fun _ =>
      mbind (integrate_and_disassemble ig solve x0) (fun r =>
      mbind (finish_outputs ig r) (fun o =>
      mbind (modify (set_fresh false)) (fun _ => ret o)))))))))) b).
  { intros s c. apply mbind_same. intros [s' c'] b1 E1.
    pose proof (pass_through_static wh dev s c b) as S1. rewrite E1 in S1. cbn [fst] in S1.
    destruct S1 as [_ [_ [_ [_ [_ [_ [_ T1]]]]]]]. rewrite T in T1.
    apply mbind_same. intros [] b2 E2.
    assert (b2 = b1).
    { assert (H : fst (match x, data with
             | Some _, None => fun b => require wh dev (integrand_objects b) b
             | _, _ => ret tt
             end b1) = b1) by (destruct x, data; reflexivity). rewrite E2 in H. exact H. }
    subst b2. apply mbind_same. intros [d z] b2 E3.
    assert (b2 = b1).
    { assert (H : fst (effective_data ig x data b1) = b1) by (unfold effective_data; destruct data, x; reflexivity).
      rewrite E3 in H. exact H. }
    subst b2. apply mbind_same. intros [x0 ps] b2 E4.
    assert (T2 : b_time_vec b2 = Some [t]).
    { destruct (initial_conditions_only_scratch zero ig d s' c' z b1) as [n H].
      rewrite E4 in H. cbn [fst] in H. subst b2. exact T1. }
    apply mbind_same. intros [] b3 E5.
    assert (b3 = b2) by (unfold require in E5; congruence). subst b3.
    apply mbind_same. intros [] b3 E6.
    assert (T3 : evaluates b3 = false).
    { injection E6 as <-. unfold evaluates. cbn [b_time_vec set_plans]. rewrite T2. reflexivity. }
    rewrite !mbind_at. rewrite T3. reflexivity. }
  unfold placed_forward. destruct x as [x|], st as [st|], co as [co|]; try reflexivity; apply K.
Qed.

(** ** Particle-free modes: the states are not registered *)
Definition no_more_states (b b' : block) : Prop :=
  b_state b' = b_state b /\
  forall kv, In kv (b_registry b') -> In kv (b_registry b) \/ exists i, snd kv = OEnlarge i.

Lemma no_more_states_preorder : preorder no_more_states.
Proof.
  split.
  - intro b. split; auto.
  - intros a b c [H1 H2] [H3 H4]. split; [congruence|]. intros kv I.
    destruct (H4 kv I) as [I1|I1]; auto.
Qed.

Lemma in_pd_set {V} k (v : V) d kv : In kv (pd_set k v d) -> In kv d \/ snd kv = v.
Proof.
  induction d as [|[k' v'] d IH]; cbn [pd_set]; intro I.
  - destruct I as [<-|[]]. auto.
  - destruct (String.eqb k k').
    + destruct I as [<-|I]; [auto|]. left. right. exact I.
    + destruct I as [<-|I]; [left; left; reflexivity|]. destruct (IH I); auto. left. right. auto.
Qed.

Lemma create_state d o s (b : block) :
  b_state (fst (create_enlargement zero ig rnd d o s b)) = b_state b.
Proof. destruct (create_enlargement_static zero ig rnd d o s b) as [_ [H _]]. exact H. Qed.

Lemma register_no_more z o : keeps no_more_states (@register_enlargement A has_attr z o).
Proof.
  pose proof no_more_states_preorder as P.
  unfold register_enlargement. destruct o as [d|]; [|apply keeps_ret; exact P].
  apply keeps_loop; [exact P|]. intros u [n e]. apply keeps_loop; [exact P|]. intros u' [k [[i df]|]].
  - unfold register_entry. cbn [snd fst]. destruct z; [apply keeps_raise; exact P|].
    intro b. destruct (register_parameter _ _ _ _) as [r|e0] eqn:E; cbn [fst]; [|apply P].
    apply register_parameter_ok in E. subst r. split; [reflexivity|].
    cbn [b_registry set_registry]. intros kv I. apply in_pd_set in I. destruct I; eauto.
  - apply keeps_ret; exact P.
Qed.

Lemma pass_through_no_more wh dev st co :
  keeps no_more_states (placed_pass_through zero ig has_attr rnd wh dev st co).
Proof.
  pose proof no_more_states_preorder as P.
  unfold placed_pass_through. destruct st as [s|], co as [c|]; try (apply keeps_ret; exact P).
  intro b. destruct (b_enlarge b); [|apply P].
  refine (keeps_bind no_more_states _ _ P _ _ b).
  2:{ intros [es ec].
      apply keeps_bind; [exact P|apply keeps_modify; intro; split; auto|intros _].
      apply keeps_bind; [exact P|intro; apply P|intros _].
      apply keeps_bind; [exact P|intro; apply P|intros [s' c']]. apply keeps_ret; exact P. }
  clear b. intro b. unfold get_or_create_enlargement. destruct (b_fresh b); [|apply P].
  destruct (_ || _); [apply P|].
  assert (KC : forall d o s, keeps no_more_states (create_enlargement zero ig rnd d o s)).
  { intros d o z b0. split; [apply create_state|]. rewrite create_registry. auto. }
  refine (keeps_bind no_more_states _ _ P _ _ b); [apply KC|intro].
  apply keeps_bind; [exact P|apply KC|intro].
  apply keeps_bind; [exact P|apply register_no_more|intro].
  apply keeps_bind; [exact P|apply register_no_more|intro]. apply keeps_ret; exact P.
Qed.

Lemma call_no_more o (p : placed) : no_more_states (pl_block p) (pl_block (fst (run1 o p))).
Proof.
  destruct o; cbn [run_call call]; try (split; [reflexivity|auto]).
  assert (K : keeps no_more_states (pfwd (pl_where p) dev x st co data)).
  { apply forward_keeps.
    - apply no_more_states_preorder.
    - apply pass_through_no_more.
    - intros b n. split; auto.
    - intros b n. split; auto.
    - intros b n. split; auto. }
  specialize (K (pl_block p)). destruct (pfwd (pl_where p) dev x st co data (pl_block p)) as [b' r]. exact K.
Qed.

Lemma calls_unmoved k os : forall (p : placed),
  (forall kv, In kv (b_registry (pl_block p)) -> snd kv <> OState k) ->
  b_state (pl_block (fst (run os p))) = b_state (pl_block p) /\
  pl_where (fst (run os p)) (OState k) = pl_where p (OState k).
Proof.
  induction os as [|o os IH]; intros p N; [auto|]. cbn [run_calls].
  destruct (call_no_more o p) as [K1 K2].
  assert (W1 : pl_where (fst (run1 o p)) (OState k) = pl_where p (OState k)).
  { destruct o; cbn [run_call call]; try reflexivity.
    - destruct (pfwd (pl_where p) dev x st co data (pl_block p)); reflexivity.
    - cbn [move fst pl_where reached].
      destruct (existsb _ _) eqn:EX; [|reflexivity]. apply existsb_exists in EX.
      destruct EX as [kv [I1 I2]]. exfalso. apply (N kv I1).
      destruct (snd kv); try discriminate. apply String.eqb_eq in I2. now subst. }
  destruct (run1 o p) as [p' v]. cbn [fst] in *.
  assert (N' : forall kv, In kv (b_registry (pl_block p')) -> snd kv <> OState k).
  { intros kv I. destruct (K2 kv I) as [I1|[i I1]]; [apply N; exact I1|]. rewrite I1. discriminate. }
  destruct (IH p' N') as [S1 S2]. destruct (run os p') as [p'' vs]. cbn [fst] in *.
  split; congruence.
Qed.

Lemma register_named_in l : forall r r' kv, foldM register_named l r = Ok r' -> In kv r' ->
  In kv r \/ In (snd kv) (map snd l).
Proof.
  induction l as [|[n o] l IH]; intros r r' kv E I.
  - injection E as <-. auto.
  - cbn [foldM] in E. unfold bind in E. destruct (register_named r (n, o)) as [r1|] eqn:E1; [|discriminate].
    apply register_parameter_ok in E1. cbn [fst snd] in E1. subst r1.
    destruct (IH _ _ kv E I) as [H|H]; [|right; right; exact H].
    apply in_pd_set in H. destruct H as [H|H]; [auto|]. right. left. auto.
Qed.

Lemma free_no_states name state costate enlarge keep rnn_mode time_mode free names max_time dim (b : block) k :
  rnn_mode || time_mode = true ->
  new_block has_attr name state costate enlarge keep rnn_mode time_mode free names max_time dim = Ok b ->
  b_state b = state /\ forall kv, In kv (b_registry b) -> snd kv <> OState k.
Proof.
  intros FM E. unfold new_block in E. destruct (rnn_mode && time_mode); [discriminate|].
  rewrite FM in E. unfold bind in E.
  destruct (register_free has_attr free []) as [r1|] eqn:E1; [|discriminate].
  destruct (register_integrand has_attr names r1) as [r2|] eqn:E2; [|discriminate].
  injection E as <-. split; [reflexivity|]. cbn [b_registry]. intros kv I.
  unfold register_integrand in E2.
  change (foldM (fun r pn => register_named r (undot pn, OIntegrand pn)) names r1 = Ok r2) in E2.
  rewrite <- (foldM_map register_named (fun pn => (undot pn, OIntegrand pn))) in E2.
  destruct (register_named_in _ _ _ kv E2 I) as [H|H].
  2:{ rewrite map_map in H. apply in_map_iff in H. destruct H as [pn [H _]]. cbn [snd] in H.
      rewrite <- H. discriminate. }
  rewrite register_free_triples in E1.
  change (foldM (fun r t => register_named r (triple_name t, triple_obj t)) (triples free) [] = Ok r1) in E1.
  rewrite <- (foldM_map register_named (fun t => (triple_name t, triple_obj t))) in E1.
  destruct (register_named_in _ _ _ kv E1 H) as [[]|H1].
  rewrite map_map in H1. apply in_map_iff in H1. destruct H1 as [[[i l] kk] [H1 _]]. cbn [snd triple_obj] in H1.
  rewrite <- H1. discriminate.
Qed.

Lemma free_never name k t rest costate enlarge keep rnn_mode time_mode free names max_time dim (b : block)
    os dev x st co data o :
  rnn_mode || time_mode = true -> default <> dev ->
  new_block has_attr name (Some ((k, t) :: rest)) costate enlarge keep rnn_mode time_mode free names max_time dim
    = Ok b ->
  let p := fst (run os (place default b)) in
  snd (pfwd (pl_where p) dev x st co data (pl_block p)) <> Ok o.
Proof.
  intros FM ND E p H. destruct (free_no_states _ _ _ _ _ _ _ _ _ _ _ _ k FM E) as [S0 N].
  destruct (calls_unmoved k os (place default b) N) as [S1 W]. fold p in S1, W. cbn [place pl_block pl_where] in S1, W.
  apply forward_checked in H. destruct H as [b1 [_ [[_ [S2 _]] [_ [H _]]]]].
  unfold require in H. cbn [snd] in H.
  destruct (forallb _ (particle_objects b1)) eqn:F; [|discriminate].
  rewrite forallb_forall in F. specialize (F (OState k)). rewrite W in F.
  apply ND. apply device_eqb_eq. apply F. unfold particle_objects.
  rewrite S2, S1, S0. left. reflexivity.
Qed.
End Moves.

(** ** [setup_device] *)
Lemma setup_same gpus desired a b : setup_device gpus desired = Ok (a, b) -> a = b.
Proof.
  unfold setup_device. destruct desired as [g|]; [|congruence].
  destruct (0 <? gpus); [|congruence]. destruct (g <? 0)%Z; [discriminate|].
  destruct (gpus <=? Z.to_nat g); [discriminate|]. congruence.
Qed.

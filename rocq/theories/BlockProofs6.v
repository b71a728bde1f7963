(** Proofs about later forward calls of a block that has been executed. *)
From Coq Require Import List String Ascii Arith ZArith QArith Qcanon Lia Bool.
From Verif Require Import Base BaseFacts Tensor ScdModel BlockModel BlockSpec BlockProofs BlockProofs2
  BlockProofs4.
Import ListNotations.
Open Scope nat_scope.

Section Executed.
Context {A : Type}.
Variable zero : A.
Variable ig : @integrand A.
Variable has_attr : string -> bool.
Variable rnd : nat -> nat -> A.
Variable solve : @block A -> list A -> list Qc -> result (tensor A).
Notation block := (@block A).
Notation fwd := (forward zero ig has_attr rnd solve).
Notation run := (run_ops zero ig has_attr rnd solve).
Notation run1 := (run_op zero ig has_attr rnd solve).

Lemma set_enl_id (b : block) : set_enl (b_st_enl b) (b_co_enl b) b = b.
Proof. destruct b; reflexivity. Qed.

Lemma executed_effective st co (b : block) : b_fresh b = false ->
  fst (effective_pass_through zero ig has_attr rnd st co b) = b.
Proof.
  intro F. unfold effective_pass_through. destruct st, co; try reflexivity.
  destruct (b_enlarge b); [|reflexivity].
  rewrite mbind_at. unfold get_or_create_enlargement. rewrite F.
  rewrite mbind_at. unfold modify. rewrite set_enl_id. rewrite mbind_at.
  unfold enlarge_pass_through. destruct (bind _ _) as [[? ?]|]; reflexivity.
Qed.

(** Without enlargement parameters pass-through blocks are used as they are. *)
Lemma executed_no_enlargement s c (b : block) :
  b_fresh b = false -> b_st_enl b = None -> b_co_enl b = None ->
  effective_pass_through zero ig has_attr rnd (Some s) (Some c) b = (b, Ok (Some s, Some c)).
Proof.
  intros F N1 N2. unfold effective_pass_through. destruct (b_enlarge b); [|reflexivity].
  rewrite mbind_at. unfold get_or_create_enlargement. rewrite F.
  rewrite mbind_at. unfold modify. rewrite set_enl_id. rewrite mbind_at.
  unfold enlarge_pass_through. rewrite N1, N2. reflexivity.
Qed.

Lemma executed_forward_scratch x st co data (b : block) : b_fresh b = false ->
  exists p n, fst (fwd x st co data b) = scratch p n b /\ (data = None \/ b_state b = None -> n = b_data_dim b).
Proof.
  intro F. rewrite forward_split.
  assert (SF : forall p n, set_fresh false (scratch p n b) = scratch p n b).
  { intros. destruct b; simpl in *; subst; reflexivity. }
  assert (K : exists p n, fst (forward_body zero ig has_attr rnd solve x st co data b) = scratch p n b /\
      (data = None \/ b_state b = None -> n = b_data_dim b)).
  2:{ destruct K as [p [n [K1 K2]]]. exists p, n. split; auto.
      destruct (forward_body _ _ _ _ _ x st co data b) as [b1 [o|e]]; cbn [fst] in *; subst; auto. }
  rewrite forward_body_rest.
  assert (I : exists p n, b = scratch p n b /\ (data = None \/ b_state b = None -> n = b_data_dim b)).
  { exists (b_plans b), (b_data_dim b). split; auto. apply scratch_id. }
  assert (G : exists p n, fst ((stco <-- effective_pass_through zero ig has_attr rnd st co ;;;
      dz <-- effective_data ig x data ;;;
      xp <-- initial_conditions zero ig (fst dz) (fst stco) (snd stco) (snd dz) ;;;
      forward_rest ig solve xp) b) = scratch p n b /\ (data = None \/ b_state b = None -> n = b_data_dim b)).
  2:{ destruct x, st, co; try exact G; exact I. }
  rewrite mbind_at. pose proof (executed_effective st co b F) as U.
  destruct (effective_pass_through _ _ _ _ st co b) as [b2 [stco|e1]]; cbn [fst] in U |- *; subst b2; auto.
  rewrite mbind_at.
  assert (ED : fst (effective_data ig x data b) = b).
  { unfold effective_data. destruct x, data; reflexivity. }
  assert (EZ : forall dz, snd (effective_data ig x data b) = Ok dz -> data = None -> snd dz = false).
  { intros dz E ->. unfold effective_data in E. destruct x; [|discriminate].
    cbn [snd] in E. apply bind_ok in E as [d [_ E]]. injection E as <-. reflexivity. }
  destruct (effective_data ig x data b) as [b2 [dz|e1]]; cbn [fst snd] in *; subst b2; auto.
  rewrite mbind_at.
  destruct (initial_conditions_only_scratch zero ig (fst dz) (fst stco) (snd stco) (snd dz) b) as [n EN].
  assert (EN' : data = None \/ b_state b = None -> n = b_data_dim b).
  { intro D. rewrite (initial_conditions_x zero ig) in EN.
    2:{ destruct D as [D|D]; [left; apply (EZ dz eq_refl D)|right; exact D]. }
    apply (f_equal b_data_dim) in EN. symmetry. exact EN. }
  destruct (initial_conditions _ _ _ _ _ _ b) as [b2 [xp|e1]]; cbn [fst] in *; subst b2.
  - rewrite forward_rest_block. exists (Some (snd xp)), n. split; [destruct b; reflexivity|exact EN'].
  - exists (b_plans b), n. split; [destruct b; reflexivity|exact EN'].
Qed.

(** Histories of forward and parameters calls. *)
Definition is_call (o : @op A) : Prop :=
  match o with OpForward _ _ _ _ | OpParameters => True | _ => False end.

Lemma executed_history os : forall (b b' : block) vs, b_fresh b = false ->
  Forall is_call os -> run os b = (b', vs) ->
  exists p n, b' = scratch p n b /\ (b_state b = None -> n = b_data_dim b).
Proof.
  induction os as [|o os IH]; intros b b' vs F C E; simpl in E.
  - injection E as <- _. exists (b_plans b), (b_data_dim b). split; auto. apply scratch_id.
  - destruct (run1 o b) as [b1 v] eqn:E1. destruct (run os b1) as [b2 vs'] eqn:E2.
    injection E as <- _. inversion C as [|? ? Co Cos]; subst.
    assert (H1 : exists p n, b1 = scratch p n b /\ (b_state b = None -> n = b_data_dim b)).
    { destruct o; simpl in Co; try tauto; simpl in E1.
      - destruct (executed_forward_scratch x st co data b F) as [p [n [K1 K2]]].
        destruct (fwd x st co data b) as [b3 r]. injection E1 as <- _. cbn [fst] in K1.
        exists p, n. split; auto.
      - injection E1 as <- _. exists (b_plans b), (b_data_dim b). split; auto. apply scratch_id. }
    destruct H1 as [p [n [-> N1]]].
    destruct (IH (scratch p n b) _ _ F Cos E2) as [p' [n' [-> N2]]].
    exists p', n'. split; [apply scratch_scratch|]. intro N. rewrite (N2 N). simpl. auto.
Qed.

Lemma initial_data_one d st co (b b' : block) x0 ps :
  initial_conditions zero ig (sd_set (b_name b) d []) st co false b = (b', Ok (x0, ps)) ->
  exists p, data_plans ps = [(b_name b, p)].
Proof.
  unfold initial_conditions, mbind, lift, ret. cbn [sd_set].
  destruct (merge_dict (b_state b) st (b_name b)) as [s|]; [|discriminate].
  destruct (merge_dict (b_costate b) co (b_name b)) as [c|]; [|discriminate].
  intro E. injection E as _ E. unfold assemble_tensor in E.
  pose proof (fun v => assemble_one (b_name b) d v) as P3.
  destruct (assemble_generic_dict_of_dicts s) as [[v1|] q1];
    destruct (assemble_generic_dict_of_dicts c) as [[v2|] q2];
    destruct (assemble_generic_dict_of_dicts [(b_name b, d)]) as [[v3|] q3]; try discriminate E.
  injection E as _ <-. exact (P3 v3 eq_refl).
Qed.

Lemma disassemble_data_one n ps p (input : tensor A) dim s c d :
  data_plans ps = [(n, p)] ->
  disassemble_tensor input (Some ps) dim = Ok (s, c, d) -> one_block n d.
Proof.
  intro HP. unfold disassemble_tensor. destruct (negb _); [discriminate|]. rewrite HP.
  intro H. apply bind_ok in H as [[s1 i1] [H1 H]]. apply bind_ok in H as [[c1 i2] [H2 H]].
  apply bind_ok in H as [[d1 i3] [E H]]. injection H as <- <- <-.
  pose proof (disassemble_dicts_wf _ _ _ _ _ _ E) as [_ F].
  unfold disassemble_dict_of_dicts in E. cbn [foldM] in E.
  apply bind_ok in E as [acc [E1 E]]. injection E as ->. unfold disassemble_block_step in E1.
  apply bind_ok in E1 as [[d' i'] [_ E1]]. injection E1 as <- <-. cbn [fst sd_set] in *.
  exists d'. split; auto. inversion F; auto.
Qed.

Lemma one_block_tensor n d key r : one_block n d -> @extract_key A d key = Ok r -> exists t, r = OneTensor t.
Proof.
  intros [b9 [-> _]] E9. unfold extract_key in E9.
  cbn [fold_left fst snd sd_set List.length Nat.eqb sd_peek0 bind] in E9.
  apply bind_ok in E9 as [t9 [_ E9]]. injection E9 as <-. eauto.
Qed.

(** The stale dimension does not matter when the data are given as a tensor. *)
Lemma forward_scratch_tensor x st co p n b :
  (forall n b x0 ts, solve (set_data_dim n b) x0 ts = solve b x0 ts) ->
  snd (fwd x st co None (scratch p n b)) = snd (fwd x st co None b).
Proof.
  intro HS. rewrite !forward_split.
  assert (K : snd (forward_body zero ig has_attr rnd solve x st co None (scratch p n b))
            = snd (forward_body zero ig has_attr rnd solve x st co None b)).
  2:{ destruct (forward_body _ _ _ _ _ x st co None (scratch p n b)) as [b1 [o1|e1]],
               (forward_body _ _ _ _ _ x st co None b) as [b2 [o2|e2]]; cbn [snd] in K |- *; congruence. }
  rewrite !forward_body_rest.
  assert (G : snd ((stco <-- effective_pass_through zero ig has_attr rnd st co ;;;
      dz <-- effective_data ig x None ;;;
      xp <-- initial_conditions zero ig (fst dz) (fst stco) (snd stco) (snd dz) ;;;
      forward_rest ig solve xp) (scratch p n b)) =
     snd ((stco <-- effective_pass_through zero ig has_attr rnd st co ;;;
      dz <-- effective_data ig x None ;;;
      xp <-- initial_conditions zero ig (fst dz) (fst stco) (snd stco) (snd dz) ;;;
      forward_rest ig solve xp) b)).
  2:{ destruct x, st, co; try exact G; reflexivity. }
  rewrite !(mbind_at (effective_pass_through zero ig has_attr rnd st co)).
  rewrite (blind_effective zero ig has_attr rnd _ (scratch_inert p n) st co b).
  destruct (effective_pass_through _ _ _ _ st co b) as [b1 [[st' co']|e]]; cbn [fst snd] in *; [|reflexivity].
  rewrite !(mbind_at (effective_data ig x None)).
  rewrite (blind_data ig _ (scratch_inert p n) x None b1).
  unfold effective_data. destruct x as [x|]; [|reflexivity].
  destruct (ig_initial_data ig x) as [d|e]; cbn [bind fst snd]; [|reflexivity].
  rewrite !(mbind_at (initial_conditions zero ig _ _ _ _)).
  destruct (initial_conditions zero ig (sd_set (b_name b1) d []) st' co' false b1) as [b3 [[x0 ps]|e]] eqn:EI.
  - assert (EI' : initial_conditions zero ig (sd_set (b_name b1) d []) st' co' false (scratch p n b1)
                = (scratch p n b1, Ok (x0, ps))).
    { pose proof (initial_conditions_scratch zero ig (sd_set (b_name b1) d []) st' co' false p n b1) as S.
      pose proof (initial_conditions_x zero ig (sd_set (b_name b1) d []) st' co' false (scratch p n b1) (or_introl eq_refl)) as B.
      destruct (initial_conditions zero ig (sd_set (b_name b1) d []) st' co' false (scratch p n b1)) as [b4 r4].
      cbn [fst snd] in S, B. rewrite EI in S. cbn [snd] in S. subst. reflexivity. }
    rewrite EI'.
    assert (b3 = b1) as ->.
    { pose proof (initial_conditions_x zero ig (sd_set (b_name b1) d []) st' co' false b1 (or_introl eq_refl)) as B.
      rewrite EI in B. exact B. }
    destruct (initial_data_one _ _ _ _ _ _ _ EI) as [q Hq].
    unfold forward_rest. rewrite !(mbind_at (modify _)). unfold modify.
    set (b4 := set_plans (Some ps) b1).
    replace (set_plans (Some ps) (scratch p n b1)) with (set_data_dim n b4) by (destruct b1; reflexivity).
    rewrite !mbind_at.
    assert (IE : snd (integrate_and_disassemble ig solve x0 (set_data_dim n b4))
               = snd (integrate_and_disassemble ig solve x0 b4)).
    { unfold integrate_and_disassemble. cbn [snd].
      change (b_time_vec (set_data_dim n b4)) with (b_time_vec b4).
      change (b_time (set_data_dim n b4)) with (b_time b4).
      change (b_plans (set_data_dim n b4)) with (b_plans b4).
      destruct (b_time_vec b4); [rewrite HS; reflexivity|].
      destruct (b_time b4); [rewrite HS|]; reflexivity. }
    assert (OB : forall s c d r, snd (integrate_and_disassemble ig solve x0 b4) = Ok (s, c, d, r) ->
               one_block (b_name b1) d /\ exists t, r = OneTensor t).
    { intros s c d' r E. unfold integrate_and_disassemble in E. cbn [snd] in E.
      assert (X : forall input dim s c d' r,
         ('(s, c, d) <- disassemble_tensor input (b_plans b4) dim ;;
          res <- disassemble ig input (b_plans b4) dim ;; Ok (s, c, d, res)) = Ok (s, c, d', r) ->
         one_block (b_name b1) d' /\ exists t, r = OneTensor t).
      { clear -Hq. intros input dim s c d r E. change (b_plans b4) with (Some ps) in E.
        apply bind_ok in E as [[[s1 c1] d1] [E1 E]]. apply bind_ok in E as [r1 [E2 E]].
        injection E as <- <- <- <-. pose proof (disassemble_data_one _ _ _ _ _ _ _ _ Hq E1) as O.
        split; auto. unfold disassemble in E2. rewrite E1 in E2. cbn [bind] in E2.
        eapply one_block_tensor; eauto. }
      destruct (b_time_vec b4).
      - apply bind_ok in E as [all [_ E]]. eapply X; exact E.
      - destruct (b_time b4); [|discriminate]. apply bind_ok in E as [all [_ E]].
        apply bind_ok in E as [m [_ E]]. apply bind_ok in E as [f [_ E]]. eapply X; exact E. }
    unfold integrate_and_disassemble in *. cbn [snd] in IE, OB.
    rewrite IE.
    match goal with |- context [match ?m with Ok _ => _ | Raise _ => _ end] =>
      destruct m as [[[[s c] d'] r]|e'] eqn:EM end; [|reflexivity].
    destruct (OB _ _ _ _ eq_refl) as [[dd [-> Wd]] [t ->]].
    unfold finish_outputs. cbn [snd]. destruct (ig_concatenate ig); [|reflexivity].
    unfold concatenate_named. rewrite !concatenate_single by auto. reflexivity.
  - pose proof (initial_conditions_scratch zero ig (sd_set (b_name b1) d []) st' co' false p n b1) as S.
    rewrite EI in S. destruct (initial_conditions zero ig _ st' co' false (scratch p n b1)) as [b4 r4].
    cbn [snd] in S. subst. reflexivity.
Qed.

Lemma retry_after_failures os (b b' : block) vs x st co data :
  (forall n b x0 ts, solve (set_data_dim n b) x0 ts = solve b x0 ts) ->
  Forall (harmless_call ig b) os -> run os b = (b', vs) -> Forall (fun v => ~ forward_succeeded v) vs ->
  snd (fwd x st co data b') = snd (fwd x st co data b).
Proof.
  intros HS F E V. destruct (failed_history zero ig has_attr rnd solve _ _ _ _ F E V) as [p [n [-> N]]].
  destruct data as [data|]; [|apply forward_scratch_tensor; auto].
  apply forward_scratch. destruct (b_state b) eqn:ES; [right; split; discriminate|left; auto].
Qed.

Lemma executed_independent os (b b' : block) vs x st co data :
  (forall n b x0 ts, solve (set_data_dim n b) x0 ts = solve b x0 ts) ->
  b_fresh b = false -> Forall is_call os -> run os b = (b', vs) ->
  snd (fwd x st co data b') = snd (fwd x st co data b).
Proof.
  intros HS F C E. destruct (executed_history _ _ _ _ F C E) as [p [n [-> N]]].
  destruct data as [data|]; [|apply forward_scratch_tensor; auto].
  apply forward_scratch. destruct (b_state b) eqn:ES; [right; split; discriminate|left; auto].
Qed.
End Executed.

(** ** Keeping the state at zero *)
Lemma keep_zero_fails {A} has_attr name k (t : tensor A) s costate enlarge free names max_time dim :
  new_block has_attr name (Some ((k, t) :: s)) costate enlarge true false false free names max_time dim
  = Raise RuntimeError.
Proof. reflexivity. Qed.

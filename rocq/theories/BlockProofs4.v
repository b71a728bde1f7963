(** Proofs about the values forward returns. *)
From Coq Require Import List String Ascii Arith ZArith QArith Qcanon Lia Bool.
From Verif Require Import Base BaseFacts Tensor TensorFacts ScdModel ScdSpec ScdProofs ScdProofs2
  ScdProofs3 ScdProofs4 BlockModel BlockSpec BlockProofs BlockProofs2.
Import ListNotations.
Open Scope nat_scope.

Lemma disassemble_step_wf {A} (input : tensor A) dim p : forall acc r,
  sd_wf (fst acc) -> foldM (disassemble_step input dim) p acc = Ok r -> sd_wf (fst r).
Proof.
  induction p as [|[k sh] p IH]; intros [acc incr] r W E; cbn [foldM] in E.
  - injection E as <-. exact W.
  - apply bind_ok in E as [acc' [E1 E]]. apply IH in E; auto.
    unfold disassemble_step in E1. destruct (Z.eqb dim 0).
    + apply bind_ok in E1 as [len [_ E1]]. apply bind_ok in E1 as [sl [_ E1]].
      apply bind_ok in E1 as [v [_ E1]]. injection E1 as <-. apply sd_set_wf. exact W.
    + destruct (Z.eqb dim 1); [|discriminate]. apply bind_ok in E1 as [fd [_ E1]].
      apply bind_ok in E1 as [len [_ E1]]. apply bind_ok in E1 as [sl [_ E1]].
      apply bind_ok in E1 as [v [_ E1]]. injection E1 as <-. apply sd_set_wf. exact W.
Qed.

Lemma disassemble_dict_wf {A} (input : tensor A) p dim incr d i :
  disassemble_dict input p dim incr = Ok (d, i) -> sd_wf d.
Proof. intro E. apply disassemble_step_wf in E; [exact E|apply sd_wf_nil]. Qed.

Lemma disassemble_dicts_wf {A} (input : tensor A) ps dim incr d i :
  disassemble_dict_of_dicts input ps dim incr = Ok (d, i) ->
  sd_wf d /\ Forall (fun kd => sd_wf (snd kd)) d.
Proof.
  unfold disassemble_dict_of_dicts.
  assert (G : forall (acc : sdict (sdict (tensor A)) * nat) r,
    sd_wf (fst acc) -> Forall (fun kd => sd_wf (snd kd)) (fst acc) ->
    foldM (disassemble_block_step input dim) ps acc = Ok r ->
    sd_wf (fst r) /\ Forall (fun kd => sd_wf (snd kd)) (fst r)).
  { induction ps as [|[k p] ps IH]; intros acc r W F E; cbn [foldM] in E.
    - injection E as <-. auto.
    - apply bind_ok in E as [acc' [E1 E]]. unfold disassemble_block_step in E1.
      apply bind_ok in E1 as [[d' i'] [E2 E1]]. injection E1 as <-. apply IH in E; auto.
      + apply sd_set_wf; auto.
      + apply Forall_sd_set; auto. simpl. eapply disassemble_dict_wf; eauto. }
  intro E. apply G in E; [exact E|apply sd_wf_nil|constructor].
Qed.

Lemma disassemble_tensor_wf {A} (input : tensor A) ps dim s c d :
  disassemble_tensor input ps dim = Ok (s, c, d) -> sd_wf s /\ sd_wf c /\ sd_wf d.
Proof.
  unfold disassemble_tensor. destruct (negb _); [discriminate|]. destruct ps as [ps|]; [|discriminate].
  intro H. apply bind_ok in H as [[s1 i1] [H1 H]]. apply bind_ok in H as [[c1 i2] [H2 H]].
  apply bind_ok in H as [[d1 i3] [H3 H]]. injection H as <- <- <-.
  repeat split; eapply disassemble_dicts_wf; eauto.
Qed.

Definition extracted_at {A} (i : nat) (o o1 : @extracted A) : Prop :=
  match o, o1 with
  | OneTensor t, OneTensor u => tselect i t = Ok u
  | ManyBlocks d, ManyBlocks e => at_time i d e
  | _, _ => False
  end.

Lemma dict_rel_get {V W} (R : V -> W -> Prop) d e k : dict_rel R d e ->
  match sd_get k d, sd_get k e with
  | Some v, Some w => R v w
  | None, None => True
  | _, _ => False
  end.
Proof.
  intro H. induction H as [|[k1 v] [k2 w] d e [E Rv] _ IH]; simpl; auto.
  simpl in E, Rv. subst k2. destruct (String.eqb k k1); auto.
Qed.

Lemma extract_key_at {A} i (d d' : sdict (sdict (tensor A))) key r :
  sd_wf d -> sd_wf d' -> at_time i d d' -> extract_key d key = Ok r ->
  exists r', extract_key d' key = Ok r' /\ extracted_at i r r'.
Proof.
  intros W W' H E. rewrite extract_key_spec in E by auto.
  rewrite extract_key_spec by auto.
  assert (M : dict_rel (dict_rel (fun t u : tensor A => tselect i t = Ok u))
     (map (fun kd => (fst kd, only key (snd kd))) d) (map (fun kd => (fst kd, only key (snd kd))) d')).
  { clear -H. induction H as [|[n b] [n' b'] d d' [E Hb] _ IH]; simpl; constructor; auto.
    simpl in *. split; auto. pose proof (dict_rel_get _ _ _ key Hb) as G. unfold only.
    destruct (sd_get key b), (sd_get key b'); try tauto; constructor; auto. }
  destruct d as [|[n b] [|x d]].
  - inversion H; subst. injection E as <-. eexists; split; [reflexivity|]. exact M.
  - inversion H as [|? [n' b'] ? ? [En Hb] H0]; subst. inversion H0; subst. simpl in *.
    pose proof (dict_rel_get _ _ _ key Hb) as G.
    destruct (sd_get key b); [|discriminate]. destruct (sd_get key b'); [|tauto].
    injection E as <-. eexists; split; [reflexivity|]. exact G.
  - injection E as <-. inversion H as [|? y ? d1 ? H0]; subst.
    inversion H0 as [|? z ? d2 ? ?]; subst. destruct y. eexists; split; [reflexivity|]. exact M.
Qed.

Lemma tselect_single {A} (row : tensor A) : twf row ->
  tselect 0 (mkT (1 :: tshape row) (tdata row)) = Ok row.
Proof.
  intro W. assert (W' : twf (mkT (1 :: tshape row) (tdata row))).
  { unfold twf in *. simpl. lia. }
  destruct (tselect_ok 0 _ 1 (tshape row) W' eq_refl) as [r [E [Wr [S G]]]]; [lia|].
  rewrite E. f_equal. apply tensor_ext; auto. intros idx V. rewrite S in V. rewrite G by auto.
  unfold tget. simpl. destruct (ravel (tshape row) idx) eqn:R; simpl; auto.
Qed.

(** ** Concatenating one block *)
Lemma concatenate_single {A} n (d : sdict (tensor A)) dim : sd_wf d ->
  concatenate_dict_of_dicts [(n, d)] dim = Ok d.
Proof.
  intro W. unfold concatenate_dict_of_dicts. cbn [foldM snd].
  assert (G : forall pre post, d = pre ++ post -> foldM (concatenate_step dim) post pre = Ok d).
  { intros pre post; revert pre. induction post as [|[k t] post IH]; intros pre E; simpl.
    - rewrite app_nil_r in E. subst. reflexivity.
    - subst d. assert (N : sd_get k pre = None).
      { apply sd_get_none. apply sd_wf_NoDup in W. unfold keys in *. rewrite map_app in W. simpl in W.
        apply NoDup_remove_2 in W. intro H. apply W. apply in_or_app. auto. }
      unfold concatenate_step. cbn [fst snd]. rewrite N. cbn [bind].
      assert (S : sd_set k t pre = pre ++ [(k, t)]).
      { apply sd_set_app_last. unfold sd_wf, keys in *. rewrite map_app in W. simpl in W.
        intros k' Hk. clear -W Hk. induction pre as [|[a v] pre IH]; simpl in *; [tauto|].
        inversion W as [|? ? W1 W2]; subst. destruct Hk as [->|Hk]; [|auto].
        rewrite Forall_forall in W2. apply W2. apply in_or_app. right. left. reflexivity. }
      rewrite S. apply IH. rewrite <- app_assoc. reflexivity. }
  rewrite (G [] d eq_refl). cbn [bind]. cbn [sd_peek0 bind]. rewrite Nat.eqb_refl. reflexivity.
Qed.

Section Forward.
Context {A : Type}.
Variable zero : A.
Variable ig : @integrand A.
Variable has_attr : string -> bool.
Variable rnd : nat -> nat -> A.
Notation block := (@block A).
Notation fwd := (forward zero ig has_attr rnd).
Notation tdicts := (sdict (sdict (tensor A))).

Definition plain (s c d : tdicts) (res : @extracted A) : @outputs A :=
  (match res with OneTensor t => RTensor t | ManyBlocks m => RBlocks m end, s, c, d).

Definition one_block (n : string) (d : tdicts) : Prop := exists b, d = [(n, b)] /\ sd_wf b.

Lemma finish_plain s c d res (b : block) :
  ig_concatenate ig = false \/
  (one_block (b_name b) s /\ one_block (b_name b) c /\ one_block (b_name b) d /\
   exists t, res = OneTensor t) ->
  finish_outputs ig (s, c, d, res) b = (b, Ok (plain s c d res)).
Proof.
  unfold finish_outputs, plain. intros [H|H].
  - rewrite H. reflexivity.
  - destruct H as ([s0 [-> Ws]] & [c0 [-> Wc]] & [d0 [-> Wd]] & [t ->]).
    destruct (ig_concatenate ig); [|reflexivity]. unfold concatenate_named.
    rewrite !concatenate_single by auto. reflexivity.
Qed.

Lemma disassemble_one n p1 p2 p3 (input : tensor A) dim s c d :
  disassemble_tensor input (Some (mkPlans [(n, p1)] [(n, p2)] [(n, p3)])) dim = Ok (s, c, d) ->
  one_block n s /\ one_block n c /\ one_block n d.
Proof.
  unfold disassemble_tensor. destruct (negb _); [discriminate|].
  assert (G : forall p incr r, disassemble_dict_of_dicts input [(n, p)] dim incr = Ok r -> one_block n (fst r)).
  { intros p incr [d0 i] E. pose proof (disassemble_dicts_wf _ _ _ _ _ _ E) as [_ F].
    unfold disassemble_dict_of_dicts in E. cbn [foldM] in E.
    apply bind_ok in E as [acc [E1 E]]. injection E as ->. unfold disassemble_block_step in E1.
    apply bind_ok in E1 as [[d' i'] [_ E1]]. injection E1 as <- <-. cbn [fst sd_set] in *.
    exists d'. split; auto. inversion F; auto. }
  cbn [state_plans costate_plans data_plans].
  intro H. apply bind_ok in H as [[s1 i1] [H1 H]]. apply bind_ok in H as [[c1 i2] [H2 H]].
  apply bind_ok in H as [[d1 i3] [H3 H]]. injection H as <- <- <-.
  apply G in H1. apply G in H2. apply G in H3. auto.
Qed.

Lemma assemble_one n (g : sdict (tensor A)) v :
  fst (assemble_generic_dict_of_dicts [(n, g)]) = Some v ->
  exists p, snd (assemble_generic_dict_of_dicts [(n, g)]) = [(n, p)].
Proof.
  unfold assemble_generic_dict_of_dicts. cbn [fold_left snd fst].
  destruct (assemble_generic_dict g) as [[r|] [q|]]; try discriminate. intros _. exists q. reflexivity.
Qed.

Lemma initial_one d (b b' : block) x0 ps :
  initial_conditions zero ig (sd_set (b_name b) d []) None None false b = (b', Ok (x0, ps)) ->
  exists p1 p2 p3, ps = mkPlans [(b_name b, p1)] [(b_name b, p2)] [(b_name b, p3)].
Proof.
  unfold initial_conditions, mbind, lift, ret. unfold merge_dict. cbn [sd_set].
  intro E. injection E as _ E. unfold assemble_tensor in E.
  pose proof (fun v => assemble_one (b_name b) d v) as P3.
  destruct (b_state b) as [s|]; destruct (b_costate b) as [c|];
    try (change (assemble_generic_dict_of_dicts (@nil (string * sdict (tensor A))))
           with (@None (list A), @nil (string * plan)) in E;
         repeat match type of E with
                | context [assemble_generic_dict_of_dicts ?q] =>
                    destruct (assemble_generic_dict_of_dicts q) as [[?|] ?]
                end; discriminate E).
  pose proof (fun v => assemble_one (b_name b) s v) as P1.
  pose proof (fun v => assemble_one (b_name b) c v) as P2.
  destruct (assemble_generic_dict_of_dicts [(b_name b, s)]) as [[v1|] q1].
  2:{ destruct (assemble_generic_dict_of_dicts [(b_name b, c)]), (assemble_generic_dict_of_dicts [(b_name b, d)]); discriminate E. }
  destruct (assemble_generic_dict_of_dicts [(b_name b, c)]) as [[v2|] q2].
  2:{ destruct (assemble_generic_dict_of_dicts [(b_name b, d)]); discriminate E. }
  destruct (assemble_generic_dict_of_dicts [(b_name b, d)]) as [[v3|] q3]; [|discriminate].
  injection E as _ <-. cbn [fst snd] in *.
  destruct (P1 v1 eq_refl) as [p1 ->]. destruct (P2 v2 eq_refl) as [p2 ->]. destruct (P3 v3 eq_refl) as [p3 ->].
  eauto.
Qed.

(** The stages of a successful forward call. *)
Lemma forward_ok_inv solve x st co data (b b' : block) o :
  fwd solve x st co data b = (b', Ok o) ->
  (st = None <-> co = None) /\ (x <> None \/ st <> None) /\
  exists b1 st' co' d z b2 x0 ps r,
    effective_pass_through zero ig has_attr rnd st co b = (b1, Ok (st', co')) /\
    effective_data ig x data b1 = (b1, Ok (d, z)) /\
    initial_conditions zero ig d st' co' z b1 = (b2, Ok (x0, ps)) /\
    snd (integrate_and_disassemble ig solve x0 (set_plans (Some ps) b2)) = Ok r /\
    snd (finish_outputs ig r (set_plans (Some ps) b2)) = Ok o /\
    b' = set_fresh false (set_plans (Some ps) b2).
Proof.
  intro E. rewrite forward_split in E.
  destruct (forward_body zero ig has_attr rnd solve x st co data b) as [b9 [o9|]] eqn:EB; [|discriminate].
  injection E as <- <-. rewrite forward_body_rest in EB.
  assert (G : (stco <-- effective_pass_through zero ig has_attr rnd st co ;;;
      dz <-- effective_data ig x data ;;;
      xp <-- initial_conditions zero ig (fst dz) (fst stco) (snd stco) (snd dz) ;;;
      forward_rest ig solve xp) b = (b9, Ok o9)).
  { destruct x, st, co; try exact EB; discriminate. }
  split. { destruct x, st, co; try discriminate EB; split; congruence. }
  split. { destruct x, st, co; try discriminate EB; try (left; discriminate); right; discriminate. }
  clear EB. rewrite mbind_at in G.
  destruct (effective_pass_through zero ig has_attr rnd st co b) as [b1 [[st' co']|]] eqn:E1; [|discriminate].
  rewrite mbind_at in G.
  assert (ED : fst (effective_data ig x data b1) = b1).
  { unfold effective_data. destruct x, data; reflexivity. }
  destruct (effective_data ig x data b1) as [b1' [[d z]|]] eqn:E2; [|discriminate]. cbn [fst] in ED. subst b1'.
  rewrite mbind_at in G. cbn [fst snd] in G.
  destruct (initial_conditions zero ig d st' co' z b1) as [b2 [[x0 ps]|]] eqn:E3; [|discriminate].
  unfold forward_rest in G. rewrite mbind_at in G. unfold modify in G. rewrite mbind_at in G.
  destruct (integrate_and_disassemble ig solve x0 (set_plans (Some ps) b2)) as [b3 [r|]] eqn:E4; [|discriminate].
  assert (b3 = set_plans (Some ps) b2) as ->.
  { unfold integrate_and_disassemble in E4. injection E4 as <- _. reflexivity. }
  assert (b9 = set_plans (Some ps) b2) as ->.
  { unfold finish_outputs in G. injection G as <- _. reflexivity. }
  exists b1, st', co', d, z, b2, x0, ps, r. repeat split; auto.
  - rewrite E4. reflexivity.
  - rewrite G. reflexivity.
Qed.

Lemma forward_ok_intro solve x st co data (b : block) o b1 st' co' d z b2 x0 ps r :
  (st = None <-> co = None) -> (x <> None \/ st <> None) ->
  effective_pass_through zero ig has_attr rnd st co b = (b1, Ok (st', co')) ->
  effective_data ig x data b1 = (b1, Ok (d, z)) ->
  initial_conditions zero ig d st' co' z b1 = (b2, Ok (x0, ps)) ->
  snd (integrate_and_disassemble ig solve x0 (set_plans (Some ps) b2)) = Ok r ->
  snd (finish_outputs ig r (set_plans (Some ps) b2)) = Ok o ->
  fwd solve x st co data b = (set_fresh false (set_plans (Some ps) b2), Ok o).
Proof.
  intros H1 H2 E1 E2 E3 E4 E5. rewrite forward_split, forward_body_rest.
  assert (G : (stco <-- effective_pass_through zero ig has_attr rnd st co ;;;
      dz <-- effective_data ig x data ;;;
      xp <-- initial_conditions zero ig (fst dz) (fst stco) (snd stco) (snd dz) ;;;
      forward_rest ig solve xp) b = (set_plans (Some ps) b2, Ok o)).
  { rewrite mbind_at, E1, mbind_at, E2, mbind_at. cbn [fst snd]. rewrite E3. unfold forward_rest.
    rewrite mbind_at. unfold modify. rewrite mbind_at.
    assert (I4 : integrate_and_disassemble ig solve x0 (set_plans (Some ps) b2) = (set_plans (Some ps) b2, Ok r)).
    { rewrite <- E4. reflexivity. }
    rewrite I4. rewrite <- E5. unfold finish_outputs. reflexivity. }
  destruct x, st, co; rewrite ?G; auto;
    try (exfalso; destruct H1 as [H1 H1']; (discriminate (H1 eq_refl) || discriminate (H1' eq_refl))).
  exfalso. destruct H2; congruence.
Qed.

Lemma integrate_vector solve x0 ts (b : block) : b_time_vec b = Some ts ->
  snd (integrate_and_disassemble ig solve x0 b) =
  (all <- solve b x0 ts ;;
   '(s, c, d) <- disassemble_tensor all (b_plans b) 1 ;;
   res <- disassemble ig all (b_plans b) 1 ;;
   Ok (s, c, d, res)).
Proof. intro H. unfold integrate_and_disassemble. rewrite H. reflexivity. Qed.

Lemma integrate_scalar solve x0 t (b : block) : b_time_vec b = None -> b_time b = Some t ->
  snd (integrate_and_disassemble ig solve x0 b) =
  (all <- solve b x0 [Q2Qc 0; t] ;;
   n <- list_item (tshape all) 0 ;;
   final <- (if n =? 0 then Raise IndexError else tselect (n - 1) all) ;;
   '(s, c, d) <- disassemble_tensor final (b_plans b) 0 ;;
   res <- disassemble ig final (b_plans b) 0 ;;
   Ok (s, c, d, res)).
Proof. intros H1 H2. unfold integrate_and_disassemble. rewrite H1, H2. reflexivity. Qed.

(** ** C63 *)
Lemma time_vector_slices solve x st co data (b b' : block) ts t i s c d o :
  b_time_vec b = Some ts -> i < List.length ts ->
  (forall b x0 all, solve b x0 ts = Ok all ->
     twf all /\ exists n, tshape all = [List.length ts; n]) ->
  ig_concatenate ig = false \/ (st = None /\ data = None) ->
  fwd solve x st co data b = (b', Ok (o, s, c, d)) ->
  b_time b = None ->
  exists o1 s1 c1 d1,
    snd (fwd (at_index i ts solve) x st co data (set_times (Some t) None b)) = Ok (o1, s1, c1, d1) /\
    output_at i o o1 /\ at_time i s s1 /\ at_time i c c1 /\ at_time i d d1.
Proof.
  intros TV Hi HS HC E TN.
  destruct (forward_ok_inv _ _ _ _ _ _ _ _ E)
    as (C1 & C2 & b1 & st' & co' & dd & z & b2 & x0 & ps & r & E1 & E2 & E3 & E4 & E5 & _).
  set (f := set_times (A := A) (Some t) None).
  assert (IF : inert f) by apply set_times_inert.
  assert (F1 : effective_pass_through zero ig has_attr rnd st co (f b) = (f b1, Ok (st', co'))).
  { rewrite (blind_effective zero ig has_attr rnd f IF st co b), E1. reflexivity. }
  assert (F2 : effective_data ig x data (f b1) = (f b1, Ok (dd, z))).
  { rewrite (blind_data ig f IF x data b1), E2. reflexivity. }
  assert (F3 : initial_conditions zero ig dd st' co' z (f b1) = (f b2, Ok (x0, ps))).
  { rewrite (blind_initial_conditions zero ig f IF), E3; [reflexivity|]. intros n b0. destruct b0; reflexivity. }
  pose proof (effective_pass_through_static zero ig has_attr rnd st co b) as S1. rewrite E1 in S1.
  pose proof (initial_conditions_static zero ig dd st' co' z b1) as S2. rewrite E3 in S2. cbn [fst] in S1, S2.
  assert (S : same_static b b2) by (eapply (proj2 same_static_preorder); eauto).
  destruct S as (SN & _ & _ & _ & _ & _ & ST & SV).
  rewrite (integrate_vector _ _ ts) in E4 by (simpl; congruence).
  change (b_plans (set_plans (Some ps) b2)) with (Some ps) in E4. apply bind_ok in E4 as [all [EA E4]].
  destruct (HS _ _ _ EA) as [W [n SH]].
  apply bind_ok in E4 as [[[s0 c0] d0] [ED E4]]. apply bind_ok in E4 as [res [ER E4]]. injection E4 as <-.
  destruct (disassemble_tensor_rows all (List.length ts) n i ps s0 c0 d0 W SH Hi ED)
    as (row & s1 & c1 & d1 & RW & DR & AS & AC & AD).
  unfold disassemble in ER. apply bind_ok in ER as [[[s2 c2] d2] [ED' ER]].
  rewrite ED in ED'. injection ED' as <- <- <-.
  destruct (disassemble_tensor_wf _ _ _ _ _ _ ED) as (_ & _ & Wd0).
  destruct (disassemble_tensor_wf _ _ _ _ _ _ DR) as (_ & _ & Wd1).
  destruct (extract_key_at i d0 d1 (ig_output_key ig) res Wd0 Wd1 AD ER) as [res1 [ER1 AR]].
  assert (WR : twf row /\ tshape row = [n]).
  { destruct (tselect_ok i all (List.length ts) [n] W SH Hi) as [r' [Er [Wr [Sr _]]]].
    rewrite RW in Er. injection Er as ->. auto. }
  destruct WR as [WR SR].
  assert (F4 : snd (integrate_and_disassemble ig (at_index i ts solve) x0 (set_plans (Some ps) (f b2)))
             = Ok (s1, c1, d1, res1)).
  { rewrite (integrate_scalar _ _ t) by reflexivity.
    change (b_plans (set_plans (Some ps) (f b2))) with (Some ps). unfold at_index.
    replace (set_times None (Some ts) (set_plans (Some ps) (f b2))) with (set_plans (Some ps) b2).
    2:{ destruct b2; cbn in *; subst. rewrite TN, TV. reflexivity. }
    rewrite EA. cbn [bind]. rewrite RW. cbn [bind tshape list_item nth_error].
    unfold list_item. cbn [nth_error bind]. cbn [Nat.eqb Nat.sub]. rewrite tselect_single by auto. cbn [bind].
    rewrite DR. cbn [bind]. unfold disassemble. rewrite DR. cbn [bind]. rewrite ER1. reflexivity. }
  assert (P : ig_concatenate ig = false \/
     (one_block (b_name b2) s0 /\ one_block (b_name b2) c0 /\ one_block (b_name b2) d0 /\ (exists t, res = OneTensor t)) /\
     (one_block (b_name b2) s1 /\ one_block (b_name b2) c1 /\ one_block (b_name b2) d1 /\ (exists t, res1 = OneTensor t))).
  { destruct HC as [HC|[-> ->]]; [left; exact HC|]. right.
    assert (co = None) by (apply C1; reflexivity). subst co.
    unfold effective_pass_through, ret in E1. injection E1 as <- <- <-.
    destruct x as [x|]; [|destruct C2; congruence].
    unfold effective_data in E2. injection E2 as E2. apply bind_ok in E2 as [dx [_ E2]]. injection E2 as <- <-.
    assert (N1 : b_name b2 = b_name b) by auto.
    destruct (initial_one _ _ _ _ _ E3) as (p1 & p2 & p3 & ->). rewrite N1.
    destruct (disassemble_one _ _ _ _ _ _ _ _ _ ED) as (O1 & O2 & O3).
    destruct (disassemble_one _ _ _ _ _ _ _ _ _ DR) as (Q1 & Q2 & Q3).
    assert (OT : forall d0 res, one_block (b_name b) d0 -> extract_key d0 (ig_output_key ig) = Ok res ->
              exists t, res = OneTensor t).
    { intros d9 res9 [b9 [-> _]] E9. unfold extract_key in E9. cbn [fold_left fst snd sd_set List.length Nat.eqb sd_peek0 bind] in E9.
      apply bind_ok in E9 as [t9 [_ E9]]. injection E9 as <-. eauto. }
    split.
    - split; [exact O1|split; [exact O2|split; [exact O3|exact (OT _ _ O3 ER)]]].
    - split; [exact Q1|split; [exact Q2|split; [exact Q3|exact (OT _ _ Q3 ER1)]]]. }
  assert (FO : snd (finish_outputs ig (s0, c0, d0, res) (set_plans (Some ps) b2)) = Ok (plain s0 c0 d0 res)).
  { rewrite finish_plain; [reflexivity|]. destruct P as [P|[P _]]; auto. }
  rewrite FO in E5. injection E5 as <- <- <- <-.
  assert (F5 : snd (finish_outputs ig (s1, c1, d1, res1) (set_plans (Some ps) (f b2))) = Ok (plain s1 c1 d1 res1)).
  { rewrite finish_plain; [reflexivity|]. destruct P as [P|[_ P]]; auto. }
  pose proof (forward_ok_intro _ _ _ _ _ _ _ _ _ _ _ _ _ _ _ _ C1 C2 F1 F2 F3 F4 F5) as FF.
  rewrite FF. cbn [snd]. unfold plain. do 4 eexists. split; [reflexivity|].
  split; [|auto]. destruct res, res1; simpl in AR |- *; tauto.
Qed.
End Forward.

(** Proofs about the norm penalty, the parameters of an integration, assembly plans, transposition and
    externally managed parameters. *)
From Coq Require Import List String ZArith QArith Qcanon Bool Lia Sorting.Sorted.
From Verif Require Import Base BaseFacts Tensor ScdModel ParamFuncModel IntegrandModel IntegrandSpec
  IntegrandProofs.
Import ListNotations.
Open Scope nat_scope.

Section Proofs.
Context {A P E H C : Type}.
Notation iop := (@iop A P H C).
Notation iobs := (@iobs A P).
Notation istate := (@istate A P E H C).
Notation model := (@model A P E H C).
Notation tdict := (sdict (tensor A)).
Notation tdicts := (sdict (sdict (tensor A))).
Variable m : model.

Lemma lagrangian_parameters_ok t st co s s' p : lagrangian_parameters m t st co s = (s', Ok p) ->
  (s_rnn_mode s = true -> s_external s = false -> s_rnn s <> None) ->
  s' = s /\ (s_rnn_mode s = true -> s_external s = false).
Proof.
  unfold lagrangian_parameters. intros X N. destruct (s_rnn_mode s).
  - destruct (s_external s); [destruct (s_func s); discriminate|].
    destruct (s_rnn s); [injection X as <- <-; auto|]. exfalso. exact (N eq_refl eq_refl eq_refl).
  - injection X as <- _. split; [reflexivity|discriminate].
Qed.

Lemma core_ok t st co da s s' dst dco dda p :
  core m t st co da s = (s', Ok (dst, dco, dda, p)) ->
  exists s1 te, current_parameters t (compute_of m t st co) s = (s1, Ok p) /\
    (te = t \/ te = 0%Qc) /\
    update_penalty m t te p st co s1 = (s', Ok tt) /\
    rhs_state m t st p (m_concat_dim m) = Ok dst /\
    rhs_state m t da p (s_data_dim s) = Ok dda.
Proof.
  unfold core, compute_of. destruct (m_analytic m) eqn:AN.
  - unfold compute_gradients_analytic. intro X.
    destruct (_ || _) eqn:LN; [discriminate|].
    apply mbind_ok in X. destruct X as (s0 & sd & X0 & X). injection X0 as <- SD.
    apply mbind_ok in X. destruct X as (s0 & cd & X0 & X). injection X0 as <- CD.
    apply mbind_ok in X. destruct X as (s1 & p1 & X1 & X).
    apply mbind_ok in X. destruct X as (s2 & u & X2 & X).
    apply mbind_ok in X. destruct X as (s3 & dst1 & X3 & X). injection X3 as <- X3.
    apply mbind_ok in X. destruct X as (s3 & dda1 & X4 & X). injection X4 as <- X4.
    apply mbind_ok in X. destruct X as (s3 & dco1 & X5 & X). injection X5 as <- X5.
    injection X as <- <- <- <- <-.
    exists s1, t. rewrite SD. cbn [bind]. rewrite CD. cbn [bind]. split; [exact X1|]. split; [auto|].
    destruct u. split; [exact X2|]. split; [exact X3|].
    apply current_parameters_spec in X1. destruct X1 as ((_ & _ & _ & _ & _ & _ & D1) & _).
    apply update_penalty_spec in X2; auto. destruct X2 as ((_ & _ & _ & _ & _ & _ & D2) & _).
    rewrite <- D1, <- D2. exact X4.
  - unfold compute_gradients_autodiff. intro X.
    apply mbind_ok in X. destruct X as (s1 & p1 & X1 & X).
    apply mbind_ok in X. destruct X as (s2 & u & X2 & X).
    apply mbind_ok in X. destruct X as (s3 & dst1 & X3 & X). injection X3 as <- X3.
    apply mbind_ok in X. destruct X as (s3 & dda1 & X4 & X). injection X4 as <- X4.
    apply mbind_ok in X. destruct X as (s3 & dco1 & X5 & X).
    injection X as <- <- <- <- <-.
    unfold rhs_costate_autodiff in X5.
    apply mbind_ok in X5. destruct X5 as (s4 & q & L & X5).
    assert (s3 = s4).
    { apply mbind_ok in X5. destruct X5 as (? & ? & Y & X5). injection Y as <- _.
      apply mbind_ok in X5. destruct X5 as (? & ? & Y & X5). injection Y as <- _.
      apply mbind_ok in X5. destruct X5 as (? & ? & Y & X5). injection Y as <- _.
      apply mbind_ok in X5. destruct X5 as (? & ? & Y & X5). injection Y as <- _.
      injection X5 as <- _. reflexivity. }
    subst s4.
    pose proof (current_parameters_spec _ _ _ _ _ X1) as (F1 & _ & _ & PS).
    destruct u. pose proof (update_penalty_spec m t 0%Qc p1 st co s1 s2 (Ok tt) (or_intror eq_refl) X2) as (F2 & _ & RN & _).
    destruct (lagrangian_parameters_ok t st co s2 s3 q L) as [-> _].
    { intros RM EX. destruct F1 as (_ & _ & _ & R1 & E1 & _). destruct F2 as (_ & _ & _ & R2 & E2 & _).
      rewrite R2, R1 in RM. rewrite E2, E1 in EX. unfold params_step in PS. rewrite RM, EX in PS.
      destruct PS as [PS _]. rewrite RN, PS. discriminate. }
    exists s1, 0%Qc. split; [exact X1|]. split; [auto|]. split; [exact X2|]. split; [exact X3|].
    destruct F1 as (_ & _ & _ & _ & _ & _ & D1). destruct F2 as (_ & _ & _ & _ & _ & _ & D2).
    rewrite <- D1, <- D2. exact X4.
Qed.

(** The effect of a successful evaluation. *)
Lemma eval_ok t st co da s s' dst dco dda p :
  compute_gradients m t st co da s = (s', Ok (dst, dco, dda, p)) ->
  frame s s' /\ params_step t (compute_of m t st co) s s' p /\
  (if qeq t 0%Qc then
     exists e, s_penalty s' = Some e /\
       if s_external s then exists f, s_func s' = Some f /\ mean_energy m t (pf_params f) = Ok e
       else m_kinetic m 0%Qc p (Some (st, co)) = Ok e
   else s_penalty s' = s_penalty s).
Proof.
  rewrite compute_gradients_core. intro X.
  destruct (core m t st co da s) as [s1 [[[[a b] c] q]|e]] eqn:K; [|discriminate].
  destruct (run_hooks m _ _ s1) as [s2 [u|e]] eqn:R; [|discriminate].
  injection X as <- <- <- <- <-.
  apply run_hooks_spec in R. destruct R as (F3 & P3 & N3 & G3 & _).
  apply core_ok in K. destruct K as (s0 & te & CP & TE & UP & _ & _).
  apply current_parameters_spec in CP. destruct CP as (F1 & _ & P1 & PS).
  apply update_penalty_spec in UP; [|exact TE]. destruct UP as (F2 & _ & N2 & G2 & PE).
  split; [eapply frame_trans; [exact F1|]; eapply frame_trans; eauto|]. split.
  - unfold params_step in *. rewrite N3, N2, G3, G2. exact PS.
  - unfold penalty_step in PE. destruct F1 as (_ & _ & _ & _ & E1 & _). rewrite E1 in PE.
    destruct (qeq t 0%Qc).
    + destruct PE as (e & PE & K). exists e. rewrite P3. split; [exact PE|].
      destruct (s_external s); [|exact K]. destruct K as (f & Hf & K). exists f. rewrite G3, G2. auto.
    + rewrite P3, PE. exact P1.
Qed.

(** Operations within an integration other than evaluations leave penalty, parameters and mode alone. *)
Definition mode (s : istate) := (s_rnn_mode s, s_external s).

Lemma within_other o s : within o -> ~ evaluates o ->
  let s' := fst (run_iop m o s) in
  s_penalty s' = s_penalty s /\ s_rnn s' = s_rnn s /\ s_func s' = s_func s /\ mode s' = mode s.
Proof. destruct o; simpl; intros W N; try tauto; repeat split. Qed.

Lemma eval_mode t st co da s : mode (fst (compute_gradients m t st co da s)) = mode s.
Proof.
  pose proof (compute_gradients_frame m t st co da s) as (_ & _ & _ & R & X & _).
  unfold mode. rewrite R, X. reflexivity.
Qed.

Lemma within_mode o s : within o -> mode (fst (run_iop m o s)) = mode s.
Proof.
  intro W. destruct o; simpl in W; try tauto; try reflexivity.
  simpl. pose proof (eval_mode t st co da s) as X. destruct (compute_gradients m t st co da s). exact X.
Qed.

Lemma run_mode os : forall s, Forall within os -> mode (fst (run_iops m os s)) = mode s.
Proof.
  induction os as [|o os IH]; intros s W; [reflexivity|].
  inversion W; subst. simpl. pose proof (within_mode o s H2) as X.
  destruct (run_iop m o s) as [s1 x]. specialize (IH s1 H3).
  destruct (run_iops m os s1) as [s2 xs]. simpl in *. congruence.
Qed.

(** ** Norm penalty *)
Lemma penalty_kept os : forall s,
  Forall within os -> Forall (fun o => ~ at_zero o) os -> Forall succeeded (snd (run_iops m os s)) ->
  s_penalty (fst (run_iops m os s)) = s_penalty s.
Proof.
  induction os as [|o os IH]; intros s W Z S; [reflexivity|].
  inversion W; subst. inversion Z; subst. simpl in *.
  destruct (run_iop m o s) as [s1 x] eqn:R.
  specialize (IH s1 H3 H5). destruct (run_iops m os s1) as [s2 xs] eqn:RR. simpl in *.
  inversion S; subst. rewrite IH by auto.
  destruct o; simpl in *; try tauto; try (injection R as <- <-; reflexivity).
  destruct (compute_gradients m t st co da s) as [s3 r] eqn:G. injection R as -> <-.
  destruct r as [[[[dst dco] dda] p]|e]; [|contradiction].
  apply eval_ok in G. destruct G as (_ & _ & G).
  destruct (qeq t 0%Qc) eqn:Q; [|exact G]. apply qeq_eq in Q. contradiction.
Qed.

Lemma run_split pre o post s :
  let r1 := run_iops m pre s in let r2 := run_iop m o (fst r1) in let r3 := run_iops m post (fst r2) in
  run_iops m (pre ++ o :: post) s = (fst r3, snd r1 ++ snd r2 :: snd r3).
Proof.
  cbv zeta. rewrite run_iops_app. destruct (run_iops m pre s) as [s1 x1]. simpl.
  destruct (run_iop m o s1) as [s2 x2]. simpl. destruct (run_iops m post s2). reflexivity.
Qed.

Lemma reset_state s : s_penalty (fst (reset s)) = None /\ mode (fst (reset s)) = mode s /\
  s_func (fst (reset s)) = s_func s /\ (s_external s = false -> s_rnn (fst (reset s)) = None).
Proof. unfold reset, mode. simpl. destruct (s_external s) eqn:X; simpl; rewrite ?X; repeat split; intro; congruence. Qed.

Lemma penalty_none s os : Forall within os -> Forall (fun o => ~ at_zero o) os ->
  let r := run_iops m os (fst (reset s)) in
  Forall succeeded (snd r) -> s_penalty (fst r) = None.
Proof. intros W Z r S. unfold r. rewrite penalty_kept; auto. apply reset_state. Qed.

Lemma foldM_mean t ps : forall acc e,
  foldM (fun acc p => x <- m_kinetic m t p None ;; Ok (m_add m acc x)) ps acc = Ok e ->
  exists es, Forall2 (fun p e => m_kinetic m t p None = Ok e) ps es /\ e = fold_left (m_add m) es acc.
Proof.
  induction ps as [|p ps IH]; intros acc e X; simpl in X.
  - injection X as <-. exists []. split; [constructor|reflexivity].
  - destruct (m_kinetic m t p None) as [x|] eqn:K; [|discriminate]. simpl in X.
    apply IH in X. destruct X as (es & F & ->). exists (x :: es). split; [constructor; auto|reflexivity].
Qed.

(** The managed parameters do not change. *)
Lemma get_parameters_params (f f' : @param_func P) t p :
  get_parameters_at_time f t = Ok (p, f') -> pf_params f' = pf_params f.
Proof.
  unfold get_parameters_at_time. intro X.
  repeat match type of X with
         | (if ?b then _ else _) = _ => destruct b
         | bind ?r _ = Ok _ => destruct r as [?|] eqn:?; cbn [bind] in X; [|discriminate]
         | (let '(_, _) := ?q in _) = _ => destruct q
         end; try (injection X as <- <-; reflexivity); try discriminate.
Qed.

Definition params_of (s : istate) : list P := match s_func s with Some f => pf_params f | None => [] end.

Lemma params_of_kept os : forall s,
  Forall within os -> Forall succeeded (snd (run_iops m os s)) ->
  params_of (fst (run_iops m os s)) = params_of s.
Proof.
  induction os as [|o os IH]; intros s W S; [reflexivity|].
  inversion W; subst. simpl in *.
  destruct (run_iop m o s) as [s1 x] eqn:R.
  specialize (IH s1 H3). destruct (run_iops m os s1) as [s2 xs] eqn:RR. simpl in *.
  inversion S; subst. rewrite IH by auto.
  destruct o; simpl in *; try tauto; try (injection R as <- <-; reflexivity).
  destruct (compute_gradients m t st co da s) as [s3 r] eqn:G. injection R as -> <-.
  destruct r as [[[[dst dco] dda] p]|e]; [|contradiction].
  apply eval_ok in G. destruct G as (_ & G & _). unfold params_step in G. unfold params_of.
  destruct (s_rnn_mode s).
  - destruct (s_external s).
    + destruct G as (f & f' & F & GP & F' & _). rewrite F, F'. apply get_parameters_params in GP. exact GP.
    + destruct G as (_ & -> & _). reflexivity.
  - destruct G as (_ & _ & ->). reflexivity.
Qed.

Lemma penalty_some s pre st co da post :
  let os := pre ++ IEval 0%Qc st co da :: post in
  Forall within os -> Forall (fun o => ~ at_zero o) post ->
  let r := run_iops m os (fst (reset s)) in
  Forall succeeded (snd r) ->
  exists p x e, nth_error (snd r) (List.length pre) = Some x /\ used x p /\
    s_penalty (fst r) = Some e /\
    if s_external s then mean_of m (params_of s) e
    else m_kinetic m 0%Qc p (Some (st, co)) = Ok e.
Proof.
  cbv zeta. intros W Z. rewrite run_split. cbn [fst snd].
  set (r1 := run_iops m pre (fst (reset s))). set (r2 := run_iop m (IEval 0%Qc st co da) (fst r1)).
  intro S. apply Forall_app in W. destruct W as [W1 W2]. inversion W2; subst.
  apply Forall_app in S. destruct S as [S1 S2]. inversion S2; subst.
  rewrite penalty_kept by auto.
  pose proof (run_mode pre (fst (reset s)) W1) as MO. fold r1 in MO.
  destruct (reset_state s) as (_ & MR & FR & _).
  pose proof (params_of_kept pre (fst (reset s)) W1) as PK. fold r1 in PK. specialize (PK S1).
  assert (L1 : List.length (snd r1) = List.length pre).
  { unfold r1. clear. generalize (fst (reset s)). induction pre as [|o pre IH]; intro s0; [reflexivity|].
    simpl. destruct (run_iop m o s0) as [s1 x]. specialize (IH s1). destruct (run_iops m pre s1). simpl in *. lia. }
  unfold r2 in *. unfold run_iop in *.
  destruct (compute_gradients m 0%Qc st co da (fst r1)) as [s3 r] eqn:G. cbn [fst snd] in *.
  destruct r as [[[[dst dco] dda] p]|e]; [|contradiction].
  pose proof (eval_ok _ _ _ _ _ _ _ _ _ _ G) as (_ & PS & PE). rewrite qeq_refl in PE.
  destruct PE as (e & PE & K). exists p, (OGradients (Ok (dst, dco, dda, p))), e.
  split; [rewrite nth_error_app2 by lia; rewrite L1, Nat.sub_diag; reflexivity|].
  split; [exists dst, dco, dda; reflexivity|]. split; [exact PE|].
  assert (EX : s_external (fst r1) = s_external s) by (unfold mode in *; congruence).
  rewrite EX in K. destruct (s_external s) eqn:ES; [|exact K].
  destruct K as (f & F & K). unfold mean_energy in K.
  destruct (foldM _ (pf_params f) (m_zero m)) as [sum|] eqn:FM; [|discriminate]. cbn [bind] in K. injection K as <-.
  apply foldM_mean in FM. destruct FM as (es & F2 & ->).
  assert (PP : params_of s3 = params_of (fst r1)).
  { unfold params_step in PS. unfold params_of. rewrite EX in PS.
    destruct (s_rnn_mode (fst r1)).
    - destruct PS as (g & g' & Fg & GP & Fg' & _). rewrite Fg, Fg'. apply get_parameters_params in GP. exact GP.
    - destruct PS as (_ & _ & ->). reflexivity. }
  assert (PQ : params_of (fst (reset s)) = params_of s) by (unfold params_of; rewrite FR; reflexivity).
  unfold params_of at 1 in PP. rewrite F in PP.
  exists es. rewrite <- PQ, <- PK, <- PP. auto.
Qed.

(** ** Parameters within an integration *)
Lemma compute_of_computed t st co da s s' dst dco dda p :
  compute_gradients m t st co da s = (s', Ok (dst, dco, dda, p)) ->
  compute_of m t st co = Ok p -> computed m t st co p.
Proof.
  unfold compute_of, computed. rewrite compute_gradients_core. unfold core.
  destruct (m_analytic m) eqn:AN; [|auto]. unfold compute_gradients_analytic.
  destruct (Nat.eqb (List.length st) 1) eqn:L1; [|discriminate].
  destruct (Nat.eqb (List.length co) 1) eqn:L2; [|discriminate].
  intros _ X. apply Nat.eqb_eq in L1, L2.
  destruct st as [|[n1 sd] [|]]; try discriminate. destruct co as [|[n2 cd] [|]]; try discriminate.
  exists n1, n2, sd, cd. auto.
Qed.

Lemma rnn_kept os : forall s q,
  Forall within os -> s_rnn_mode s = true -> s_external s = false -> s_rnn s = Some q ->
  Forall (fun x => forall p, used x p -> p = q) (snd (run_iops m os s)).
Proof.
  induction os as [|o os IH]; intros s q W RM EX RN; [constructor|].
  inversion W; subst. simpl.
  assert (ST : s_rnn_mode (fst (run_iop m o s)) = true /\ s_external (fst (run_iop m o s)) = false).
  { pose proof (within_mode o s H2) as X. unfold mode in X. split; congruence. }
  assert (RS : s_rnn (fst (run_iop m o s)) = Some q /\ forall p, used (snd (run_iop m o s)) p -> p = q).
  { destruct o; simpl in H2; try tauto;
      try (split; [exact RN|intros p (? & ? & ? & U); cbn in U; discriminate]).
    unfold run_iop. destruct (compute_gradients m t st co da s) as [s1 r] eqn:G. cbn [fst snd].
    split.
    - rewrite compute_gradients_core in G.
      assert (K : s_rnn (fst (core m t st co da s)) = Some q).
      { unfold core. destruct (m_analytic m).
        - unfold compute_gradients_analytic. destruct (_ || _); [exact RN|].
          unfold mbind, lift. destruct (first_block st); [|exact RN]. destruct (first_block co); [|exact RN].
          unfold current_parameters. rewrite RM, EX, RN.
          destruct (update_penalty m t t q st co s) as [s2 r2] eqn:U.
          apply update_penalty_spec in U; auto. destruct U as (_ & _ & U & _).
          destruct r2; [|simpl; congruence]. destruct (rhs_state _ _ _ _ _); [|simpl; congruence].
          destruct (rhs_state _ _ _ _ _); [|simpl; congruence].
          destruct (rhs_costate_analytic _ _ _ _ _ _); simpl; congruence.
        - unfold compute_gradients_autodiff. unfold mbind, lift.
          unfold current_parameters. rewrite RM, EX, RN.
          destruct (update_penalty m t 0%Qc q st co s) as [s2 r2] eqn:U.
          apply update_penalty_spec in U; auto. destruct U as ((_ & _ & _ & R2 & X2 & _) & _ & U & _).
          destruct r2; [|simpl; congruence]. destruct (rhs_state _ _ _ _ _); [|simpl; congruence].
          destruct (rhs_state _ _ _ _ _); [|simpl; congruence].
          unfold rhs_costate_autodiff, mbind, lift, lagrangian_parameters. rewrite R2, RM, X2, EX, U, RN.
          destruct (m_kinetic _ _ _ _); [|simpl; congruence]. destruct (rhs_state _ _ _ _ _); [|simpl; congruence].
          destruct (m_pair _ _ _); [|simpl; congruence]. destruct (m_grad _ _ _ _ _); [|simpl; congruence].
          destruct (extract_dict_of_dicts_from_tuple _ _ _); simpl; congruence. }
      destruct (core m t st co da s) as [s2 [[[[a b] c] q']|e]]; simpl in K.
      + destruct (run_hooks m _ _ s2) as [s3 r3] eqn:R. apply run_hooks_spec in R.
        destruct R as (_ & _ & R & _). destruct r3; injection G as <- _; congruence.
      + injection G as <- _. exact K.
    - intros p (a & b & c & U). injection U as ->.
      apply eval_ok in G. destruct G as (_ & PS & _). unfold params_step in PS. rewrite RM, EX, RN in PS.
      apply PS. }
  destruct (run_iop m o s) as [s1 x]. cbn [fst snd] in *. destruct ST as [S1 S2]. destruct RS as [S3 S4].
  specialize (IH s1 q H3 S1 S2 S3). destruct (run_iops m os s1) as [s2 xs]. constructor; auto.
Qed.

Lemma rnn_none pre : forall s, Forall within pre -> Forall (fun o => ~ evaluates o) pre ->
  s_rnn (fst (run_iops m pre s)) = s_rnn s.
Proof.
  induction pre as [|o pre IH]; intros s W N; [reflexivity|].
  inversion W; subst. inversion N; subst. simpl.
  pose proof (within_other o s H2 H4) as (_ & R & _). 
  destruct (run_iop m o s) as [s1 x]. simpl in R. specialize (IH s1 H3 H5).
  destruct (run_iops m pre s1). simpl in *. congruence.
Qed.

Lemma rnn_frozen s pre t st co da post :
  let os := pre ++ IEval t st co da :: post in
  Forall within os -> Forall (fun o => ~ evaluates o) pre ->
  s_rnn_mode s = true -> s_external s = false ->
  let r := run_iops m os (fst (reset s)) in
  forall x p, nth_error (snd r) (List.length pre) = Some x -> used x p ->
    computed m t st co p /\ Forall (fun y => forall q, used y q -> q = p) (snd r).
Proof.
  cbv zeta. intros W NE RM EX x p. rewrite run_split. cbn [fst snd].
  apply Forall_app in W. destruct W as [W1 W2]. inversion W2; subst.
  set (r1 := run_iops m pre (fst (reset s))).
  destruct (reset_state s) as (_ & MR & _ & RR). specialize (RR EX).
  pose proof (run_mode pre (fst (reset s)) W1) as MO. fold r1 in MO.
  assert (RM1 : s_rnn_mode (fst r1) = true) by (unfold mode in *; congruence).
  assert (EX1 : s_external (fst r1) = false) by (unfold mode in *; congruence).
  assert (RN1 : s_rnn (fst r1) = None) by (unfold r1; rewrite rnn_none; auto).
  assert (L1 : List.length (snd r1) = List.length pre).
  { unfold r1. clear. generalize (fst (reset s)). induction pre as [|o pre IH]; intro s0; [reflexivity|].
    simpl. destruct (run_iop m o s0) as [s1 x]. specialize (IH s1). destruct (run_iops m pre s1). simpl in *. lia. }
  intros NX U. rewrite nth_error_app2 in NX by lia. rewrite L1, Nat.sub_diag in NX. cbn [nth_error] in NX.
  injection NX as NX.
  assert (Q1 : Forall (fun y => forall q, used y q -> q = p) (snd r1)).
  { unfold r1. clear - NE W1. generalize (fst (reset s)). revert NE W1. induction pre as [|o pre IH]; intros NE W1 s0; [constructor|].
    simpl. inversion NE; subst. inversion W1; subst.
    assert (forall q, used (snd (run_iop m o s0)) q -> q = p).
    { destruct o; simpl in *; try tauto; intros q (? & ? & ? & Y); cbn in Y; discriminate. }
    destruct (run_iop m o s0) as [s1 y]. specialize (IH H3 H5 s1). destruct (run_iops m pre s1). constructor; auto. }
  unfold run_iop in *. destruct (compute_gradients m t st co da (fst r1)) as [s3 r] eqn:G. cbn [fst snd] in *.
  subst x. destruct U as (dst & dco & dda & U). injection U as ->.
  pose proof (eval_ok _ _ _ _ _ _ _ _ _ _ G) as (F & PS & _).
  unfold params_step in PS. rewrite RM1, EX1, RN1 in PS. destruct PS as (R3 & _ & CO).
  split; [eapply compute_of_computed; eauto|].
  apply Forall_app. split; [exact Q1|]. constructor.
  - intros q (a & b & c & Y). injection Y as _ _ _ ->. reflexivity.
  - destruct F as (_ & _ & _ & F1 & F2 & _). apply rnn_kept; auto; congruence.
Qed.

(** Without RNN mode every evaluation computes its own parameters. *)
Lemma fresh_parameters t st co da s s' dst dco dda p :
  s_rnn_mode s = false -> compute_gradients m t st co da s = (s', Ok (dst, dco, dda, p)) ->
  computed m t st co p.
Proof.
  intros RM G. eapply compute_of_computed; eauto.
  apply eval_ok in G. destruct G as (_ & PS & _). unfold params_step in PS. rewrite RM in PS. apply PS.
Qed.

(** ** Assembly plans *)
Lemma plans_explicit (s : istate) input ps dim :
  snd (integrand_disassemble input (Some ps) dim s) = Raise ValueError.
Proof. reflexivity. Qed.

Lemma plans_cached (s : istate) input dim :
  snd (integrand_disassemble input None dim s) = disassemble_tensor input (s_plans s) dim.
Proof. reflexivity. Qed.

(** ** Transposition *)
Lemma transpose_nonempty (d : tdicts) : d <> [] -> transpose_dicts d = Raise KeyError.
Proof. destruct d as [|[k b] d]; [contradiction|reflexivity]. Qed.

Lemma transposed_fails t x s st co da : m_transpose m = true ->
  disassemble_tensor (vec x) (s_plans s) 0 = Ok (st, co, da) -> st <> [] ->
  snd (forward m t x s) = Raise KeyError.
Proof.
  intros T D N. unfold forward, mbind, integrand_disassemble. rewrite D, T.
  unfold lift. rewrite transpose_nonempty by exact N. reflexivity.
Qed.

Lemma untransposed t x s st co da : m_transpose m = false ->
  disassemble_tensor (vec x) (s_plans s) 0 = Ok (st, co, da) ->
  forward m t x s =
  match compute_gradients m t st co da s with
  | (s', Ok (dst, dco, dda, _)) => (s', ov <- assemble_tensor dst dco dda ;; Ok (fst ov))
  | (s', Raise e) => (s', Raise e)
  end.
Proof.
  intros T D. unfold forward, mbind, integrand_disassemble. rewrite D, T. unfold ret.
  destruct (compute_gradients m t st co da s) as [s' [[[[dst dco] dda] p]|e]]; [|reflexivity].
  unfold lift. destruct (assemble_tensor dst dco dda) as [[o ps]|e]; reflexivity.
Qed.

(** ** Externally managed parameters *)
Lemma managed_autodiff_fails t st co da s : m_analytic m = false ->
  s_rnn_mode s = true -> s_external s = true ->
  forall g, snd (compute_gradients m t st co da s) <> Ok g.
Proof.
  intros AN RM EX g X. destruct (compute_gradients m t st co da s) as [s' r] eqn:G. simpl in X. subst r.
  destruct g as [[[dst dco] dda] p]. rewrite compute_gradients_core in G. unfold core in G. rewrite AN in G.
  destruct (compute_gradients_autodiff m t st co da s) as [s1 [g|e]] eqn:K; [|discriminate].
  unfold compute_gradients_autodiff in K.
  apply mbind_ok in K. destruct K as (s2 & q & K1 & K). apply current_parameters_spec in K1.
  destruct K1 as ((_ & _ & _ & R1 & X1 & _) & _).
  apply mbind_ok in K. destruct K as (s3 & u & K2 & K). apply update_penalty_spec in K2; auto.
  destruct K2 as ((_ & _ & _ & R2 & X2 & _) & _).
  apply mbind_ok in K. destruct K as (s4 & a & K3 & K). injection K3 as <- _.
  apply mbind_ok in K. destruct K as (s4 & b & K3 & K). injection K3 as <- _.
  apply mbind_ok in K. destruct K as (s4 & c & K3 & K). unfold rhs_costate_autodiff in K3.
  apply mbind_ok in K3. destruct K3 as (s5 & q' & K3 & _).
  unfold lagrangian_parameters in K3. rewrite R2, R1, RM, X2, X1, EX in K3. destruct (s_func s3); discriminate.
Qed.

Lemma managed_analytic_works t n1 sd n2 cd da s f p f' dst dda dco :
  m_analytic m = true -> s_rnn_mode s = true -> s_external s = true -> s_func s = Some f ->
  get_parameters_at_time f t = Ok (p, f') ->
  (forall q, In q (pf_params f) -> exists e, m_kinetic m t q None = Ok e) ->
  rhs_state m t [(n1, sd)] p (m_concat_dim m) = Ok dst -> rhs_state m t da p (s_data_dim s) = Ok dda ->
  rhs_costate_analytic m t [(n1, sd)] [(n2, cd)] p (s_data_dim s) = Ok dco ->
  (forall h a, m_hook m h a = Ok tt) ->
  snd (compute_gradients m t [(n1, sd)] [(n2, cd)] da s) = Ok (dst, dco, dda, p).
Proof.
  intros AN RM EX F GP KI R1 R2 R3 HK. rewrite compute_gradients_core. unfold core. rewrite AN.
  unfold compute_gradients_analytic. cbn [List.length Nat.eqb negb orb].
  unfold mbind, lift, first_block, sd_peek0. unfold current_parameters. rewrite RM, EX, F, GP.
  assert (UP : exists s1, update_penalty m t t p [(n1, sd)] [(n2, cd)] (set_func (Some f') s) = (s1, Ok tt)).
  { unfold update_penalty. destruct (qeq t 0%Qc); [|eexists; reflexivity].
    cbn [s_external set_func s_func]. rewrite EX. rewrite (get_parameters_params f f' t p GP).
    assert (exists e, mean_energy m t (pf_params f) = Ok e) as [e ->]; [|eexists; reflexivity].
    unfold mean_energy.
    assert (FM : forall l acc, (forall q, In q l -> exists e, m_kinetic m t q None = Ok e) ->
       exists e, foldM (fun acc p => x <- m_kinetic m t p None ;; Ok (m_add m acc x)) l acc = Ok e).
    { induction l as [|q l IH]; intros acc Q; [eexists; reflexivity|]. simpl.
      destruct (Q q (or_introl eq_refl)) as [e Qe]. rewrite Qe. cbn [bind]. apply IH. intros; apply Q; right; auto. }
    destruct (FM (pf_params f) (m_zero m) KI) as [e ->]. eexists; reflexivity. }
  destruct UP as [s1 UP]. rewrite UP.
  apply update_penalty_spec in UP; auto. destruct UP as ((_ & _ & _ & _ & _ & _ & D) & _).
  rewrite R1. rewrite D. cbn [s_data_dim set_func]. rewrite R2, R3.
  unfold ret.
  destruct (run_hooks m (s_hooks s1) _ s1) as [s2 r] eqn:R. apply run_hooks_spec in R.
  destruct R as (_ & _ & _ & _ & called & rest & _ & _ & R).
  destruct r as [u|e]; [reflexivity|]. destruct R as (pre & ih & _ & HE & _). rewrite HK in HE. discriminate.
Qed.
End Proofs.

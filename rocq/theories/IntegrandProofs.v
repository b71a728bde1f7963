(** Proofs about the evaluation of the right-hand side. *)
From Coq Require Import List String ZArith QArith Qcanon Bool Lia Sorting.Sorted.
From Verif Require Import Base BaseFacts Tensor ScdModel ParamFuncModel IntegrandModel IntegrandSpec.
Import ListNotations.
Open Scope nat_scope.

Section Proofs.
Context {A P E H C : Type}.
Notation iop := (@iop A P H C).
Notation istate := (@istate A P E H C).
Notation model := (@model A P E H C).
Notation tdict := (sdict (tensor A)).
Notation tdicts := (sdict (sdict (tensor A))).
Notation hargs := (@hargs A P C).
Variable m : model.

(** The fields an evaluation leaves alone. *)
Definition frame (s s' : istate) : Prop :=
  s_hooks s' = s_hooks s /\ s_next_id s' = s_next_id s /\ s_custom s' = s_custom s /\
  s_rnn_mode s' = s_rnn_mode s /\ s_external s' = s_external s /\ s_plans s' = s_plans s /\
  s_data_dim s' = s_data_dim s.

Lemma frame_refl s : frame s s.
Proof. repeat split. Qed.

Lemma frame_trans a b c : frame a b -> frame b c -> frame a c.
Proof. unfold frame. intuition congruence. Qed.

Lemma frame_calls s v : frame s (set_calls v s).
Proof. repeat split. Qed.

(** ** What an evaluation does, before the hooks *)
Definition compute_of (t : Qc) (st co : tdicts) : result P :=
  if m_analytic m then
    sd <- first_block st ;; cd <- first_block co ;; m_parameters_analytic m t sd cd
  else m_parameters m t st co.

Definition core (t : Qc) (st co da : tdicts) : M gradients :=
  if m_analytic m then compute_gradients_analytic m t st co da
  else compute_gradients_autodiff m t st co da.

(** Effect on the parameters. *)
Definition params_step (t : Qc) (compute : result P) (s s' : istate) (p : P) : Prop :=
  if s_rnn_mode s then
    if s_external s then
      exists f f', s_func s = Some f /\ get_parameters_at_time f t = Ok (p, f') /\ s_func s' = Some f' /\
        s_rnn s' = s_rnn s
    else s_rnn s' = Some p /\ s_func s' = s_func s /\
         match s_rnn s with Some q => p = q | None => compute = Ok p end
  else compute = Ok p /\ s_rnn s' = s_rnn s /\ s_func s' = s_func s.

Lemma current_parameters_spec t compute s s' r :
  current_parameters t compute s = (s', r) ->
  frame s s' /\ s_calls s' = s_calls s /\ s_penalty s' = s_penalty s /\
  match r with Ok p => params_step t compute s s' p | Raise _ => s' = s end.
Proof.
  unfold current_parameters, params_step. intro X.
  destruct (s_rnn_mode s) eqn:RM.
  - destruct (s_external s) eqn:EX.
    + destruct (s_func s) as [f|] eqn:F.
      * destruct (get_parameters_at_time f t) as [[p f']|e] eqn:G; injection X as <- <-.
        -- repeat split; try reflexivity. exists f, f'. auto.
        -- repeat split; reflexivity.
      * injection X as <- <-. repeat split; reflexivity.
    + destruct (s_rnn s) as [q|] eqn:RN.
      * injection X as <- <-. repeat split; auto.
      * destruct compute as [p|e]; injection X as <- <-; repeat split; auto.
  - injection X as <- <-. destruct compute; repeat split; auto.
Qed.

Definition penalty_step (t : Qc) (p : P) (st co : tdicts) (s s' : istate) : Prop :=
  if qeq t 0%Qc then
    exists e, s_penalty s' = Some e /\
      if s_external s then exists f, s_func s = Some f /\ mean_energy m t (pf_params f) = Ok e
      else m_kinetic m 0%Qc p (Some (st, co)) = Ok e
  else s_penalty s' = s_penalty s.

Lemma qeq_eq a b : qeq a b = true -> a = b.
Proof.
  unfold qeq. destruct (Qccompare a b) eqn:X; try discriminate. intros _.
  apply Qceq_alt. exact X.
Qed.

Lemma qeq_refl a : qeq a a = true.
Proof. unfold qeq. assert (Qccompare a a = Eq) as -> by (apply Qceq_alt; reflexivity). reflexivity. Qed.

Lemma update_penalty_spec t te p st co s s' r : (te = t \/ te = 0%Qc) ->
  update_penalty m t te p st co s = (s', r) ->
  frame s s' /\ s_calls s' = s_calls s /\ s_rnn s' = s_rnn s /\ s_func s' = s_func s /\
  match r with Ok _ => penalty_step t p st co s s' | Raise _ => s' = s end.
Proof.
  intro TE. unfold update_penalty, penalty_step. intro X.
  destruct (qeq t 0%Qc) eqn:Z0.
  - apply qeq_eq in Z0. subst t. assert (te = 0%Qc) by (destruct TE; auto). subst te.
    destruct (s_external s) eqn:EX.
    + destruct (s_func s) as [f|] eqn:F.
      * destruct (mean_energy m 0%Qc (pf_params f)) as [e|e] eqn:G; injection X as <- <-; repeat split; auto.
        exists e. split; [reflexivity|]. exists f. auto.
      * injection X as <- <-. repeat split; auto.
    + destruct (m_kinetic m 0%Qc p (Some (st, co))) as [e|e] eqn:G; injection X as <- <-; repeat split; auto.
      exists e. auto.
  - injection X as <- <-. repeat split; auto.
Qed.

Lemma mbind_ok {B D} (x : @M A P E H C B) (f : B -> @M A P E H C D) s s' d :
  mbind x f s = (s', Ok d) <-> exists s1 b, x s = (s1, Ok b) /\ f b s1 = (s', Ok d).
Proof.
  unfold mbind. destruct (x s) as [s1 [b|e]]; split.
  - intro X. exists s1, b. auto.
  - intros (s2 & b2 & X & Y). injection X as <- <-. exact Y.
  - discriminate.
  - intros (s2 & b2 & X & Y). discriminate.
Qed.

(** Everything an evaluation leaves alone, whether it raises or not. *)
Definition quiet (s s' : istate) : Prop := frame s s' /\ s_calls s' = s_calls s.

Lemma quiet_refl s : quiet s s.
Proof. split; [apply frame_refl|reflexivity]. Qed.

Lemma quiet_trans a b c : quiet a b -> quiet b c -> quiet a c.
Proof. intros [F1 C1] [F2 C2]. split; [eapply frame_trans; eauto|congruence]. Qed.

Definition quietM {B} (x : @M A P E H C B) : Prop := forall s, quiet s (fst (x s)).

Lemma quiet_bind {B D} (x : @M A P E H C B) (f : B -> @M A P E H C D) :
  quietM x -> (forall b, quietM (f b)) -> quietM (mbind x f).
Proof.
  intros Hx Hf s. unfold mbind. specialize (Hx s). destruct (x s) as [s1 [b|e]]; simpl in *; auto.
  eapply quiet_trans; [exact Hx|apply Hf].
Qed.

Lemma quiet_lift {B} (r : result B) : quietM (lift r).
Proof. intro s. apply quiet_refl. Qed.
Lemma quiet_ret {B} (r : B) : quietM (ret r).
Proof. intro s. apply quiet_refl. Qed.
Lemma quiet_read {B} (f : istate -> result B) : quietM (fun s => (s, f s)).
Proof. intro s. apply quiet_refl. Qed.

Lemma quiet_parameters t c : quietM (current_parameters t c).
Proof.
  intro s. destruct (current_parameters t c s) as [s' r] eqn:X.
  apply current_parameters_spec in X. split; simpl; apply X.
Qed.

Lemma quiet_penalty t te p st co : (te = t \/ te = 0%Qc) -> quietM (update_penalty m t te p st co).
Proof.
  intros TE s. destruct (update_penalty m t te p st co s) as [s' r] eqn:X.
  apply update_penalty_spec in X; [|exact TE]. split; simpl; apply X.
Qed.

Lemma quiet_lagrangian t st co : quietM (lagrangian_parameters m t st co).
Proof.
  intro s. unfold lagrangian_parameters.
  destruct (s_rnn_mode s); [|apply quiet_refl].
  destruct (s_external s); [destruct (s_func s); apply quiet_refl|].
  destruct (s_rnn s); [apply quiet_refl|].
  destruct (m_parameters m t st co); [|apply quiet_refl]. repeat split.
Qed.

Lemma quiet_core t st co da : quietM (core t st co da).
Proof.
  unfold core. destruct (m_analytic m).
  - unfold compute_gradients_analytic.
    destruct (_ || _); [intro s; apply quiet_refl|].
    apply quiet_bind; [apply quiet_lift|intro sd]. apply quiet_bind; [apply quiet_lift|intro cd].
    apply quiet_bind; [apply quiet_parameters|intro p].
    apply quiet_bind; [apply quiet_penalty; auto|intros _].
    apply quiet_bind; [apply quiet_lift|intro dst]. apply quiet_bind; [apply quiet_read|intro dda].
    apply quiet_bind; [apply quiet_read|intro dco]. apply quiet_ret.
  - unfold compute_gradients_autodiff.
    apply quiet_bind; [apply quiet_parameters|intro p].
    apply quiet_bind; [apply quiet_penalty; auto|intros _].
    apply quiet_bind; [apply quiet_lift|intro dst]. apply quiet_bind; [apply quiet_read|intro dda].
    apply quiet_bind; [|intro dco; apply quiet_ret].
    unfold rhs_costate_autodiff.
    apply quiet_bind; [apply quiet_lagrangian|intro q]. apply quiet_bind; [apply quiet_lift|intros _].
    apply quiet_bind; [apply quiet_lift|intro r]. apply quiet_bind; [apply quiet_lift|intros _].
    apply quiet_bind; [apply quiet_lift|intro g]. apply quiet_lift.
Qed.

(** ** Hooks *)
Lemma run_hooks_spec hs a : forall s s' r,
  run_hooks m hs a s = (s', r) ->
  frame s s' /\ s_penalty s' = s_penalty s /\ s_rnn s' = s_rnn s /\ s_func s' = s_func s /\
  exists called rest, hs = called ++ rest /\ s_calls s' = s_calls s ++ map (fun ih => (snd ih, a)) called /\
    match r with
    | Ok _ => rest = []
    | Raise e => exists pre ih, called = pre ++ [ih] /\ m_hook m (snd ih) a = Raise e /\
                   Forall (fun ih => m_hook m (snd ih) a = Ok tt) pre
    end.
Proof.
  induction hs as [|[id h] hs IH]; intros s s' r X.
  - injection X as <- <-. split; [apply frame_refl|]. split; [reflexivity|]. split; [reflexivity|].
    split; [reflexivity|]. exists [], []. simpl. rewrite app_nil_r. auto.
  - cbn [run_hooks] in X. unfold mbind at 1, modify in X.
    unfold mbind, lift in X. destruct (m_hook m h a) as [[]|e] eqn:HK.
    + apply IH in X. destruct X as (F & R1 & R2 & R3 & called & rest & -> & CL & R).
      split; [exact F|]. split; [exact R1|]. split; [exact R2|]. split; [exact R3|].
      exists ((id, h) :: called), rest. split; [reflexivity|]. split.
      * rewrite CL. simpl. rewrite <- app_assoc. reflexivity.
      * destruct r; auto. destruct R as (pre & ih & -> & HE & FA).
        exists ((id, h) :: pre), ih. split; [reflexivity|]. split; auto.
    + injection X as <- <-. split; [apply frame_calls|]. split; [reflexivity|]. split; [reflexivity|].
      split; [reflexivity|]. exists [(id, h)], hs. split; [reflexivity|]. split; [reflexivity|].
      exists [], (id, h). auto.
Qed.

Lemma compute_gradients_core t st co da s :
  compute_gradients m t st co da s =
  match core t st co da s with
  | (s1, Ok (dst, dco, dda, p)) =>
      match run_hooks m (s_hooks s1) (mkHargs t st co da dst dco dda p (s_custom s1)) s1 with
      | (s2, Ok _) => (s2, Ok (dst, dco, dda, p))
      | (s2, Raise e) => (s2, Raise e)
      end
  | (s1, Raise e) => (s1, Raise e)
  end.
Proof.
  unfold compute_gradients. fold (core t st co da). unfold mbind at 1.
  destruct (core t st co da s) as [s1 [[[[dst dco] dda] p]|e]]; [|reflexivity].
  unfold mbind, ret. destruct (run_hooks _ _ _ _) as [s2 [u|e]]; reflexivity.
Qed.

Lemma compute_gradients_frame t st co da s : frame s (fst (compute_gradients m t st co da s)).
Proof.
  rewrite compute_gradients_core. pose proof (quiet_core t st co da s) as [F _].
  destruct (core t st co da s) as [s1 [[[[dst dco] dda] p]|e]]; simpl in *; [|exact F].
  destruct (run_hooks _ _ _ _) as [s2 r] eqn:X. apply run_hooks_spec in X.
  destruct X as (F2 & _). assert (G : frame s s2) by (eapply frame_trans; eauto).
  destruct r; exact G.
Qed.

Lemma frame_bind {B D} (x : @M A P E H C B) (f : B -> @M A P E H C D) s :
  frame s (fst (x s)) -> (forall b s, frame s (fst (f b s))) -> frame s (fst (mbind x f s)).
Proof.
  intros Hx Hf. unfold mbind. destruct (x s) as [s1 [b|e]]; simpl in *; auto.
  eapply frame_trans; [exact Hx|apply Hf].
Qed.

Lemma forward_frame t x s : frame s (fst (forward m t x s)).
Proof.
  unfold forward. apply frame_bind; [apply frame_refl|].
  intros [[st co] da] s1. apply frame_bind.
  - destruct (m_transpose m); [|apply frame_refl].
    repeat (apply frame_bind; [apply frame_refl|intros ? ?]). apply frame_refl.
  - intros [[st' co'] da'] s2. apply frame_bind; [apply compute_gradients_frame|].
    intros [[[dst dco] dda] p] s3. apply frame_bind.
    + destruct (m_transpose m); [|apply frame_refl].
      repeat (apply frame_bind; [apply frame_refl|intros ? ?]). apply frame_refl.
    + intros [[a b] c] s4. apply frame_bind; [apply frame_refl|]. intros [o ?] s5. apply frame_refl.
Qed.

(** ** Sequences of operations *)
Lemma run_iops_app os1 os2 s :
  run_iops m (os1 ++ os2) s =
  let (s1, x1) := run_iops m os1 s in let (s2, x2) := run_iops m os2 s1 in (s2, x1 ++ x2).
Proof.
  revert s. induction os1 as [|o os1 IH]; intro s; simpl.
  - destruct (run_iops m os2 s). reflexivity.
  - destruct (run_iop m o s) as [s1 x]. rewrite IH.
    destruct (run_iops m os1 s1) as [s2 xs]. destruct (run_iops m os2 s2). reflexivity.
Qed.

Lemma registrations_app (a b : list iop) : registrations (a ++ b) = registrations a + registrations b.
Proof. induction a as [|o a IH]; simpl; auto. destruct o; simpl; rewrite IH; auto. Qed.

Lemma last_custom_app (a b : list iop) c : last_custom (a ++ b) c = last_custom b (last_custom a c).
Proof. revert c. induction a as [|o a IH]; intro c; simpl; auto. destruct o; apply IH. Qed.

Lemma live_snoc_other (os : list iop) o id h :
  (forall h', o <> IRegister h') -> o <> IRemove id -> (live (os ++ [o]) id h <-> live os id h).
Proof.
  intros N1 N2. split.
  - intros (pre & post & X & R & NI).
    destruct post as [|y post] using rev_ind.
    + apply app_inj_tail in X. destruct X as [_ X]. exfalso. exact (N1 h X).
    + clear IHpost. rewrite app_comm_cons, app_assoc in X. apply app_inj_tail in X. destruct X as [-> <-].
      exists pre, post. split; [reflexivity|]. split; [exact R|]. intro I. apply NI. apply in_or_app. auto.
  - intros (pre & post & -> & R & NI). exists pre, (post ++ [o]). split.
    + rewrite <- app_assoc. reflexivity.
    + split; [exact R|]. intro I. apply in_app_or in I. destruct I as [I|[I|[]]]; auto.
Qed.

Lemma live_lt (os : list iop) id h : live os id h -> id < registrations os.
Proof. intros (pre & post & -> & <- & _). rewrite registrations_app. simpl. lia. Qed.

Lemma live_snoc_remove (os : list iop) i id h :
  live (os ++ [IRemove i]) id h <-> live os id h /\ id <> i.
Proof.
  split.
  - intro L. assert (id <> i).
    { destruct L as (pre & post & X & R & NI). intros ->.
      destruct post as [|y post] using rev_ind.
      - apply app_inj_tail in X. destruct X as [_ X]. discriminate.
      - clear IHpost. rewrite app_comm_cons, app_assoc in X. apply app_inj_tail in X. destruct X as [_ <-].
        apply NI. apply in_or_app. simpl. auto. }
    split; auto. apply live_snoc_other in L; auto; congruence.
  - intros [L N]. apply live_snoc_other; auto; congruence.
Qed.

Lemma live_snoc_register (os : list iop) h0 id h :
  live (os ++ [IRegister h0]) id h <-> live os id h \/ (id = registrations os /\ h = h0).
Proof.
  split.
  - intros (pre & post & X & R & NI). destruct post as [|y post] using rev_ind.
    + apply app_inj_tail in X. destruct X as [-> X]. injection X as ->. right. auto.
    + clear IHpost. rewrite app_comm_cons, app_assoc in X. apply app_inj_tail in X. destruct X as [-> <-].
      left. exists pre, post. split; [reflexivity|]. split; [exact R|]. intro I. apply NI. apply in_or_app. auto.
  - intros [(pre & post & -> & R & NI)|[-> ->]].
    + exists pre, (post ++ [IRegister h0]). split; [rewrite <- app_assoc; reflexivity|].
      split; [exact R|]. intro I. apply in_app_or in I. destruct I as [I|[I|[]]]; auto. discriminate.
    + exists os, []. split; [reflexivity|]. split; [reflexivity|]. intros [].
Qed.

Lemma sorted_snoc {B} (R : B -> B -> Prop) l x :
  StronglySorted R l -> Forall (fun y => R y x) l -> StronglySorted R (l ++ [x]).
Proof.
  induction 1 as [|y l S IH F]; intro G; simpl.
  - constructor; constructor.
  - inversion G; subst. constructor; [auto|]. apply Forall_app. auto.
Qed.

Lemma sorted_filter {B} (R : B -> B -> Prop) f l : StronglySorted R l -> StronglySorted R (filter f l).
Proof.
  induction 1 as [|y l S IH F]; simpl; [constructor|].
  destruct (f y); auto. constructor; auto.
  rewrite Forall_forall in *. intros z I. apply filter_In in I. apply F. apply I.
Qed.

Definition hooks_inv (os : list iop) (s : istate) (c0 : option C) : Prop :=
  s_next_id s = registrations os /\ live_list os (s_hooks s) /\ s_custom s = last_custom os c0.

Definition same_hooks (s s' : istate) : Prop :=
  s_hooks s' = s_hooks s /\ s_next_id s' = s_next_id s /\ s_custom s' = s_custom s.

Lemma frame_hooks s s' : frame s s' -> same_hooks s s'.
Proof. unfold frame, same_hooks. tauto. Qed.

Lemma hooks_inv_frame os o s s' c0 : hooks_inv os s c0 -> same_hooks s s' ->
  (forall h, o <> IRegister h) -> (forall i, o <> IRemove i) -> (forall c, o <> ISetCustom c) ->
  hooks_inv (os ++ [o]) s' c0.
Proof.
  intros (N & (S & L) & CU) (H1 & H2 & H3) NR NM NC. repeat split.
  - rewrite H2, N, registrations_app. destruct o; simpl; try lia. exfalso. eapply NR; reflexivity.
  - rewrite H1. exact S.
  - rewrite H1. intro I. apply live_snoc_other; auto. apply L. exact I.
  - rewrite H1. intro I. apply L. apply live_snoc_other in I; auto.
  - rewrite H3, CU, last_custom_app. destruct o; simpl; auto. exfalso. eapply NC; reflexivity.
Qed.

Lemma hooks_inv_step os o s c0 : hooks_inv os s c0 -> hooks_inv (os ++ [o]) (fst (run_iop m o s)) c0.
Proof.
  intro HI. destruct o; unfold run_iop.
  - apply hooks_inv_frame with s; auto; try congruence. unfold reset. simpl.
    destruct (s_external s); repeat split.
  - destruct HI as (N & (S & L) & CU). unfold register_hook. cbn [fst].
    unfold hooks_inv, live_list. cbn [s_next_id s_hooks s_custom set_hooks].
    split; [rewrite registrations_app; simpl; lia|]. split; [|rewrite CU, last_custom_app; reflexivity].
    split.
    + apply sorted_snoc; auto. rewrite Forall_forall. intros [i h'] I. simpl. rewrite N.
      apply live_lt with h'. apply L. exact I.
    + intros id h'. rewrite in_app_iff, live_snoc_register, L. simpl. split.
      * intros [I|[I|[]]]; auto. injection I as <- <-. auto.
      * intros [I|[-> ->]]; auto. right. left. congruence.
  - destruct HI as (N & (S & L) & CU). unfold remove_hook. cbn [fst].
    unfold hooks_inv, live_list. cbn [s_next_id s_hooks s_custom set_hooks].
    split; [rewrite registrations_app; simpl; lia|]. split; [|rewrite CU, last_custom_app; reflexivity].
    split; [apply sorted_filter; exact S|].
    intros i h'. rewrite filter_In, live_snoc_remove, L. simpl.
    split; intros [I1 I2]; split; auto.
    + destruct (Nat.eqb_spec i id); [discriminate|auto].
    + destruct (Nat.eqb_spec i id); [contradiction|reflexivity].
  - destruct HI as (N & (S & L) & CU). unfold hooks_inv, live_list. cbn [s_next_id s_hooks s_custom set_custom fst].
    split; [rewrite registrations_app; simpl; lia|]. split; [|rewrite last_custom_app; reflexivity].
    split; [exact S|]. intros i h'. rewrite live_snoc_other by congruence. apply L.
  - apply hooks_inv_frame with s; auto; try congruence. repeat split.
  - apply hooks_inv_frame with s; auto; try congruence. repeat split.
  - apply hooks_inv_frame with s; auto; try congruence. repeat split.
  - apply hooks_inv_frame with s; auto; try congruence. apply frame_hooks.
    pose proof (compute_gradients_frame t st co da s) as F.
    destruct (compute_gradients m t st co da s). exact F.
  - apply hooks_inv_frame with s; auto; try congruence. apply frame_hooks.
    pose proof (forward_frame t input s) as F.
    destruct (forward m t input s). exact F.
Qed.

Lemma hooks_inv_run os rnn dim : hooks_inv os (fst (run_iops m os (new_integrand rnn dim))) None.
Proof.
  induction os as [|o os IH] using rev_ind.
  - repeat split; simpl; try constructor; try tauto.
    intros (pre & post & X & _). destruct pre; discriminate.
  - rewrite run_iops_app. destruct (run_iops m os (new_integrand rnn dim)) as [s1 x1]. simpl in *.
    pose proof (hooks_inv_step os o s1 None IH) as X. destruct (run_iop m o s1). exact X.
Qed.

(** The hooks run by an evaluation after any history. *)
Lemma hooks_run os rnn dim t st co da s s' r :
  s = fst (run_iops m os (new_integrand rnn dim)) ->
  compute_gradients m t st co da s = (s', r) ->
  exists l, live_list os l /\
    match r with
    | Ok (dst, dco, dda, p) =>
        s_calls s' = s_calls s ++
          map (fun ih => (snd ih, mkHargs t st co da dst dco dda p (last_custom os None))) l
    | Raise e =>
        s_calls s' = s_calls s \/
        exists dst dco dda p pre ih rest,
          let a := mkHargs t st co da dst dco dda p (last_custom os None) in
          l = pre ++ ih :: rest /\ m_hook m (snd ih) a = Raise e /\
          Forall (fun ih => m_hook m (snd ih) a = Ok tt) pre /\
          s_calls s' = s_calls s ++ map (fun ih => (snd ih, a)) (pre ++ [ih])
    end.
Proof.
  intros -> X. pose proof (hooks_inv_run os rnn dim) as (_ & L & CU).
  set (s := fst (run_iops m os (new_integrand rnn dim))) in *.
  exists (s_hooks s). split; [exact L|].
  rewrite compute_gradients_core in X.
  pose proof (quiet_core t st co da s) as [(H1 & _ & H3 & _) HC].
  destruct (core t st co da s) as [s1 [[[[dst dco] dda] p]|e]]; cbn [fst] in *.
  - rewrite H1, H3, CU in X.
    destruct (run_hooks m (s_hooks s) _ s1) as [s2 r2] eqn:R.
    apply run_hooks_spec in R. destruct R as (_ & _ & _ & _ & called & rest & HS & CL & R).
    destruct r2 as [u|e]; injection X as <- <-.
    + subst rest. rewrite app_nil_r in HS. rewrite HS, CL, HC. reflexivity.
    + right. destruct R as (pre & ih & -> & HE & FA).
      exists dst, dco, dda, p, pre, ih, rest. cbv zeta. rewrite HS, <- app_assoc. split; [reflexivity|].
      split; [exact HE|]. split; [exact FA|]. rewrite CL, HC. reflexivity.
  - injection X as <- <-. left. exact HC.
Qed.

(** A registration returns its number as handle. *)
Lemma handle_number os rnn dim h :
  snd (run_iop m (IRegister h) (fst (run_iops m os (new_integrand rnn dim)))) = OHandle (registrations os).
Proof.
  pose proof (hooks_inv_run os rnn dim) as (N & _). simpl. rewrite N. reflexivity.
Qed.
End Proofs.

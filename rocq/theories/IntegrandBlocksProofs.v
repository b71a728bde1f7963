(** Proofs about the derivatives of several blocks. *)
From Coq Require Import List String ZArith QArith Qcanon Bool Lia.
From Verif Require Import Base BaseFacts Tensor ScdModel ScdSpec ScdProofs ScdProofs3 ScdProofs4 BlockSpec BlockProofs7
  ParamFuncModel IntegrandModel IntegrandSpec IntegrandProofs IntegrandProofs2 IntegrandBlocksSpec.
Import ListNotations.
Open Scope nat_scope.

Section Proofs.
Context {A P E H C : Type}.
Notation tdict := (sdict (tensor A)).
Notation tdicts := (sdict (sdict (tensor A))).
Variable m : @model A P E H C.

Lemma concatenated_full dim (d : tdicts) c : concatenable dim d -> concatenate_dict_of_dicts d dim = Ok c ->
  side_by_side dim d c /\ cat_inv dim d c.
Proof.
  intros K Ec. pose proof K as (L & W & N & S & G).
  destruct (concatenable_side_by_side dim d K) as (c1 & E1 & B).
  destruct (concatenate_ok dim d W N S G) as (c2 & E2 & I). split; congruence.
Qed.

Lemma combine_shapes (c r : tdict) : Forall2 (fun a b => tshape (snd a) = tshape (snd b)) c r ->
  forall (b : tdict), keys c = keys b -> forall kc tc k t, In ((kc, tc), (k, t)) (combine r b) ->
  exists tc', In (k, tc') c /\ tshape tc' = tshape tc.
Proof.
  induction 1 as [|[k1 t1] [k2 t2] c r S _ IH]; intros b K kc tc k t I; [destruct b; contradiction|].
  destruct b as [|[k3 t3] b]; [contradiction|]. cbn in K. injection K as K1 K. cbn [combine] in I.
  destruct I as [I|I].
  - injection I as -> -> -> ->. exists t1. split; [left; congruence|exact S].
  - destruct (IH b K kc tc k t I) as (tc' & I' & S'). exists tc'. split; [right; exact I'|exact S'].
Qed.

Lemma apart dim (d : tdicts) c r out : concatenable dim d -> concatenate_dict_of_dicts d dim = Ok c ->
  shapes_of c r -> deconcatenate r d dim = Ok out -> taken_apart dim d r out.
Proof.
  intros K Ec [Wr Sh] D. destruct (concatenated_full dim d c K Ec) as [_ (Wc & Fc & Kc & Ic)].
  destruct K as (L & W & N & S & G).
  destruct (deconcatenate_ok dim r d L Wr W) as (out' & E' & Ko & R).
  - intros n b I. rewrite <- (keys_length _ _ (Kc n b I)). clear - Sh. induction Sh; cbn; lia.
  - intros n b kc tc k t I Ip.
    destruct (combine_shapes c r Sh b (Kc n b I) kc tc k t Ip) as (tc' & I' & S').
    assert (G' : sd_get k c = Some tc') by (apply sd_in_get; assumption).
    destruct (Ic k tc' G') as [O P0]. destruct (in_split _ _ I) as (pre & post & Ed).
    destruct (P0 pre n b post Ed) as (t' & Gt & St & _).
    assert (t' = t) as ->.
    { assert (sd_get k b = Some t); [|congruence]. apply sd_in_get; [|eapply in_combine_r; exact Ip].
      destruct W as [_ F]. rewrite Forall_forall in F. apply (F (n, b) I). }
    split; [|split].
    + apply (G n b n b k t t I I); eapply in_combine_r; exact Ip.
    + now rewrite <- S'.
    + rewrite <- S'. now apply nth_error_nth.
  - assert (out' = out) as -> by congruence. split; [exact Ko|]. intros pre n b post Ed.
    destruct (R pre n b post Ed) as (rb & I & Kr & V). exists rb. split; [exact I|]. split; [exact Kr|].
    intros kc tc k t Ip. destruct (V kc tc k t Ip) as (sl & A1 & A2 & _ & A4). exists sl. auto.
Qed.

Lemma cat_inv_wf dim (d : tdicts) c : cat_inv dim d c -> dict_wf c.
Proof. intros (W & F & _). split; assumption. Qed.

Lemma rhs_state_blocks t st p dim out : keeps_shapes m -> m_concatenate m = true -> concatenable dim st ->
  rhs_state m t st p dim = Ok out -> state_derivatives m t p dim st out.
Proof.
  intros [KS _] CC K R. unfold rhs_state in R. rewrite CC in R.
  destruct (concatenate_dict_of_dicts st dim) as [c|] eqn:Ec; [|discriminate]. cbn [bind] in R.
  destruct (m_rhs m t c p) as [r|] eqn:Er; [|discriminate]. cbn [bind] in R.
  destruct (concatenated_full dim st c K Ec) as [B I].
  exists c, r. split; [exact B|]. split; [exact Er|]. apply (apart dim st c r out K Ec); [|exact R].
  apply (KS t c p r); [exact (cat_inv_wf _ _ _ I)|exact Er].
Qed.

Lemma rhs_costate_blocks t st co p dim out : keeps_shapes m -> m_concatenate m = true -> concatenable dim st ->
  concatenable dim co -> rhs_costate_analytic m t st co p dim = Ok out -> costate_derivatives m t p dim st co out.
Proof.
  intros [_ KS] CC K K' R. unfold rhs_costate_analytic in R. rewrite CC in R.
  destruct (concatenate_dict_of_dicts st dim) as [c|] eqn:Ec; [|discriminate]. cbn [bind] in R.
  destruct (concatenate_dict_of_dicts co dim) as [cc|] eqn:Ecc; [|discriminate]. cbn [bind] in R.
  destruct (m_costate m t c cc p) as [r|] eqn:Er; [|discriminate]. cbn [bind] in R.
  destruct (concatenated_full dim st c K Ec) as [B I]. destruct (concatenated_full dim co cc K' Ecc) as [B' I'].
  exists c, cc, r. split; [exact B|]. split; [exact B'|]. split; [exact Er|]. apply (apart dim co cc r out K' Ecc); [|exact R].
  apply (KS t c cc p r); [exact (cat_inv_wf _ _ _ I)|exact (cat_inv_wf _ _ _ I')|exact Er].
Qed.

Lemma core_costates t st co da s s' dst dco dda p : m_analytic m = true ->
  core m t st co da s = (s', Ok (dst, dco, dda, p)) ->
  rhs_costate_analytic m t st co p (s_data_dim s) = Ok dco.
Proof.
  unfold core. intros AN. rewrite AN. unfold compute_gradients_analytic. intro X.
  destruct (_ || _) eqn:LN; [discriminate|].
  apply mbind_ok in X. destruct X as (s0 & sd & X0 & X). injection X0 as <- SD.
  apply mbind_ok in X. destruct X as (s0 & cd & X0 & X). injection X0 as <- CD.
  apply mbind_ok in X. destruct X as (s1 & p1 & X1 & X).
  apply mbind_ok in X. destruct X as (s2 & u & X2 & X).
  apply mbind_ok in X. destruct X as (s3 & dst1 & X3 & X). injection X3 as <- X3.
  apply mbind_ok in X. destruct X as (s3 & dda1 & X4 & X). injection X4 as <- X4.
  apply mbind_ok in X. destruct X as (s3 & dco1 & X5 & X). injection X5 as <- X5.
  injection X as <- <- <- <- <-.
  apply current_parameters_spec in X1. destruct X1 as ((_ & _ & _ & _ & _ & _ & D1) & _).
  apply update_penalty_spec in X2; auto. destruct X2 as ((_ & _ & _ & _ & _ & _ & D2) & _).
  rewrite <- D1, <- D2. exact X5.
Qed.

Lemma evaluated_blocks t st co da s s' dst dco dda p :
  keeps_shapes m -> m_concatenate m = true ->
  concatenable (m_concat_dim m) st -> concatenable (s_data_dim s) da ->
  compute_gradients m t st co da s = (s', Ok (dst, dco, dda, p)) ->
  state_derivatives m t p (m_concat_dim m) st dst /\ state_derivatives m t p (s_data_dim s) da dda /\
  (m_analytic m = true -> concatenable (s_data_dim s) st -> concatenable (s_data_dim s) co ->
   costate_derivatives m t p (s_data_dim s) st co dco).
Proof.
  intros KS CC K1 K2 X. rewrite compute_gradients_core in X.
  destruct (core m t st co da s) as [s1 [[[[a b] c] q]|e]] eqn:K; [|discriminate].
  destruct (run_hooks m _ _ s1) as [s2 [u|e]] eqn:R; [|discriminate].
  injection X as <- <- <- <- <-.
  destruct (core_ok _ _ _ _ _ _ _ _ _ _ _ K) as (s0 & te & _ & _ & _ & R1 & R2).
  split; [now apply rhs_state_blocks|]. split; [now apply rhs_state_blocks|].
  intros AN K3 K4. apply rhs_costate_blocks; try assumption. exact (core_costates _ _ _ _ _ _ _ _ _ _ AN K).
Qed.

(** Without concatenation. *)
Lemma evaluated_unconcatenated t st co da s s' dst dco dda p : m_concatenate m = false ->
  compute_gradients m t st co da s = (s', Ok (dst, dco, dda, p)) ->
  m_rhs_blocks m t st p = Ok dst /\ m_rhs_blocks m t da p = Ok dda /\
  (m_analytic m = true -> m_costate_blocks m t st co p = Ok dco).
Proof.
  intros CC X. rewrite compute_gradients_core in X.
  destruct (core m t st co da s) as [s1 [[[[a b] c] q]|e]] eqn:K; [|discriminate].
  destruct (run_hooks m _ _ s1) as [s2 [u|e]] eqn:R; [|discriminate].
  injection X as <- <- <- <- <-.
  destruct (core_ok _ _ _ _ _ _ _ _ _ _ _ K) as (s0 & te & _ & _ & _ & R1 & R2).
  unfold rhs_state in R1, R2. rewrite CC in R1, R2. split; [exact R1|]. split; [exact R2|].
  intros AN. pose proof (core_costates _ _ _ _ _ _ _ _ _ _ AN K) as R3. unfold rhs_costate_analytic in R3. now rewrite CC in R3.
Qed.
End Proofs.

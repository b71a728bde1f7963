(** spiral.py: what its options become. *)
From Coq Require Import List String ZArith QArith Qcanon Bool Lia.
From Verif Require Import Base BaseFacts SweepModel ArgparseModel ArgparseProofs ExperimentModel CirclesModel 
  ImagesModel IntegratorModel ActivationModel SetupModel SetupSpec SetupProofs.
Import ListNotations.
Open Scope string_scope.
Open Scope list_scope.
Open Scope nat_scope.

(** The integrator for each method on offer. *)
Lemma integrator_made method adj step n q : In method ["dopri5"; "adams"; "rk4"] -> exists h i,
  setup_integrator method adj step n q = (h, Ok i) /\ i_library i = "odeint" /\ i_name i = method /\ i_adjoint i = adj /\
  i_nr_of_checkpoints i = n /\ i_checkpointing_time_interval i = q /\
  heap_get h (i_options i) = if in_dec string_dec method ["dopri5"; "adams"] then [] else [("step_size", ONum (Q2Qc step))].
Proof.
  intros H. repeat destruct H as [<-|H]; [..|contradiction].
  all: eexists; eexists; split; [reflexivity|]; cbn [i_library i_name i_adjoint i_nr_of_checkpoints i_checkpointing_time_interval i_options];
    repeat split.
Qed.

(** The attributes of a finished model. *)
Definition base_attrs (state costate : kw) (d n : Z) (pw : Q) (nl : string) (rnn analytic opt : bool) (ty : string) : pdict kw :=
  [("_state_initializer", state); ("_costate_initializer", costate); ("in_features", KInt d); ("nonlinearity", KText nl);
   ("transpose_state_when_forward", KBool false); ("concatenate_parameters", KBool true); ("nr_of_particles", KInt n);
   ("particle_dimension", KInt 1); ("particle_size", KInt d); ("parameter_weight", KNum pw); ("use_analytic_solution", KBool analytic);
   ("optimize_over_data_initial_conditions", KBool opt); ("optimize_over_data_initial_conditions_type", KText ty);
   ("use_rnn_mode", KBool rnn); ("is_pass_through", KBool false)].
Definition linear_kw (i o : Z) : kw := KObject "Linear" [("in_features", KInt i); ("out_features", KInt o)].
Definition data_attrs (opt : bool) (ty : string) (d infl : Z) : pdict kw :=
  if opt then
    if String.eqb ty "direct" then [("data_q20", KObject "Parameter" [("rows", KInt 1); ("columns", KInt (d * infl))])]
    else if String.eqb ty "linear" then [("simple_init", linear_kw d (d * infl))]
    else [("init_l1", linear_kw d 10); ("init_l2", linear_kw 10 (d * infl))]
  else [("data_q20", KNone)].
(** ... those of the class. *)
Definition own_attrs (model : string) (infl : Z) (weight : Q) (opt : bool) (ty : string) (d : Z) : pdict kw :=
  if String.eqb model "updown" then ("inflation_factor", KInt infl) :: data_attrs opt ty d infl
  else if String.eqb model "updown_universal" then
    ("inflation_factor", KInt infl) :: ("weighting_factor", KNum weight) :: data_attrs opt ty d infl
  else if String.eqb model "general_updown" then
    ("inflation_factor", KInt infl) :: ("dampening_factor", KNum 0) :: data_attrs opt ty d infl
  else if String.eqb model "periodic" then
    ("inflation_factor", KInt infl) :: ("dampening_factor", KNum (- (1 # 2))) :: data_attrs opt ty d infl
  else if String.eqb model "dampened_updown" then [("inflation_factor", KInt infl)]
  else [].
Definition class_name (model : string) : string :=
  match pd_get model class_of_name with Some c => c | None => "" end.
Definition is_simple (model : string) : bool := String.eqb model "simple".

Ltac each H := repeat destruct H as [<-|H]; [..|contradiction].

Lemma spiral_integrand_made model pw n infl nl rnn opt ty analytic weight :
  In model ["updown_universal"; "simple"; "updown"; "periodic"] -> In nl ["identity"; "relu"; "tanh"; "sigmoid"] ->
  In ty ["direct"; "linear"; "mini_nn"] ->
  spiral_integrand model (KNum pw) (KInt n) (KInt infl) (KText nl) (KBool rnn) (KBool opt) (KText ty) (KBool analytic) (KNum weight) =
  Ok (mkIntegrand (class_name model)
    (base_attrs default_initializer default_initializer 2 n pw nl rnn (is_simple model || analytic) (negb (is_simple model) && opt)
       (if is_simple model then "linear" else ty) ++ own_attrs model infl weight opt ty 2)).
Proof. intros M NL TY. destruct opt; each M; each NL; each TY; vm_compute; reflexivity. Qed.

Lemma image_integrand_made b model d pw n infl nl rnn opt ty :
  In model ["simple"; "updown"; "updown_universal"] -> In nl ["identity"; "relu"; "tanh"; "sigmoid"] ->
  In ty ["direct"; "linear"; "mini_nn"] ->
  image_integrand b model (KInt d) (KNum pw) (KInt n) (KInt infl) (KText nl) (KBool rnn) (KBool opt) (KText ty) =
  Ok (mkIntegrand (class_name model)
    (base_attrs default_initializer default_initializer d n pw nl rnn true (negb (is_simple model) && opt)
       (if is_simple model then "linear" else ty) ++ own_attrs model infl (1 # 10) opt ty d)).
Proof. intros M NL TY. destruct opt, b; each M; each NL; each TY; vm_compute; reflexivity. Qed.

Definition mapping_models : list string := ["updown_universal"; "periodic"; "dampened_updown"; "simple"; "2nd_order"; "updown"; "general_updown"].
Definition mapping_costate : kw := KObject "VectorEvolutionParameterInitializer" [("random_initialization_magnitude", KNum (1 # 10))].
Definition mapping_kwargs (nl : string) (n : Z) (pw : Q) (opt : bool) (ty : string) (weight : Q) : pdict kw :=
  [("in_features", KInt 1); ("nonlinearity", KText nl); ("nr_of_particles", KInt n); ("parameter_weight", KNum pw);
   ("particle_dimension", KInt 1); ("particle_size", KInt 1); ("costate_initializer", mapping_costate);
   ("optimize_over_data_initial_conditions", KBool opt); ("optimize_over_data_initial_conditions_type", KText ty);
   ("optional_weight", KNum weight)].
Definition hand_written (model : string) : bool := negb (String.eqb model "2nd_order" || String.eqb model "dampened_updown").

Lemma mapping_integrand_made model nl n pw opt ty weight infl rnn :
  In model mapping_models -> In nl ["identity"; "relu"; "tanh"; "sigmoid"; "softmax"] -> In ty ["direct"; "linear"; "mini_nn"] ->
  mapping_integrand model (mapping_kwargs nl n pw opt ty weight) (KInt infl) (KBool rnn) =
  Ok (mkIntegrand (class_name model)
    (base_attrs default_initializer mapping_costate 1 n pw nl rnn (hand_written model) opt ty ++ own_attrs model infl weight opt ty 1)).
Proof. intros M NL TY. destruct opt; each M; each NL; each TY; vm_compute; reflexivity. Qed.

Lemma mapping_universal nl n pw opt ty weight infl rnn :
  mapping_integrand "universal" (mapping_kwargs nl n pw opt ty weight) (KInt infl) (KBool rnn) = Raise AttributeError.
Proof. reflexivity. Qed.

(** ** spiral.py *)

Tactic Notation "got_int" constr(nd) constr(df) constr(E) constr(o) ident(z) ident(H) := destruct (opt_int _ _ _ nd df E o _ ltac:(discriminate) eq_refl) as (z & H).
Tactic Notation "got_num" constr(nd) constr(df) constr(E) constr(o) ident(z) ident(H) := destruct (opt_num _ _ _ nd df E o _ ltac:(discriminate) eq_refl) as (z & H).
Tactic Notation "got_flag" constr(nd) constr(df) constr(E) constr(o) ident(z) ident(H) := destruct (opt_flag _ _ _ nd df E o ltac:(discriminate) eq_refl) as (z & H).
Tactic Notation "got_text" constr(nd) constr(df) constr(E) constr(o) ident(z) ident(H) ident(I) := destruct (opt_choice _ _ _ nd df E o _ _ ltac:(discriminate) eq_refl) as (z & H & I).

(** Looking up in the attributes. *)
Lemma data_right ns m model d infl weight opt ty state costate n pw nl rnn analytic :
  In model ["updown"; "updown_universal"; "general_updown"; "periodic"] ->
  pd_get "optimize_over_data_initial_conditions" ns = Some (AFlag opt) ->
  pd_get "optimize_over_data_initial_conditions_type" ns = Some (AText ty) -> In ty ["direct"; "linear"; "mini_nn"] ->
  pd_get "inflation_factor" ns = Some (AInt infl) ->
  g_attrs (m_integrand m) = base_attrs state costate d n pw nl rnn analytic opt ty ++ own_attrs model infl weight opt ty d ->
  right_data ns m.
Proof.
  intros M OP TY IT IN A. unfold right_data, arrives, has_attr. rewrite A, OP, TY. split.
  - intros o a [H|[H|[]]]; injection H as <- <-; [rewrite OP|rewrite TY]; reflexivity.
  - exists d, infl. split; [reflexivity|]. split; [exact IN|]. cbv zeta. split; intros H; injection H as ->.
    + each M; reflexivity.
    + each IT; each M; try reflexivity; split; reflexivity.
Qed.

Lemma model_right ns m model d infl weight opt' opt ty ty' state costate n pw nl rnn analytic :
  In model ("simple" :: "2nd_order" :: ["updown"; "updown_universal"; "general_updown"; "periodic"; "dampened_updown"]) ->
  pd_get "shooting_model" ns = Some (AText model) -> pd_get "nonlinearity" ns = Some (AText nl) ->
  pd_get "nr_of_particles" ns = Some (AInt n) -> pd_get "pw" ns = Some (ANum pw) -> pd_get "use_particle_rnn_mode" ns = Some (AFlag rnn) ->
  pd_get "inflation_factor" ns = Some (AInt infl) ->
  m_integrand m = mkIntegrand (class_name model) (base_attrs state costate d n pw nl rnn analytic opt' ty' ++ own_attrs model infl weight opt ty d) ->
  right_model ns m /\ particle_sizes m d.
Proof.
  intros M SM NL N PW RNN IN A. split.
  - exists model. split; [exact SM|]. unfold arrives, has_attr. rewrite A. cbn [g_class g_attrs]. split; [each M; cbn; auto 10|]. split.
    + intros o a H. cbn in H. destruct H as [H|[H|[H|[H|[]]]]]; injection H as <- <-; [rewrite NL|rewrite N|rewrite PW|rewrite RNN]; reflexivity.
    + intros H. rewrite IN. each H; reflexivity.
  - unfold particle_sizes, has_attr. rewrite A. repeat split.
Qed.

Lemma set_state_base s state costate d n pw nl rnn analytic opt ty l c :
  set_state_initializer s (mkIntegrand c (base_attrs state costate d n pw nl rnn analytic opt ty ++ l)) =
  mkIntegrand c (base_attrs s costate d n pw nl rnn analytic opt ty ++ l).
Proof. reflexivity. Qed.

Lemma spiral_setup_made words ns end_ : parse_args spiral_parser words = Some ns ->
  (both_modes ns -> spiral_setup ns end_ = Raise ValueError) /\
  (~ both_modes ns -> exists m, spiral_setup ns end_ = Ok m /\
     right_model ns m /\ right_weight ns m /\ right_integrator ns m /\ right_adjoint ns m /\ right_checkpoints ns m /\ right_modes ns m /\
     particle_sizes m 2 /\ m_end m = end_ /\
     (~ model_is ns "simple" -> right_data ns m /\ right_equations ns m) /\
     (model_is ns "simple" -> has_attr m "optimize_over_data_initial_conditions" (KBool false) /\
        has_attr m "optimize_over_data_initial_conditions_type" (KText "linear") /\ has_attr m "use_analytic_solution" (KBool true))).
Proof.
  intros E. pose proof spiral_nodup as nd. pose proof spiral_defaults as df.
  got_num nd df E "checkpointing_time_interval" q Q. got_int nd df E "nr_of_checkpoints" nc NC.
  got_text nd df E "method" me ME IM. got_num nd df E "stepsize" st ST. got_flag nd df E "adjoint" ad AD.
  got_text nd df E "shooting_model" mo MO IMO. got_num nd df E "pw" pw PW. got_int nd df E "nr_of_particles" n N.
  got_int nd df E "inflation_factor" infl INF. got_text nd df E "nonlinearity" nl NL INL. got_flag nd df E "use_particle_rnn_mode" rnn RNN.
  got_flag nd df E "use_particle_free_rnn_mode" fr FR. got_flag nd df E "use_particle_free_time_dependent_mode" ft FT.
  got_int nd df E "nr_of_particle_free_time_dependent_steps" fs FS. got_flag nd df E "optimize_over_data_initial_conditions" op OP.
  got_text nd df E "optimize_over_data_initial_conditions_type" ty TY ITY. got_flag nd df E "do_not_use_analytic_solution" an AN.
  got_num nd df E "optional_weight" w W.
  clear nd df.
  destruct (integrator_made me ad st (if (0 <? nc)%Z then Some nc else None) (if negb (Qle_bool q 0) then Some (Q2Qc q) else None) IM)
    as (h & i & MI & I1 & I2 & I3 & I4 & I5 & I6).
  assert (S : spiral_setup ns end_ = new_block (mkIntegrand (class_name mo)
    (base_attrs (random_initializer 1) default_initializer 2 n pw nl rnn (is_simple mo || negb an) (negb (is_simple mo) && op)
       (if is_simple mo then "linear" else ty) ++ own_attrs mo infl w op ty 2)) i h fr ft fs (Some end_)).
  { unfold spiral_setup, num_of, int_of, text_of, flag_of, arg. rewrite Q, NC, ME, ST, AD. cbn [bind]. rewrite MI. cbn [bind].
    rewrite MO, PW, N, INF, NL, RNN, FR, FT, FS, OP, TY, AN, W. cbn [bind as_kw].
    rewrite spiral_integrand_made by assumption. cbn [bind]. rewrite set_state_base. reflexivity. }
  rewrite S. unfold new_block. split.
  - intros (B1 & B2). rewrite B1 in FR. rewrite B2 in FT. injection FR as <-. injection FT as <-. reflexivity.
  - intros NB. destruct (ft && fr) eqn:F.
    { exfalso. apply NB. apply andb_true_iff in F as (-> & ->). split; assumption. }
    eexists. split; [reflexivity|]. 
    match goal with |- context [mkMade ?g ?a ?b ?c ?d ?e ?f] => set (m := mkMade g a b c d e f) end.
    destruct (model_right ns m mo 2 infl w (negb (is_simple mo) && op) op ty (if is_simple mo then "linear" else ty) _ _ n pw nl rnn _
                ltac:(cbn in IMO |- *; intuition) MO NL N PW RNN INF eq_refl) as (RM & PS).
    split; [exact RM|]. split.
    { unfold right_weight, arrives, has_attr. rewrite MO. intros H. injection H as ->. rewrite W. reflexivity. }
    split. { exists me, st. subst m. cbn [m_integrator m_options]. repeat split; assumption. }
    split. { unfold right_adjoint. subst m. cbn [m_integrator]. rewrite I3. exact AD. }
    split. { split.
      - exists nc. split; [exact NC|]. subst m. cbn [m_integrator]. rewrite I4. destruct (Z_lt_dec 0 nc), (Z.ltb_spec 0 nc); try reflexivity; lia.
      - exists q. split; [exact Q|]. subst m. cbn [m_integrator]. rewrite I5. destruct (Qlt_le_dec 0 q) as [L|L].
        + destruct (Qle_bool q 0) eqn:B; [|reflexivity]. apply Qle_bool_iff in B. exfalso. exact (Qlt_not_le _ _ L B).
        + apply Qle_bool_iff in L. rewrite L. reflexivity. }
    split. { repeat split; subst m; cbn; assumption. }
    split; [exact PS|]. split; [reflexivity|]. split.
    + intros NS. assert (SI : is_simple mo = false).
      { unfold is_simple. destruct (String.eqb_spec mo "simple") as [->|]; [|reflexivity]. contradiction. }
      subst m. rewrite SI in *. cbn [negb andb orb] in *. split.
      * eapply (data_right ns _ mo 2 infl w op ty); try eassumption; [|reflexivity]. cbn in IMO |- *. intuition. subst. discriminate SI.
      * exists an. split; [exact AN|]. reflexivity.
    + unfold model_is. rewrite MO. intros H. injection H as ->. repeat split.
Qed.

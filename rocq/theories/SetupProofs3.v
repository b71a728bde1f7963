(** cc.py, rot.py, balls.py and sfm.py: what their options become; losses. *)
From Coq Require Import List String ZArith QArith Qcanon Bool Lia.
From Verif Require Import Base BaseFacts SweepModel ArgparseModel ArgparseProofs ExperimentModel CirclesModel CirclesProofs2
  ImagesModel ImagesProofs3 IntegratorModel ActivationModel SetupModel SetupSpec SetupProofs SetupProofs2.
Import ListNotations.
Open Scope string_scope.
Open Scope list_scope.
Open Scope nat_scope.

Definition fixed_dict (step : Q) : pdict optval := [("step_size", ONum (Q2Qc step))].

(** The three parsers agree on the options used here. *)
Definition image_options (p : parser) : Prop :=
  pd_get "method" p = Some (Value (TText (Some ["dopri5"; "adams"; "rk4"])) (AText "rk4")) /\
  pd_get "stepsize" p = Some (Value TFloat (ANum (5 # 100))) /\ pd_get "shooting_dim" p = Some (Value TInt (AInt 20)) /\
  pd_get "shooting_model" p = Some (Value (TText (Some ["simple"; "updown"; "updown_universal"])) (AText "updown")) /\
  pd_get "pw" p = Some (Value TFloat (ANum 1)) /\ pd_get "nr_of_particles" p = Some (Value TInt (AInt 25)) /\
  pd_get "inflation_factor" p = Some (Value TInt (AInt 5)) /\
  pd_get "nonlinearity" p = Some (Value (TText (Some ["identity"; "relu"; "tanh"; "sigmoid"])) (AText "relu")) /\
  pd_get "use_particle_rnn_mode" p = Some Flag /\ pd_get "use_particle_free_rnn_mode" p = Some Flag /\
  pd_get "optimize_over_data_initial_conditions" p = Some Flag /\
  pd_get "optimize_over_data_initial_conditions_type" p = Some (Value (TText (Some ["direct"; "linear"; "mini_nn"])) (AText "linear")).

Lemma cc_options : image_options cc_parser. Proof. repeat split. Qed.
Lemma rot_options : image_options rot_parser. Proof. repeat split. Qed.
Lemma balls_options : image_options balls_parser. Proof. repeat split. Qed.
Lemma cc_nodup : NoDup (map fst (("help", Help) :: cc_parser)). Proof. apply nodupb_ok. vm_compute. reflexivity. Qed.
Lemma rot_nodup : NoDup (map fst (("help", Help) :: rot_parser)). Proof. apply nodupb_ok. vm_compute. reflexivity. Qed.
Lemma balls_nodup : NoDup (map fst (("help", Help) :: balls_parser)). Proof. apply nodupb_ok. vm_compute. reflexivity. Qed.

Definition image_made (ns : pdict argval) (r : result made) : Prop :=
  exists m, r = Ok m /\ right_model ns m /\ right_integrator ns m /\
    pd_get "use_particle_free_rnn_mode" ns = Some (AFlag (m_free_rnn m)) /\
    (exists d, pd_get "shooting_dim" ns = Some (AInt d) /\ particle_sizes m d) /\ m_end m = 1%Q /\
    (~ model_is ns "simple" -> right_data ns m) /\
    (model_is ns "simple" -> has_attr m "optimize_over_data_initial_conditions" (KBool false)) /\
    (model_is ns "updown_universal" -> has_attr m "weighting_factor" (KNum (1 # 10))).

Lemma image_setup_made p per words ns : image_options p -> NoDup (map fst (("help", Help) :: p)) ->
  (forall m k, pd_get m p = Some k -> has_kind k (pd_get m (defaults p))) -> parse_args p words = Some ns ->
  image_made ns (image_setup per ns).
Proof.
  intros (O1 & O2 & O3 & O4 & O5 & O6 & O7 & O8 & O9 & O10 & O11 & O12) nd df E.
  destruct (opt_choice _ _ _ nd df E "method" _ _ ltac:(discriminate) O1) as (me & ME & IM).
  destruct (opt_num _ _ _ nd df E "stepsize" _ ltac:(discriminate) O2) as (st & ST).
  destruct (opt_int _ _ _ nd df E "shooting_dim" _ ltac:(discriminate) O3) as (d & D).
  destruct (opt_choice _ _ _ nd df E "shooting_model" _ _ ltac:(discriminate) O4) as (mo & MO & IMO).
  destruct (opt_num _ _ _ nd df E "pw" _ ltac:(discriminate) O5) as (pw & PW).
  destruct (opt_int _ _ _ nd df E "nr_of_particles" _ ltac:(discriminate) O6) as (n & N).
  destruct (opt_int _ _ _ nd df E "inflation_factor" _ ltac:(discriminate) O7) as (infl & INF).
  destruct (opt_choice _ _ _ nd df E "nonlinearity" _ _ ltac:(discriminate) O8) as (nl & NL & INL).
  destruct (opt_flag _ _ _ nd df E "use_particle_rnn_mode" ltac:(discriminate) O9) as (rnn & RNN).
  destruct (opt_flag _ _ _ nd df E "use_particle_free_rnn_mode" ltac:(discriminate) O10) as (fr & FR).
  destruct (opt_flag _ _ _ nd df E "optimize_over_data_initial_conditions" ltac:(discriminate) O11) as (op & OP).
  destruct (opt_choice _ _ _ nd df E "optimize_over_data_initial_conditions_type" _ _ ltac:(discriminate) O12) as (ty & TY & ITY).
  clear O1 O2 O3 O4 O5 O6 O7 O8 O9 O10 O11 O12 nd df.
  destruct (integrator_made me false st None None IM) as (h & i & MI & I1 & I2 & I3 & I4 & I5 & I6).
  assert (S : image_setup per ns = new_block (mkIntegrand (class_name mo)
    (base_attrs (random_initializer (1 # 2)) default_initializer d n pw nl rnn true (negb (is_simple mo) && op)
       (if is_simple mo then "linear" else ty) ++ own_attrs mo infl (1 # 10) op ty d)) i h fr false 10%Z None).
  { unfold image_setup, num_of, int_of, text_of, flag_of, arg. rewrite ME, ST. cbn [bind]. rewrite MI. cbn [bind].
    rewrite D, MO, PW, N, INF, NL, RNN, FR, OP, TY. cbn [bind as_kw].
    rewrite image_integrand_made by assumption. cbn [bind]. rewrite set_state_base. reflexivity. }
  unfold image_made. rewrite S. unfold new_block. cbn [andb]. eexists. split; [reflexivity|].
  match goal with |- context [mkMade ?g ?a ?b ?c ?d ?e ?f] => set (m := mkMade g a b c d e f) end.
  destruct (model_right ns m mo d infl (1 # 10) (negb (is_simple mo) && op) op ty (if is_simple mo then "linear" else ty) _ _ n pw nl rnn _
              ltac:(cbn in IMO |- *; intuition) MO NL N PW RNN INF eq_refl) as (RM & PS).
  split; [exact RM|]. split. { exists me, st. subst m. cbn [m_integrator m_options]. repeat split; assumption. }
  split; [exact FR|]. split; [exists d; split; assumption|]. split; [reflexivity|]. split.
  - intros NS. assert (SI : is_simple mo = false).
    { unfold is_simple. destruct (String.eqb_spec mo "simple") as [->|]; [|reflexivity]. contradiction. }
    subst m. rewrite SI in *. cbn [negb andb orb] in *.
    eapply (data_right ns _ mo d infl (1 # 10) op ty); try eassumption; [|reflexivity]. cbn in IMO |- *. intuition. subst. discriminate SI.
  - unfold model_is. rewrite MO. split; intros H; injection H as ->; reflexivity.
Qed.

Lemma circles_setup_made words ns : parse_args cc_parser words = Some ns -> image_made ns (image_setup true ns).
Proof. exact (image_setup_made _ _ _ _ cc_options cc_nodup cc_defaults). Qed.
Lemma rotation_setup_made words ns : parse_args rot_parser words = Some ns -> image_made ns (image_setup false ns).
Proof. exact (image_setup_made _ _ _ _ rot_options rot_nodup rot_defaults). Qed.
Lemma bouncing_setup_made words ns : parse_args balls_parser words = Some ns -> image_made ns (image_setup true ns).
Proof. exact (image_setup_made _ _ _ _ balls_options balls_nodup balls_defaults). Qed.

(** ** sfm.py *)

Lemma mapping_integrator method step : In method ["dopri5"; "adams"; "rk4"] -> exists h i,
  new_integrator [fixed_dict step] (Some "odeint") (Some method) false (Some 0) None None None = (h, Ok i) /\
  i_library i = "odeint" /\ i_name i = method /\ i_adjoint i = false /\ heap_get h (i_options i) = fixed_dict step.
Proof. intros H. each H; eexists; eexists; split; try reflexivity; repeat split. Qed.

Lemma mapping_setup_made words ns : parse_args mapping_parser words = Some ns ->
  (model_is ns "universal" -> mapping_setup ns = Raise AttributeError) /\
  (~ model_is ns "universal" -> both_modes ns -> mapping_setup ns = Raise ValueError) /\
  (~ model_is ns "universal" -> ~ both_modes ns -> exists m, mapping_setup ns = Ok m /\
     right_model ns m /\ right_weight ns m /\ right_modes ns m /\ particle_sizes m 1 /\ m_end m = 1%Q /\
     (exists method step, pd_get "method" ns = Some (AText method) /\ pd_get "stepsize" ns = Some (ANum step) /\
        i_library (m_integrator m) = "odeint" /\ i_name (m_integrator m) = method /\ i_adjoint (m_integrator m) = false /\
        m_options m = [("step_size", ONum (Q2Qc step))]) /\
     (forall o a, In (o, a) data_options -> arrives ns m o a) /\
     (~ model_is ns "simple" -> ~ model_is ns "2nd_order" -> ~ model_is ns "dampened_updown" -> right_data ns m) /\
     (model_is ns "simple" \/ model_is ns "2nd_order" \/ model_is ns "dampened_updown" ->
        forall a, In a ["data_q20"; "simple_init"; "init_l1"; "init_l2"] -> pd_get a (g_attrs (m_integrand m)) = None) /\
     has_attr m "use_analytic_solution" (KBool (hand_written (match pd_get "shooting_model" ns with Some (AText s) => s | _ => "" end)))).
Proof.
  intros E. pose proof mapping_nodup as nd. pose proof mapping_defaults as df.
  got_text nd df E "method" me ME IM. got_num nd df E "stepsize" st ST.
  got_text nd df E "shooting_model" mo MO IMO. got_num nd df E "pw" pw PW. got_int nd df E "nr_of_particles" n N.
  got_int nd df E "inflation_factor" infl INF. got_text nd df E "nonlinearity" nl NL INL. got_flag nd df E "use_particle_rnn_mode" rnn RNN.
  got_flag nd df E "use_particle_free_rnn_mode" fr FR. got_flag nd df E "use_particle_free_time_dependent_mode" ft FT.
  got_int nd df E "nr_of_particle_free_time_dependent_steps" fs FS. got_flag nd df E "optimize_over_data_initial_conditions" op OP.
  got_text nd df E "optimize_over_data_initial_conditions_type" ty TY ITY. got_num nd df E "optional_weight" w W.
  clear nd df.
  destruct (mapping_integrator me st IM) as (h & i & MI & I1 & I2 & I3 & I4).
  assert (U : forall r, mapping_integrand mo (mapping_kwargs nl n pw op ty w) (KInt infl) (KBool rnn) = r ->
    mapping_setup ns = (g <- r ;; new_block g i h fr ft fs None)).
  { intros r H. unfold mapping_setup, num_of, int_of, text_of, flag_of, arg. rewrite NL, N, PW, OP, TY, W, INF, RNN, FR, MO. cbn [bind as_kw].
    unfold mapping_kwargs, mapping_costate in H. rewrite H. destruct r as [g|x]; [|reflexivity]. cbn [bind]. rewrite ME, FT, FS, ST. cbn [bind].
    change [[("step_size", ONum (Q2Qc st))]] with [fixed_dict st]. rewrite MI. reflexivity. }
  split.
  { unfold model_is. rewrite MO. intros H. injection H as ->. exact (U _ (mapping_universal _ _ _ _ _ _ _ _)). }
  assert (IM' : ~ model_is ns "universal" -> In mo mapping_models).
  { unfold model_is. rewrite MO. intros H. cbn in IMO |- *. intuition. subst. contradiction. }
  assert (S : ~ model_is ns "universal" -> mapping_setup ns = new_block (mkIntegrand (class_name mo)
    (base_attrs default_initializer mapping_costate 1 n pw nl rnn (hand_written mo) op ty ++ own_attrs mo infl w op ty 1)) i h fr ft fs None).
  { intros H. exact (U _ (mapping_integrand_made _ _ _ _ _ _ _ _ _ (IM' H) INL ITY)). }
  split.
  { intros H (B1 & B2). rewrite (S H). rewrite B1 in FR. rewrite B2 in FT. injection FR as <-. injection FT as <-. reflexivity. }
  intros H NB. rewrite (S H). unfold new_block. destruct (ft && fr) eqn:F.
  { exfalso. apply NB. apply andb_true_iff in F as (-> & ->). split; assumption. }
  specialize (IM' H). eexists. split; [reflexivity|]. 
  match goal with |- context [mkMade ?g ?a ?b ?c ?d ?e ?f] => set (m := mkMade g a b c d e f) end.
  destruct (model_right ns m mo 1 infl w op op ty ty _ _ n pw nl rnn _ ltac:(cbn in IM' |- *; intuition) MO NL N PW RNN INF eq_refl) as (RM & PS).
  split; [exact RM|]. split.
  { unfold right_weight, arrives, has_attr. rewrite MO. intros H'. injection H' as ->. rewrite W. reflexivity. }
  split. { repeat split; subst m; cbn; assumption. }
  split; [exact PS|]. split; [reflexivity|]. split.
  { exists me, st. subst m. cbn [m_integrator m_options]. repeat split; assumption. }
  split. { intros o a HI. unfold arrives, has_attr. cbn in HI. destruct HI as [HI|[HI|[]]]; injection HI as <- <-; [rewrite OP|rewrite TY]; reflexivity. }
  split.
  { intros A1 A2 A3. unfold model_is in *. rewrite MO in *.
    eapply (data_right ns _ mo 1 infl w op ty); try eassumption; [|reflexivity]. cbn in IM' |- *. intuition (subst; congruence). }
  split; [|rewrite MO; reflexivity].
  intros A a HI. unfold model_is in A. rewrite MO in A.
  assert (L : mo = "simple" \/ mo = "2nd_order" \/ mo = "dampened_updown") by (destruct A as [A|[A|A]]; injection A as ->; auto).
  destruct L as [->|[->| ->]]; each HI; reflexivity.
Qed.

(** ** Losses *)

Ltac loss_values nd df E :=
  got_num nd df E "sim_weight" w W; got_num nd df E "norm_weight" nw NW.

Lemma spiral_loss_made words ns l1 l2 pen : parse_args spiral_parser words = Some ns ->
  exists norm loss, pd_get "sim_norm" ns = Some (AText norm) /\ spiral_loss ns l1 l2 pen = Ok loss /\
    weighted ns (if string_dec norm "l1" then l1 else l2) pen loss.
Proof.
  intros E. pose proof spiral_nodup as nd. pose proof spiral_defaults as df.
  got_num nd df E "sim_weight" w W. got_num nd df E "norm_weight" nw NW. got_text nd df E "sim_norm" norm NO INO.
  got_flag nd df E "do_not_use_parameter_penalty_energy" off OFF.
  exists norm. unfold spiral_loss, text_of, num_of, flag_of. rewrite NO, W, OFF, NW. cbn [bind].
  cbn in INO. destruct INO as [<-|[<-|[]]]; cbn [String.eqb Ascii.eqb Bool.eqb bind]; eexists; (split; [reflexivity|]); (split; [reflexivity|]);
    exists w, nw; (split; [exact W|]); (split; [exact NW|]); rewrite OFF; destruct off; cbn; split; intros H; try congruence; ring.
Qed.
Lemma mapping_loss_made words ns sim pen : parse_args mapping_parser words = Some ns ->
  exists loss, mapping_loss ns sim pen = Ok loss /\ weighted ns sim pen loss.
Proof.
  intros E. pose proof mapping_nodup as nd. pose proof mapping_defaults as df.
  got_num nd df E "sim_weight" w W. got_num nd df E "norm_weight" nw NW. got_flag nd df E "do_not_use_parameter_penalty_energy" off OFF.
  unfold mapping_loss, num_of, flag_of. rewrite W, OFF, NW. cbn [bind]. eexists. split; [reflexivity|].
  exists w, nw. split; [exact W|]. split; [exact NW|]. rewrite OFF. destruct off; split; intros H; try congruence; ring.
Qed.
Lemma image_loss_made p words ns sim pen : p = rot_parser \/ p = balls_parser -> parse_args p words = Some ns ->
  exists loss, image_loss ns sim pen = Ok loss /\ weighted ns sim pen loss.
Proof.
  intros P E.
  assert (V : (exists w, pd_get "sim_weight" ns = Some (ANum w)) /\ (exists w, pd_get "norm_weight" ns = Some (ANum w)) /\
              pd_get "do_not_use_parameter_penalty_energy" ns = None).
  { destruct P as [->| ->].
    - split; [exact (opt_num _ _ _ rot_nodup rot_defaults E "sim_weight" _ ltac:(discriminate) eq_refl)|].
      split; [exact (opt_num _ _ _ rot_nodup rot_defaults E "norm_weight" _ ltac:(discriminate) eq_refl)|].
      rewrite (parse_undeclared _ rot_nodup "do_not_use_parameter_penalty_energy" eq_refl _ words (le_n _) _ _ E). reflexivity.
    - split; [exact (opt_num _ _ _ balls_nodup balls_defaults E "sim_weight" _ ltac:(discriminate) eq_refl)|].
      split; [exact (opt_num _ _ _ balls_nodup balls_defaults E "norm_weight" _ ltac:(discriminate) eq_refl)|].
      rewrite (parse_undeclared _ balls_nodup "do_not_use_parameter_penalty_energy" eq_refl _ words (le_n _) _ _ E). reflexivity. }
  destruct V as ((w & W) & (nw & NW) & OFF).
  unfold image_loss, num_of. rewrite W, NW. cbn [bind]. eexists. split; [reflexivity|].
  exists w, nw. split; [exact W|]. split; [exact NW|]. rewrite OFF. split; intros H; [discriminate|reflexivity].
Qed.
Lemma cc_loss_made words ns sim pen : parse_args cc_parser words = Some ns ->
  exists w, pd_get "sim_weight" ns = Some (ANum w) /\ cc_loss ns sim pen = Ok (w * sim)%Q.
Proof.
  intros E. destruct (opt_num _ _ _ cc_nodup cc_defaults E "sim_weight" _ ltac:(discriminate) eq_refl) as (w & W).
  exists w. split; [exact W|]. unfold cc_loss, num_of. rewrite W. reflexivity.
Qed.

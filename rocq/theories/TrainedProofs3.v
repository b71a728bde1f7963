(** What the five demos train. *)
From Coq Require Import List String ZArith QArith Qcanon Bool Lia.
From Verif Require Import Base BaseFacts SweepModel ArgparseModel ArgparseProofs ExperimentModel CirclesModel CirclesProofs2
  ImagesModel ImagesProofs3 BlockModel IntegratorModel SetupModel SetupSpec SetupProofs SetupProofs2 SetupProofs3
  TrainedModel TrainedSpec TrainedProofs TrainedProofs2.
Import ListNotations.
Open Scope string_scope.
Open Scope list_scope.
Open Scope nat_scope.

Lemma sets_asked ns m fr ft fs :
  pd_get "use_particle_free_rnn_mode" ns = Some (AFlag fr) -> pd_get "use_particle_free_time_dependent_mode" ns = Some (AFlag ft) ->
  pd_get "nr_of_particle_free_time_dependent_steps" ns = Some (AInt fs) ->
  m_free_rnn m = fr -> m_free_time m = ft -> m_steps m = fs ->
  asked_sets ns = (if m_free_rnn m || m_free_time m then Some (Z.of_nat (parameter_sets m)) else None).
Proof.
  intros FR FT FS R1 R2 R3. unfold asked_sets, parameter_sets. rewrite FR, FT, FS, R1, R2, R3.
  destruct fr; [reflexivity|]. destruct ft; [|reflexivity]. cbn [orb]. f_equal. destruct (Z.ltb_spec 1 fs); lia.
Qed.

Lemma undeclared_default (p : parser) m : pd_get m p = None -> pd_get m (defaults p) = None.
Proof.
  unfold defaults. induction p as [|(n, k) p IH]; intros H; [reflexivity|]. cbn [flat_map fst snd].
  unfold pd_get in *. cbn [sd_get] in H. destruct (String.eqb m n) eqn:E; [discriminate|].
  destruct k; cbn [app sd_get]; rewrite ?E; auto.
Qed.

(** The finished block of spiral.py, and what is trained. *)
Lemma spiral_block words ns end_ : parse_args spiral_parser words = Some ns -> ~ both_modes ns -> positive_sizes ns ->
  exists m mo n infl op ty st co pw w nl rnn an op' ty', spiral_setup ns end_ = Ok m /\
    m_integrand m = integrand_of mo st co 2 n infl pw w nl rnn an op' op ty' ty /\
    pd_get "shooting_model" ns = Some (AText mo) /\ pd_get "nr_of_particles" ns = Some (AInt n) /\
    pd_get "inflation_factor" ns = Some (AInt infl) /\ pd_get "optimize_over_data_initial_conditions" ns = Some (AFlag op) /\
    pd_get "optimize_over_data_initial_conditions_type" ns = Some (AText ty) /\ In mo all_models /\ (1 <= n)%Z /\ (1 <= infl)%Z /\
    attribute_parameters "_state_initializer" st = [] /\ attribute_parameters "_costate_initializer" co = [] /\
    In ty ["direct"; "linear"; "mini_nn"] /\
    asked_sets ns = (if m_free_rnn m || m_free_time m then Some (Z.of_nat (parameter_sets m)) else None).
Proof.
  intros E NB PO. pose proof spiral_nodup as nd. pose proof spiral_defaults as df.
  got_num nd df E "checkpointing_time_interval" q Q. got_int nd df E "nr_of_checkpoints" nc NC.
  got_text nd df E "method" me ME IM. got_num nd df E "stepsize" st ST. got_flag nd df E "adjoint" ad AD.
  got_text nd df E "shooting_model" mo MO IMO. got_num nd df E "pw" pw PW. got_int nd df E "nr_of_particles" n N.
  got_int nd df E "inflation_factor" infl INF. got_text nd df E "nonlinearity" nl NL INL. got_flag nd df E "use_particle_rnn_mode" rnn RNN.
  got_flag nd df E "use_particle_free_rnn_mode" fr FR. got_flag nd df E "use_particle_free_time_dependent_mode" ft FT.
  got_int nd df E "nr_of_particle_free_time_dependent_steps" fs FS. got_flag nd df E "optimize_over_data_initial_conditions" op OP.
  got_text nd df E "optimize_over_data_initial_conditions_type" ty TY ITY. got_flag nd df E "do_not_use_analytic_solution" an AN.
  got_num nd df E "optional_weight" w W.
  clear nd df.
  destruct (integrator_made me ad st (if (0 <? nc)%Z then Some nc else None) (if negb (Qle_bool q 0) then Some (Q2Qc q) else None) IM)
    as (h & i & MI & _).
  assert (S : spiral_setup ns end_ = SetupModel.new_block (SetupModel.mkIntegrand (class_name mo)
    (base_attrs (random_initializer 1) default_initializer 2 n pw nl rnn (is_simple mo || negb an) (negb (is_simple mo) && op)
       (if is_simple mo then "linear" else ty) ++ own_attrs mo infl w op ty 2)) i h fr ft fs (Some end_)).
  { unfold spiral_setup, num_of, int_of, text_of, flag_of, arg. rewrite Q, NC, ME, ST, AD. cbn [bind]. rewrite MI. cbn [bind].
    rewrite MO, PW, N, INF, NL, RNN, FR, FT, FS, OP, TY, AN, W. cbn [bind as_kw].
    rewrite spiral_integrand_made by assumption. cbn [bind]. rewrite set_state_base. reflexivity. }
  unfold SetupModel.new_block in S. destruct (ft && fr) eqn:F.
  { exfalso. apply NB. apply andb_true_iff in F as (-> & ->). split; assumption. }
  eexists. exists mo, n, infl, op, ty, (random_initializer 1), default_initializer, pw, w, nl, rnn, (is_simple mo || negb an),
    (negb (is_simple mo) && op), (if is_simple mo then "linear" else ty).
  split; [exact S|]. split; [reflexivity|]. repeat (split; [assumption|]).
  split; [cbn in IMO |- *; intuition|]. split; [exact (PO "nr_of_particles" n ltac:(cbn; tauto) N)|].
  split; [exact (PO "inflation_factor" infl ltac:(cbn; tauto) INF)|]. split; [reflexivity|]. split; [reflexivity|]. split; [assumption|].
  exact (sets_asked ns (mkMade _ i (heap_get h (i_options i)) fr ft fs end_) fr ft fs FR FT FS eq_refl eq_refl eq_refl).
Qed.

Lemma mapping_block words ns : parse_args mapping_parser words = Some ns -> ~ both_modes ns -> ~ model_is ns "universal" -> positive_sizes ns ->
  exists m mo n infl op ty st co pw w nl rnn an op' ty', mapping_setup ns = Ok m /\
    m_integrand m = integrand_of mo st co 1 n infl pw w nl rnn an op' op ty' ty /\
    pd_get "shooting_model" ns = Some (AText mo) /\ pd_get "nr_of_particles" ns = Some (AInt n) /\
    pd_get "inflation_factor" ns = Some (AInt infl) /\ pd_get "optimize_over_data_initial_conditions" ns = Some (AFlag op) /\
    pd_get "optimize_over_data_initial_conditions_type" ns = Some (AText ty) /\ In mo all_models /\ (1 <= n)%Z /\ (1 <= infl)%Z /\
    attribute_parameters "_state_initializer" st = [] /\ attribute_parameters "_costate_initializer" co = [] /\
    In ty ["direct"; "linear"; "mini_nn"] /\
    asked_sets ns = (if m_free_rnn m || m_free_time m then Some (Z.of_nat (parameter_sets m)) else None).
Proof.
  intros E NB NU PO. pose proof mapping_nodup as nd. pose proof mapping_defaults as df.
  got_text nd df E "method" me ME IM. got_num nd df E "stepsize" st ST.
  got_text nd df E "shooting_model" mo MO IMO. got_num nd df E "pw" pw PW. got_int nd df E "nr_of_particles" n N.
  got_int nd df E "inflation_factor" infl INF. got_text nd df E "nonlinearity" nl NL INL. got_flag nd df E "use_particle_rnn_mode" rnn RNN.
  got_flag nd df E "use_particle_free_rnn_mode" fr FR. got_flag nd df E "use_particle_free_time_dependent_mode" ft FT.
  got_int nd df E "nr_of_particle_free_time_dependent_steps" fs FS. got_flag nd df E "optimize_over_data_initial_conditions" op OP.
  got_text nd df E "optimize_over_data_initial_conditions_type" ty TY ITY. got_num nd df E "optional_weight" w W.
  clear nd df.
  destruct (mapping_integrator me st IM) as (h & i & MI & _).
  assert (IM' : In mo mapping_models).
  { unfold model_is in NU. rewrite MO in NU. cbn in IMO |- *. intuition. subst. contradiction. }
  assert (S : mapping_setup ns = SetupModel.new_block (SetupModel.mkIntegrand (class_name mo)
    (base_attrs default_initializer mapping_costate 1 n pw nl rnn (hand_written mo) op ty ++ own_attrs mo infl w op ty 1)) i h fr ft fs None).
  { unfold mapping_setup, num_of, int_of, text_of, flag_of, arg. rewrite NL, N, PW, OP, TY, W, INF, RNN, FR, MO. cbn [bind as_kw].
    pose proof (mapping_integrand_made mo nl n pw op ty w infl rnn IM' INL ITY) as H. unfold mapping_kwargs, mapping_costate in H.
    rewrite H. cbn [bind]. rewrite ME, FT, FS, ST. cbn [bind].
    change [[("step_size", ONum (Q2Qc st))]] with [fixed_dict st]. rewrite MI. reflexivity. }
  unfold SetupModel.new_block in S. destruct (ft && fr) eqn:F.
  { exfalso. apply NB. apply andb_true_iff in F as (-> & ->). split; assumption. }
  eexists. exists mo, n, infl, op, ty, default_initializer, mapping_costate, pw, w, nl, rnn, (hand_written mo), op, ty.
  split; [exact S|]. split; [reflexivity|]. repeat (split; [assumption|]).
  split; [cbn in IM' |- *; intuition|]. split; [exact (PO "nr_of_particles" n ltac:(cbn; tauto) N)|].
  split; [exact (PO "inflation_factor" infl ltac:(cbn; tauto) INF)|]. split; [reflexivity|]. split; [reflexivity|]. split; [assumption|].
  exact (sets_asked ns (mkMade _ i (heap_get h (i_options i)) fr ft fs 1%Q) fr ft fs FR FT FS eq_refl eq_refl eq_refl).
Qed.

Lemma image_block p per words ns : image_options p -> NoDup (map fst (("help", Help) :: p)) ->
  (forall m k, pd_get m p = Some k -> has_kind k (pd_get m (defaults p))) ->
  pd_get "use_particle_free_time_dependent_mode" p = None ->
  parse_args p words = Some ns -> positive_sizes ns ->
  exists m mo n d infl op ty st co pw w nl rnn an op' ty', image_setup per ns = Ok m /\ pd_get "shooting_dim" ns = Some (AInt d) /\ (1 <= d)%Z /\
    m_integrand m = integrand_of mo st co d n infl pw w nl rnn an op' op ty' ty /\
    pd_get "shooting_model" ns = Some (AText mo) /\ pd_get "nr_of_particles" ns = Some (AInt n) /\
    pd_get "inflation_factor" ns = Some (AInt infl) /\ pd_get "optimize_over_data_initial_conditions" ns = Some (AFlag op) /\
    pd_get "optimize_over_data_initial_conditions_type" ns = Some (AText ty) /\ In mo all_models /\ (1 <= n)%Z /\ (1 <= infl)%Z /\
    attribute_parameters "_state_initializer" st = [] /\ attribute_parameters "_costate_initializer" co = [] /\
    In ty ["direct"; "linear"; "mini_nn"] /\
    asked_sets ns = (if m_free_rnn m || m_free_time m then Some (Z.of_nat (parameter_sets m)) else None).
Proof.
  intros (O1 & O2 & O3 & O4 & O5 & O6 & O7 & O8 & O9 & O10 & O11 & O12) nd df NT E PO.
  destruct (opt_choice _ _ _ nd df E "method" _ _ ltac:(discriminate) O1) as (me & ME & IM).
  destruct (opt_num _ _ _ nd df E "stepsize" _ ltac:(discriminate) O2) as (st & ST).
  destruct (opt_int _ _ _ nd df E "shooting_dim" _ ltac:(discriminate) O3) as (d & D).
  destruct (opt_choice _ _ _ nd df E "shooting_model" _ _ ltac:(discriminate) O4) as (mo & MO & IMO).
  destruct (opt_num _ _ _ nd df E "pw" _ ltac:(discriminate) O5) as (pw & PW).
  destruct (opt_int _ _ _ nd df E "nr_of_particles" _ ltac:(discriminate) O6) as (n & N).
  destruct (opt_int _ _ _ nd df E "inflation_factor" _ ltac:(discriminate) O7) as (infl & INF).
  destruct (opt_choice _ _ _ nd df E "nonlinearity" _ _ ltac:(discriminate) O8) as (nl & NL & INL).
  destruct (opt_flag _ _ _ nd df E "use_particle_rnn_mode" ltac:(discriminate) O9) as (rnn & RNN).
  destruct (opt_flag _ _ _ nd df E "use_particle_free_rnn_mode" ltac:(discriminate) O10) as (fr & FR).
  destruct (opt_flag _ _ _ nd df E "optimize_over_data_initial_conditions" ltac:(discriminate) O11) as (op & OP).
  destruct (opt_choice _ _ _ nd df E "optimize_over_data_initial_conditions_type" _ _ ltac:(discriminate) O12) as (ty & TY & ITY).
  clear O1 O2 O3 O4 O5 O6 O7 O8 O9 O10 O11 O12 df.
  assert (FT : pd_get "use_particle_free_time_dependent_mode" ns = None).
  { rewrite (parse_undeclared _ nd "use_particle_free_time_dependent_mode" NT _ words (le_n _) _ _ E).
    apply (undeclared_default p "use_particle_free_time_dependent_mode"). exact NT. }
  destruct (integrator_made me false st None None IM) as (h & i & MI & _).
  assert (S : image_setup per ns = SetupModel.new_block (SetupModel.mkIntegrand (class_name mo)
    (base_attrs (random_initializer (1 # 2)) default_initializer d n pw nl rnn true (negb (is_simple mo) && op)
       (if is_simple mo then "linear" else ty) ++ own_attrs mo infl (1 # 10) op ty d)) i h fr false 10%Z None).
  { unfold image_setup, num_of, int_of, text_of, flag_of, arg. rewrite ME, ST. cbn [bind]. rewrite MI. cbn [bind].
    rewrite D, MO, PW, N, INF, NL, RNN, FR, OP, TY. cbn [bind as_kw].
    rewrite image_integrand_made by assumption. cbn [bind]. rewrite set_state_base. reflexivity. }
  unfold SetupModel.new_block in S. cbn [andb] in S.
  eexists. exists mo, n, d, infl, op, ty, (random_initializer (1 # 2)), default_initializer, pw, (1 # 10), nl, rnn, true,
    (negb (is_simple mo) && op), (if is_simple mo then "linear" else ty).
  split; [exact S|]. split; [exact D|]. split; [exact (PO "shooting_dim" d ltac:(cbn; tauto) D)|]. split; [reflexivity|].
  repeat (split; [assumption|]).
  split; [cbn in IMO |- *; intuition|]. split; [exact (PO "nr_of_particles" n ltac:(cbn; tauto) N)|].
  split; [exact (PO "inflation_factor" infl ltac:(cbn; tauto) INF)|]. split; [reflexivity|]. split; [reflexivity|]. split; [assumption|].
  unfold asked_sets, parameter_sets. rewrite FR, FT. cbn. destruct fr; reflexivity.
Qed.

(** ** The optimizers *)

Lemma entries_numel s : fold_left Z.mul s 1%Z = fold_right Z.mul 1%Z s.
Proof. apply fold_symmetric; intros; ring. Qed.

Lemma adam_trains lr gs sch : trains_with lr (gs, sch) (g <- adam gs lr ;; Ok (g, sch)).
Proof.
  unfold trains_with, adam. destruct (Qle_bool 0 lr) eqn:E; cbn [bind]; (split; [intros H|intros H]); try reflexivity.
  - apply Qle_bool_iff in E. exfalso. exact (Qlt_not_le _ _ H E).
  - apply Qle_bool_iff in H. congruence.
Qed.

Lemma spiral_trained words ns end_ : parse_args spiral_parser words = Some ns -> ~ both_modes ns -> positive_sizes ns ->
  exists m ps lr, spiral_setup ns end_ = Ok m /\ pd_get "lr" ns = Some (ANum lr) /\
    trains_with lr ([mkGroup ps lr 0], Plateau (1 # 10)) (spiral_training ns m) /\ block_trained ns 2 ps.
Proof.
  intros E NB PO. destruct (spiral_block words ns end_ E NB PO) as (m & mo & n & infl & op & ty & st & co & pw & w & nl & rnn & an & op' & ty' &
    S & G & MO & N & INF & OP & TY & IMO & LN & LF & A & B & ITY & AS).
  destruct (block_trained_made ns mo st co 2 n infl pw w nl rnn an op' op ty' ty m MO N INF OP TY IMO ltac:(lia) ltac:(lia) ltac:(lia) A B ITY G AS)
    as (ps & P & BT & _).
  pose proof spiral_nodup as nd. pose proof spiral_defaults as df. got_num nd df E "lr" lr LR.
  exists m, ps, lr. split; [exact S|]. split; [exact LR|]. split; [|exact BT].
  unfold spiral_training, num_of. rewrite P, LR. apply adam_trains.
Qed.

Lemma mapping_trained words ns : parse_args mapping_parser words = Some ns -> ~ both_modes ns -> ~ model_is ns "universal" -> positive_sizes ns ->
  exists m ps lr, mapping_setup ns = Ok m /\ pd_get "lr" ns = Some (ANum lr) /\
    trains_with lr ([mkGroup ps lr 0], Plateau (1 # 2)) (mapping_training ns m) /\ block_trained ns 1 ps.
Proof.
  intros E NB NU PO. destruct (mapping_block words ns E NB NU PO) as (m & mo & n & infl & op & ty & st & co & pw & w & nl & rnn & an & op' & ty' &
    S & G & MO & N & INF & OP & TY & IMO & LN & LF & A & B & ITY & AS).
  destruct (block_trained_made ns mo st co 1 n infl pw w nl rnn an op' op ty' ty m MO N INF OP TY IMO ltac:(lia) ltac:(lia) ltac:(lia) A B ITY G AS)
    as (ps & P & BT & _).
  pose proof mapping_nodup as nd. pose proof mapping_defaults as df. got_num nd df E "lr" lr LR.
  exists m, ps, lr. split; [exact S|]. split; [exact LR|]. split; [|exact BT].
  unfold mapping_training, num_of. rewrite P, LR. apply adam_trains.
Qed.

Lemma image_trained p per words ns : image_options p -> NoDup (map fst (("help", Help) :: p)) ->
  (forall m k, pd_get m p = Some k -> has_kind k (pd_get m (defaults p))) ->
  pd_get "use_particle_free_time_dependent_mode" p = None ->
  parse_args p words = Some ns -> positive_sizes ns ->
  exists m d ps, image_setup per ns = Ok m /\ pd_get "shooting_dim" ns = Some (AInt d) /\ (1 <= d)%Z /\
    block_parameters m = Ok ps /\ block_trained ns d ps.
Proof.
  intros O nd df NT E PO.
  destruct (image_block p per words ns O nd df NT E PO) as (m & mo & n & d & infl & op & ty & st & co & pw & w & nl & rnn & an & op' & ty' &
    S & D & LD & G & MO & N & INF & OP & TY & IMO & LN & LF & A & B & ITY & AS).
  destruct (block_trained_made ns mo st co d n infl pw w nl rnn an op' op ty' ty m MO N INF OP TY IMO ltac:(lia) ltac:(lia) ltac:(lia) A B ITY G AS)
    as (ps & P & BT & _).
  exists m, d, ps. auto.
Qed.

(** The block is one part of a model: its names stay apart from the others. *)
Lemma prefixed_names p ps : map fst (prefixed p ps) = map (fun x => (p ++ x)%string) (map fst ps).
Proof. unfold prefixed. rewrite !map_map. reflexivity. Qed.
Lemma prefix_inj p a b : (p ++ a)%string = (p ++ b)%string -> a = b.
Proof. induction p as [|c p IH]; [auto|]. cbn. intros H. injection H. auto. Qed.
Lemma nodup_prefixed p ps : NoDup (map fst ps) -> NoDup (map fst (prefixed p ps)).
Proof. intros H. rewrite prefixed_names. apply FinFun.Injective_map_NoDup; [|exact H]. intros a b. apply prefix_inj. Qed.
Lemma entries_prefixed p ps : entries (prefixed p ps) = entries ps.
Proof. exact (entries_rename (fun k => (p ++ fst k)%string) ps). Qed.

Lemma cc_trained words ns : parse_args cc_parser words = Some ns -> positive_sizes ns ->
  exists m d ps lr decay n, image_setup true ns = Ok m /\ pd_get "shooting_dim" ns = Some (AInt d) /\ pd_get "lr" ns = Some (ANum lr) /\
    pd_get "cls_weight_decay" ns = Some (ANum decay) /\ pd_get "niters" ns = Some (AInt n) /\
    trains_with lr ([mkGroup (prefixed "blk." ps) lr 0;
                            mkGroup [("cls.0.weight", [2]); ("cls.0.bias", [2]); ("cls.1.weight", [1; 2])]%Z lr decay], Cosine n) (cc_training ns m) /\
    block_trained ns d ps.
Proof.
  intros E PO. destruct (image_trained cc_parser true words ns cc_options cc_nodup cc_defaults eq_refl E PO) as (m & d & ps & S & D & LD & P & BT).
  destruct (opt_num _ _ _ cc_nodup cc_defaults E "lr" _ ltac:(discriminate) eq_refl) as (lr & LR).
  destruct (opt_num _ _ _ cc_nodup cc_defaults E "cls_weight_decay" _ ltac:(discriminate) eq_refl) as (dc & DC).
  destruct (opt_int _ _ _ cc_nodup cc_defaults E "niters" _ ltac:(discriminate) eq_refl) as (n & NI).
  exists m, d, ps, lr, dc, n. repeat (split; [assumption|]). split; [|exact BT].
  unfold cc_training, num_of, int_of. rewrite P, LR, DC, NI. apply adam_trains.
Qed.

Lemma autoencoder_names images n_filt d : NoDup (map fst (autoencoder_parameters images n_filt d)) /\
  forall x, ~ In ("blk." ++ x)%string (map fst (autoencoder_parameters images n_filt d)).
Proof.
  split; [apply SetupProofs.nodupb_ok; reflexivity|]. intros x. unfold autoencoder_parameters. cbn. intros H. decompose [or] H; try discriminate; contradiction.
Qed.
Lemma autoencoder_entries d : entries (autoencoder_parameters 1 8 d) = (99985 + 1025 * d)%Z /\
  entries (autoencoder_parameters 3 16 d) = (397633 + 2049 * d)%Z.
Proof.
  split; unfold autoencoder_parameters; cbv zeta; rewrite !entries_app;
    repeat match goal with |- context [entries ?x] => lazymatch x with context [d] => fail | _ => 
      let v := eval vm_compute in (entries x) in change (entries x) with v end end.
  - change (8 * 4 ^ 3)%Z with 512%Z. unfold entries, dense_parameters. cbn [fold_right snd]. ring.
  - change (16 * 4 ^ 3)%Z with 1024%Z. unfold entries, dense_parameters. cbn [fold_right snd]. ring.
Qed.

Definition image_trains (ns : pdict argval) (images n_filt others per_dim : Z) (r : result made) : Prop :=
  exists m d ps all lr n, r = Ok m /\ pd_get "shooting_dim" ns = Some (AInt d) /\ pd_get "lr" ns = Some (ANum lr) /\
    pd_get "niters" ns = Some (AInt n) /\ trains_with lr ([mkGroup all lr 0], Cosine n) (image_training images n_filt ns m) /\
    block_trained ns d ps /\ NoDup (map fst all) /\
    (forall x s, In (("blk." ++ x)%string, s) all <-> In (x, s) ps) /\
    entries all = (others + per_dim * d + entries ps)%Z.

Lemma image_trains_made p per images n_filt others per_dim words ns : image_options p -> NoDup (map fst (("help", Help) :: p)) ->
  (forall m k, pd_get m p = Some k -> has_kind k (pd_get m (defaults p))) ->
  pd_get "use_particle_free_time_dependent_mode" p = None -> pd_get "lr" p = Some (Value TFloat (ANum (1 # 100))) ->
  pd_get "niters" p = Some (Value TInt (AInt 500)) ->
  (forall d, entries (autoencoder_parameters images n_filt d) = (others + per_dim * d)%Z) ->
  parse_args p words = Some ns -> positive_sizes ns -> image_trains ns images n_filt others per_dim (image_setup per ns).
Proof.
  intros O nd df NT LRP NIP EA E PO. destruct (image_trained p per words ns O nd df NT E PO) as (m & d & ps & S & D & LD & P & BT).
  destruct (opt_num _ _ _ nd df E "lr" _ ltac:(discriminate) LRP) as (lr & LR).
  destruct (opt_int _ _ _ nd df E "niters" _ ltac:(discriminate) NIP) as (n & NI).
  exists m, d, ps, (autoencoder_parameters images n_filt d ++ prefixed "blk." ps), lr, n.
  repeat (split; [assumption|]). split; [unfold image_training, num_of, int_of; rewrite D, P, LR, NI; apply adam_trains|]. split; [exact BT|].
  destruct (autoencoder_names images n_filt d) as (N1 & N2). split; [|split].
  - rewrite map_app. apply NoDup_app_intro; [exact N1|apply nodup_prefixed, BT|].
    intros x X Y. rewrite prefixed_names in Y. apply in_map_iff in Y as (y & <- & _). exact (N2 _ X).
  - intros x s. rewrite in_app_iff. split.
    + intros [H|H]; [exfalso; apply (N2 x), (in_map fst _ _ H)|]. unfold prefixed in H. apply in_map_iff in H as ((y, t) & H & I).
      cbn [fst snd] in H. injection H as H1 H2. cbn in H1. subst. exact I.
    + intros I. right. unfold prefixed. apply in_map_iff. exists (x, s). auto.
  - rewrite entries_app, entries_prefixed, EA. reflexivity.
Qed.

Lemma rot_trained words ns : parse_args rot_parser words = Some ns -> positive_sizes ns ->
  image_trains ns 1 8 99985 1025 (image_setup false ns).
Proof.
  exact (image_trains_made rot_parser false 1 8 99985 1025 words ns rot_options rot_nodup rot_defaults eq_refl eq_refl eq_refl (fun d => proj1 (autoencoder_entries d))).
Qed.
Lemma balls_trained words ns : parse_args balls_parser words = Some ns -> positive_sizes ns ->
  image_trains ns 3 16 397633 2049 (image_setup true ns).
Proof.
  exact (image_trains_made balls_parser true 3 16 397633 2049 words ns balls_options balls_nodup balls_defaults eq_refl eq_refl eq_refl (fun d => proj2 (autoencoder_entries d))).
Qed.

(** ** Saved numbers *)

Lemma numbers_fold frozen ps : forall f o,
  fold_left (fun s kv => let '(f, o) := s in
    if str_in (fst kv) frozen then (f + numel (snd kv), o)%Z else (f, o + numel (snd kv))%Z) ps (f, o) =
  (f + entries (filter (fun kv => str_in (fst kv) frozen) ps), o + entries (filter (fun kv => negb (str_in (fst kv) frozen)) ps))%Z.
Proof.
  induction ps as [|(x, s) ps IH]; intros f o; cbn [fold_left filter fst snd].
  - cbn. rewrite !Z.add_0_r. reflexivity.
  - assert (NS : numel s = fold_right Z.mul 1%Z s) by apply entries_numel.
    destruct (str_in x frozen); cbn [negb]; rewrite IH, NS; unfold entries; cbn [fold_right snd]; apply f_equal2; ring.
Qed.

Lemma numbers_of frozen ps : number_of_parameters frozen ps =
  let f := entries (filter (fun kv => str_in (fst kv) frozen) ps) in (f, entries ps - f, entries ps)%Z.
Proof.
  unfold number_of_parameters. rewrite numbers_fold. cbv zeta. rewrite !Z.add_0_l.
  assert (H : entries ps = (entries (filter (fun kv => str_in (fst kv) frozen) ps) + entries (filter (fun kv => negb (str_in (fst kv) frozen)) ps))%Z).
  { induction ps as [|(x, s) ps IH]; [reflexivity|]. cbn [filter fst]. unfold entries in *. cbn [fold_right snd].
    destruct (str_in x frozen); cbn [negb fold_right snd]; rewrite IH; ring. }
  rewrite H. apply f_equal2; [apply f_equal2; ring|ring].
Qed.

Lemma filter_none {X} (f : X -> bool) l : (forall x, In x l -> f x = false) -> filter f l = [].
Proof. induction l as [|a l IH]; intros H; [reflexivity|]. cbn. rewrite H by (left; reflexivity). apply IH. intros; apply H; right; assumption. Qed.

Lemma q1_entries mo n d e a : In mo all_models -> ~ In "q1" (map fst a) ->
  entries (filter (fun kv => str_in (fst kv) ["q1"]) (states_of mo n d e ++ a)) = (n * d)%Z /\
  exists v, sd_item "q1" (states_of mo n d e ++ a) = Ok v.
Proof.
  intros M NI. rewrite filter_app, (filter_none _ a).
  - split; [each M; cbn -[Z.mul]; ring|]. each M; eexists; reflexivity.
  - intros (x, s) I. cbn [fst]. unfold str_in. cbn. destruct (String.eqb_spec x "q1") as [->|]; [|reflexivity].
    exfalso. apply NI. exact (in_map fst _ _ I).
Qed.

Lemma saved_made ns mo st co d n infl pw w nl rnn an op' op ty' ty m fz at_ ni :
  pd_get "shooting_model" ns = Some (AText mo) -> pd_get "nr_of_particles" ns = Some (AInt n) ->
  pd_get "inflation_factor" ns = Some (AInt infl) -> pd_get "optimize_over_data_initial_conditions" ns = Some (AFlag op) ->
  pd_get "optimize_over_data_initial_conditions_type" ns = Some (AText ty) ->
  In mo all_models -> (0 <= d)%Z -> (0 <= n)%Z -> (0 <= infl)%Z ->
  attribute_parameters "_state_initializer" st = [] -> attribute_parameters "_costate_initializer" co = [] ->
  In ty ["direct"; "linear"; "mini_nn"] ->
  m_integrand m = integrand_of mo st co d n infl pw w nl rnn an op' op ty' ty ->
  asked_sets ns = (if m_free_rnn m || m_free_time m then Some (Z.of_nat (parameter_sets m)) else None) ->
  pd_get "custom_parameter_freezing" ns = Some (AFlag fz) -> pd_get "unfreeze_parameters_at_iter" ns = Some (AInt at_) ->
  pd_get "niters" ns = Some (AInt ni) ->
  exists ps fixed, block_trained ns d ps /\ saved_numbers ns m = Ok (fixed, entries ps - fixed, entries ps)%Z /\
    (stays_frozen ns -> fixed = (n * d)%Z) /\ (~ stays_frozen ns -> fixed = 0%Z).
Proof.
  intros MO N INF OP TY IMO LD LN LF A B ITY G AS FZ AT NI.
  destruct (block_trained_made ns mo st co d n infl pw w nl rnn an op' op ty' ty m MO N INF OP TY IMO LD LN LF A B ITY G AS) as (ps & P & BT & Q).
  exists ps. unfold saved_numbers, flag_of, int_of. rewrite P, FZ, AT, NI. cbn [bind].
  assert (Z0 : number_of_parameters [] ps = (0, entries ps - 0, entries ps)%Z).
  { rewrite numbers_of. rewrite filter_none by reflexivity. reflexivity. }
  unfold stays_frozen. rewrite FZ, AT, NI.
  destruct (m_free_rnn m || m_free_time m) eqn:R; cbn [negb andb].
  - exists 0%Z. split; [exact BT|]. split; [rewrite Z0; reflexivity|]. split; [|reflexivity]. intros (H & _). rewrite AS in H. discriminate.
  - destruct fz.
    2: { exists 0%Z. split; [exact BT|]. split; [rewrite Z0; reflexivity|]. split; [|reflexivity]. intros (_ & H & _). discriminate. }
    destruct (Q eq_refl) as (a & E & NQ). destruct (q1_entries mo n d (d * infl) a IMO NQ) as (QE & v & QV). rewrite <- E in QE, QV.
    rewrite QV. cbn [bind]. destruct ((0 <=? at_)%Z && (at_ <=? ni)%Z) eqn:C.
    + exists 0%Z. split; [exact BT|]. split; [rewrite Z0; reflexivity|]. split; [|reflexivity].
      intros (_ & _ & x & y & H1 & H2 & H3). injection H1 as <-. injection H2 as <-. exfalso. apply H3. lia.
    + exists (n * d)%Z. split; [exact BT|]. split; [rewrite numbers_of, QE; reflexivity|]. split; [reflexivity|].
      intros H. exfalso. apply H. split; [exact AS|]. split; [reflexivity|]. exists at_, ni. repeat split. lia.
Qed.

Lemma spiral_saved words ns end_ : parse_args spiral_parser words = Some ns -> ~ both_modes ns -> positive_sizes ns ->
  exists m ps n fixed, spiral_setup ns end_ = Ok m /\ block_trained ns 2 ps /\ pd_get "nr_of_particles" ns = Some (AInt n) /\
    saved_numbers ns m = Ok (fixed, entries ps - fixed, entries ps)%Z /\
    (stays_frozen ns -> fixed = (n * 2)%Z) /\ (~ stays_frozen ns -> fixed = 0%Z).
Proof.
  intros E NB PO. destruct (spiral_block words ns end_ E NB PO) as (m & mo & n & infl & op & ty & st & co & pw & w & nl & rnn & an & op' & ty' &
    S & G & MO & N & INF & OP & TY & IMO & LN & LF & A & B & ITY & AS).
  pose proof spiral_nodup as nd. pose proof spiral_defaults as df. got_flag nd df E "custom_parameter_freezing" fz FZ.
  got_int nd df E "unfreeze_parameters_at_iter" at_ AT. got_int nd df E "niters" ni NI.
  destruct (saved_made ns mo st co 2 n infl pw w nl rnn an op' op ty' ty m fz at_ ni MO N INF OP TY IMO ltac:(lia) ltac:(lia) ltac:(lia) A B ITY G AS FZ AT NI)
    as (ps & fixed & BT & SV & F1 & F2).
  exists m, ps, n, fixed. auto 10.
Qed.
Lemma mapping_saved words ns : parse_args mapping_parser words = Some ns -> ~ both_modes ns -> ~ model_is ns "universal" -> positive_sizes ns ->
  exists m ps n fixed, mapping_setup ns = Ok m /\ block_trained ns 1 ps /\ pd_get "nr_of_particles" ns = Some (AInt n) /\
    saved_numbers ns m = Ok (fixed, entries ps - fixed, entries ps)%Z /\
    (stays_frozen ns -> fixed = n) /\ (~ stays_frozen ns -> fixed = 0%Z).
Proof.
  intros E NB NU PO. destruct (mapping_block words ns E NB NU PO) as (m & mo & n & infl & op & ty & st & co & pw & w & nl & rnn & an & op' & ty' &
    S & G & MO & N & INF & OP & TY & IMO & LN & LF & A & B & ITY & AS).
  pose proof mapping_nodup as nd. pose proof mapping_defaults as df. got_flag nd df E "custom_parameter_freezing" fz FZ.
  got_int nd df E "unfreeze_parameters_at_iter" at_ AT. got_int nd df E "niters" ni NI.
  destruct (saved_made ns mo st co 1 n infl pw w nl rnn an op' op ty' ty m fz at_ ni MO N INF OP TY IMO ltac:(lia) ltac:(lia) ltac:(lia) A B ITY G AS FZ AT NI)
    as (ps & fixed & BT & SV & F1 & F2). rewrite Z.mul_1_r in F1.
  exists m, ps, n, fixed. auto 10.
Qed.

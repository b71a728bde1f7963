(** All commands of the four experiment scripts. *)
From Coq Require Import List String Ascii Arith ZArith QArith Bool Lia.
From Verif Require Import Base SweepModel SweepSpec SweepProofs SweepProofs2 CommandModel ShellSpec CommandSpec CommandProofs
  ArgparseModel ArgparseProofs ExperimentModel ExperimentSpec ExperimentProofs.
Import ListNotations.
Open Scope string_scope.
Open Scope list_scope.
Open Scope nat_scope.

(** ** The command lines *)
Ltac find_key := repeat match goal with
  | H : (if String.eqb ?m ?k then _ else _) = Some _ |- _ => destruct (String.eqb_spec m k); [subst m; injection H as <-|]
  | H : None = Some _ |- _ => discriminate H
  end.

Ltac nodup_keys := repeat constructor; cbn; let H := fresh in intros H; repeat destruct H as [H|H]; try discriminate H; contradiction.

Lemma mapping_parser_defaults python : forall m k, pd_get m (mapping_sweep_parser python) = Some k ->
  has_kind k (pd_get m (defaults (mapping_sweep_parser python))).
Proof.
  intros m k H. unfold pd_get in H. cbn [mapping_sweep_parser sd_get] in H. find_key; cbn; try (eexists; split; [reflexivity|cbn; auto]).
  eexists; reflexivity.
Qed.

Lemma spiral_parser_defaults python : forall m k, pd_get m (spiral_sweep_parser python) = Some k ->
  has_kind k (pd_get m (defaults (spiral_sweep_parser python))).
Proof.
  intros m k H. unfold pd_get in H. cbn [spiral_sweep_parser sd_get] in H. find_key; cbn; try (eexists; split; [reflexivity|cbn; auto]).
  eexists; reflexivity.
Qed.

(** The namespace every accepted command line gives. *)
Definition sweep_namespace (ns : pdict argval) gpu path n start model base force : Prop :=
  pd_get "gpu" ns = Some (AInt gpu) /\ pd_get "path_to_python" ns = Some (AText path) /\ pd_get "nr_of_seeds" ns = Some (AInt n) /\
  pd_get "starting_seed_id" ns = Some (AInt start) /\ pd_get "shooting_model" ns = Some (AText model) /\ In model offered_models /\
  pd_get "output_base_directory" ns = Some (AText base) /\ pd_get "force_recompute" ns = Some (AFlag force).


Lemma mapping_namespace python argv ns : parse_args (mapping_sweep_parser python) argv = Some ns ->
  exists gpu path n start model base force fcn, sweep_namespace ns gpu path n start model base force /\
    pd_get "fcn" ns = Some (AText fcn) /\ In fcn ["cubic"; "quadratic"].
Proof.
  intros E. assert (K := parsed_kinds (mapping_sweep_parser python) _ _ ltac:(nodup_keys) (mapping_parser_defaults python) E).
  destruct (K "gpu" _ ltac:(discriminate) eq_refl) as ([gpu| | |] & A1 & B1); try contradiction.
  destruct (K "path_to_python" _ ltac:(discriminate) eq_refl) as ([| |path|] & A2 & B2); try contradiction.
  destruct (K "nr_of_seeds" _ ltac:(discriminate) eq_refl) as ([n| | |] & A3 & B3); try contradiction.
  destruct (K "starting_seed_id" _ ltac:(discriminate) eq_refl) as ([start| | |] & A4 & B4); try contradiction.
  destruct (K "fcn" _ ltac:(discriminate) eq_refl) as ([| |fcn|] & A5 & B5); try contradiction.
  destruct (K "shooting_model" _ ltac:(discriminate) eq_refl) as ([| |model|] & A6 & B6); try contradiction.
  destruct (K "output_base_directory" _ ltac:(discriminate) eq_refl) as ([| |base|] & A7 & B7); try contradiction.
  destruct (K "force_recompute" _ ltac:(discriminate) eq_refl) as (force & A8).
  exists gpu, path, n, start, model, base, force, fcn. split; [repeat split; assumption|]. split; assumption.
Qed.

Lemma spiral_namespace python argv ns : parse_args (spiral_sweep_parser python) argv = Some ns ->
  exists gpu path n start model base force, sweep_namespace ns gpu path n start model base force.
Proof.
  intros E. assert (K := parsed_kinds (spiral_sweep_parser python) _ _ ltac:(nodup_keys) (spiral_parser_defaults python) E).
  destruct (K "gpu" _ ltac:(discriminate) eq_refl) as ([gpu| | |] & A1 & B1); try contradiction.
  destruct (K "path_to_python" _ ltac:(discriminate) eq_refl) as ([| |path|] & A2 & B2); try contradiction.
  destruct (K "nr_of_seeds" _ ltac:(discriminate) eq_refl) as ([n| | |] & A3 & B3); try contradiction.
  destruct (K "starting_seed_id" _ ltac:(discriminate) eq_refl) as ([start| | |] & A4 & B4); try contradiction.
  destruct (K "shooting_model" _ ltac:(discriminate) eq_refl) as ([| |model|] & A6 & B6); try contradiction.
  destruct (K "output_base_directory" _ ltac:(discriminate) eq_refl) as ([| |base|] & A7 & B7); try contradiction.
  destruct (K "force_recompute" _ ltac:(discriminate) eq_refl) as (force & A8).
  exists gpu, path, n, start, model, base, force. repeat split; assumption.
Qed.

(** The arguments of the sweeps. *)
Definition args_of (ns : pdict argval) (n start : Z) (base model : string) : sweep_args :=
  mkArgs (Z.to_nat start) (Z.to_nat n) base (VStr model)
    (match text_of "fcn" ns with Ok f => Some (VStr f) | Raise _ => None end).

Lemma script_runs leaves script sweeps Ls ns files gpu path n start model base force :
  sweep_namespace ns gpu path n start model base force -> chain process0 sweeps Ls ->
  run_script leaves script sweeps ns files =
    Ok (snd (all_jobs leaves script path gpu (negb force) (args_of ns n start base model) 0 sweeps Ls (files, []))).
Proof.
  intros (A1 & A2 & A3 & A4 & A5 & _ & A6 & A7) C.
  assert (SA : sweep_args_of ns = Ok (args_of ns n start base model)).
  { unfold sweep_args_of, int_of. rewrite A4, A3. cbn [bind].
    assert (X : text_of "output_base_directory" ns = Ok base) by (unfold text_of; rewrite A6; reflexivity). rewrite X. cbn [bind].
    assert (Y : text_of "shooting_model" ns = Ok model) by (unfold text_of; rewrite A5; reflexivity). rewrite Y. reflexivity. }
  unfold run_script. rewrite SA. cbn [bind].
  assert (X : text_of "path_to_python" ns = Ok path) by (unfold text_of; rewrite A2; reflexivity). rewrite X. cbn [bind].
  unfold int_of, flag_of. rewrite A1. cbn [bind]. rewrite A7. cbn [bind].
  destruct (chain_runs leaves script path gpu (negb force) (args_of ns n start base model) _ _ _ C 0 (files, [])) as (p' & E).
  unfold world in E |- *. rewrite E. reflexivity.
Qed.

(** ** One run is understood *)
Definition target_ok (target : parser) : Prop :=
  (exists d, pd_get "nr_of_particles" target = Some (Value TInt d)) /\
  (exists d, pd_get "inflation_factor" target = Some (Value TInt d)) /\
  (exists d, pd_get "output_directory" target = Some (Value (TText None) d)) /\
  (exists d, pd_get "seed" target = Some (Value TInt d)).

Definition template_ok (template : config) : Prop :=
  NoDup (map fst template) /\
  forall k, In k ["nr_of_particles"; "inflation_factor"; "output_directory"; "seed"] -> ~ In k (map fst template).

Lemma plain_text s : match s with EmptyString => false | _ => all_chars plain_char s end = true -> ShellSpec.plain s.
Proof. destruct s as [|c s]; [discriminate|]. intros H. split; [discriminate|exact H]. Qed.

Lemma log_plain dir : safe dir -> optional_plain (Some (dir ++ "/runlog.log")%string).
Proof. intros (P & _). apply plain_app; [exact P|reflexivity]. Qed.

Lemma tail_good target dir seed c : target_ok target -> safe dir -> shaped c ->
  Forall (good target) (c ++ [("output_directory", VStr dir); ("seed", VInt (Z.of_nat seed))]).
Proof.
  intros ((d1 & T1) & (d2 & T2) & (d3 & T3) & (d4 & T4)) (P & D) (a & b & -> & A & B). cbn [app].
  constructor; [|constructor; [|constructor; [|constructor; [|constructor]]]].
  - split; [apply plain_text; reflexivity|]. split; [discriminate|]. split; [exact A|]. exists d1. left. exact T1.
  - split; [apply plain_text; reflexivity|]. split; [discriminate|]. split; [exact B|]. exists d2. left. exact T2.
  - split; [apply plain_text; reflexivity|]. split; [discriminate|]. split; [exact P|]. split; [exact D|]. exists None, d3. split; [exact T3|exact I].
  - split; [apply plain_text; reflexivity|]. split; [discriminate|]. split; [lia|]. exists d4. left. exact T4.
Qed.

Lemma args_nodup template dir seed c : template_ok template -> shaped c ->
  NoDup (map fst (template ++ c ++ [("output_directory", VStr dir); ("seed", VInt (Z.of_nat seed))])).
Proof.
  intros (D & F) (a & b & -> & _ & _). rewrite map_app. apply nodup_app; [exact D|nodup_keys|].
  intros x X Y. apply (F x); [|exact X]. cbn in Y. cbn. tauto.
Qed.

Lemma run_told target script python gpu args s seed c : target_ok target -> template_ok (sw_template s) ->
  Forall (good target) (sw_template s) -> shaped c ->
  safe (output_directory (sw_prefix s) args (sw_template s) seed c) -> ShellSpec.plain script -> ShellSpec.plain python ->
  told target script (settings s (output_directory (sw_prefix s) args (sw_template s) seed c) seed c)
    (command_of script python gpu args s seed c).
Proof.
  intros T O G S D PS PP. unfold command_of. set (dir := output_directory _ _ _ _ _) in *.
  destruct (command_told target script (run_args (sw_template s) dir seed c) python (Some gpu) (Some (dir ++ "/runlog.log")%string))
    as (words & ns & A & B & C & E).
  - rewrite (run_args_list _ _ _ _ S (proj2 O)). apply args_nodup; assumption.
  - rewrite (run_args_list _ _ _ _ S (proj2 O)). apply Forall_app. split; [exact G|]. apply tail_good; assumption.
  - exact PS.
  - exact PP.
  - apply log_plain. exact D.
  - exists words, ns. split; [exact A|]. split; [exact B|]. split.
    + intros n v H. apply C. rewrite (run_args_settings s dir seed c S (proj2 O)). exact H.
    + intros n H. apply E. rewrite (run_args_settings s dir seed c S (proj2 O)). exact H.
Qed.

(** ** Concrete sweeps *)
Lemma shaped_product k1 k2 (l1 l2 : list Z) : k1 = "nr_of_particles" -> k2 = "inflation_factor" ->
  Forall (fun z => (0 <= z)%Z) l1 -> Forall (fun z => (0 <= z)%Z) l2 ->
  Forall shaped (product [(k1, ints l1); (k2, ints l2)]).
Proof.
  intros -> -> F1 F2. rewrite product_cart. apply Forall_forall. intros c H. cbn [cart] in H.
  apply in_flat_map in H as (v & V & H). apply in_map_iff in H as (c' & <- & H).
  apply in_flat_map in H as (v' & V' & H). apply in_map_iff in H as (c'' & <- & [<-|[]]).
  unfold ints in *. apply in_map_iff in V as (a & <- & A). apply in_map_iff in V' as (b & <- & B).
  exists a, b. split; [reflexivity|]. split; [apply (proj1 (Forall_forall _ _) F1 a A)|apply (proj1 (Forall_forall _ _) F2 b B)].
Qed.

Ltac nonneg := repeat constructor; lia.

Lemma spiral_values_shaped : Forall shaped (product spiral_values).
Proof. apply shaped_product; [reflexivity|reflexivity|nonneg|nonneg]. Qed.
Lemma spiral_free_shaped : Forall shaped (product spiral_free_values).
Proof. apply shaped_product; [reflexivity|reflexivity|nonneg|nonneg]. Qed.
Lemma mapping_values_shaped : Forall shaped (product mapping_values).
Proof. apply shaped_product; [reflexivity|reflexivity|nonneg|nonneg]. Qed.
Lemma mapping_free_shaped : Forall shaped (product mapping_free_values).
Proof. apply shaped_product; [reflexivity|reflexivity|nonneg|nonneg]. Qed.

Lemma spiral_chain model : chain process0 (spiral_sweeps model) [product spiral_values].
Proof. eapply chain_cons; [reflexivity|constructor]. Qed.

Lemma spiral_rnn_chain model : chain process0 (spiral_rnn_sweeps model)
  [product spiral_free_values; product spiral_free_values ++ product spiral_free_values;
   product spiral_free_values ++ product spiral_free_values ++ product spiral_values].
Proof. repeat (eapply chain_cons; [reflexivity|]). constructor. Qed.

Lemma mapping_chain model fcn : chain process0 (mapping_sweeps model fcn) [product mapping_values].
Proof. eapply chain_cons; [reflexivity|constructor]. Qed.

Lemma mapping_rnn_chain model fcn : chain process0 (mapping_rnn_sweeps model fcn)
  [product mapping_free_values; product mapping_free_values ++ product mapping_free_values;
   product mapping_free_values ++ product mapping_free_values ++ product mapping_values].
Proof. repeat (eapply chain_cons; [reflexivity|]). constructor. Qed.

Lemma spiral_target : target_ok spiral_parser.
Proof. repeat split; eexists; reflexivity. Qed.
Lemma mapping_target : target_ok mapping_parser.
Proof. repeat split; eexists; reflexivity. Qed.

Ltac good_entry := split; [apply plain_text; reflexivity|split; [discriminate|]].


Lemma offered_safe m : In m offered_models -> ShellSpec.plain m /\ no_dash m = true.
Proof. intros H. repeat destruct H as [<-|H]; try contradiction; (split; [apply plain_text|]; reflexivity). Qed.

Lemma spiral_rest_good : forall model, Forall (good spiral_parser) (tl (spiral_settings model)).
Proof.
  intros model. cbn [spiral_settings tl].
  repeat (constructor; [good_entry; first [reflexivity|split; [lia|eexists; first [left; reflexivity|right; reflexivity]]]|]). constructor.
Qed.

Lemma spiral_settings_good model : In model spiral_models -> Forall (good spiral_parser) (spiral_settings model).
Proof.
  intros M. change (spiral_settings model) with (("shooting_model", VStr model) :: tl (spiral_settings model)).
  constructor; [|apply spiral_rest_good]. good_entry.
  assert (S : ShellSpec.plain model /\ no_dash model = true) by (apply offered_safe; revert M; cbn; tauto).
  split; [apply S|]. split; [apply S|]. do 2 eexists. split; [reflexivity|]. exact M.
Qed.

Lemma mapping_settings_good model fcn : In model offered_models -> In fcn ["cubic"; "quadratic"] ->
  Forall (good mapping_parser) (mapping_settings model fcn).
Proof.
  intros M F. assert (S := offered_safe model M).
  assert (SF : ShellSpec.plain fcn /\ no_dash fcn = true).
  { repeat destruct F as [<-|F]; try contradiction; (split; [apply plain_text|]; reflexivity). }
  unfold mapping_settings.
  constructor. { good_entry. split; [apply S|]. split; [apply S|]. do 2 eexists. split; [reflexivity|]. exact M. }
  do 6 (constructor; [good_entry; first [reflexivity|split; [lia|eexists; first [left; reflexivity|right; reflexivity]]]|]).
  constructor. { good_entry. split; [apply SF|]. split; [apply SF|]. do 2 eexists. split; [reflexivity|]. exact F. }
  repeat (constructor; [good_entry; reflexivity|]). constructor.
Qed.

(** All sweeps of a script have templates of this form. *)
Definition sweep_ok (target : parser) (s : sweep) : Prop :=
  safe (sw_prefix s) /\ template_ok (sw_template s) /\ Forall (good target) (sw_template s).

Lemma flag_good target k : ShellSpec.plain k -> k <> "help" -> pd_get k target = Some Flag -> good target (k, VNone).
Proof. intros A B C. repeat split; try assumption; apply A. Qed.

Ltac template_keys := split; [cbn [sw_template map fst spiral_settings mapping_settings]; nodup_keys|
  let k := fresh in let K := fresh in let H := fresh in intros k K; cbn [sw_template map fst spiral_settings mapping_settings]; cbn in K;
  repeat destruct K as [K|K]; try contradiction; subst k; intros H; cbn in H; repeat destruct H as [H|H]; try discriminate H; contradiction].

Ltac safe_prefix := split; [apply plain_text; reflexivity|reflexivity].
Ltac extra_flag := apply flag_good; [apply plain_text; reflexivity|discriminate|reflexivity].
Ltac extra_int := good_entry; split; [lia|eexists; left; reflexivity].

Lemma spiral_sweeps_ok model : In model spiral_models -> Forall (sweep_ok spiral_parser) (spiral_sweeps model).
Proof.
  intros M. constructor; [|constructor]. split; [safe_prefix|]. split; [template_keys|]. apply (spiral_settings_good model M).
Qed.

Lemma spiral_rnn_sweeps_ok model : In model spiral_models -> Forall (sweep_ok spiral_parser) (spiral_rnn_sweeps model).
Proof.
  intros M. assert (G := spiral_settings_good model M). unfold spiral_rnn_sweeps.
  constructor; [split; [safe_prefix|split; [template_keys|cbn [sw_template]; constructor; [extra_flag|exact G]]]|].
  constructor; [split; [safe_prefix|split; [template_keys|cbn [sw_template]; constructor; [extra_flag|constructor; [extra_int|exact G]]]]|].
  constructor; [split; [safe_prefix|split; [template_keys|cbn [sw_template]; constructor; [extra_flag|exact G]]]|constructor].
Qed.

Lemma mapping_sweeps_ok model fcn : In model offered_models -> In fcn ["cubic"; "quadratic"] ->
  Forall (sweep_ok mapping_parser) (mapping_sweeps model fcn).
Proof.
  intros M F. constructor; [|constructor]. split; [safe_prefix|]. split; [template_keys|]. apply (mapping_settings_good model fcn M F).
Qed.

Lemma mapping_rnn_sweeps_ok model fcn : In model offered_models -> In fcn ["cubic"; "quadratic"] ->
  Forall (sweep_ok mapping_parser) (mapping_rnn_sweeps model fcn).
Proof.
  intros M F. assert (G := mapping_settings_good model fcn M F). unfold mapping_rnn_sweeps.
  constructor; [split; [safe_prefix|split; [template_keys|cbn [sw_template]; constructor; [extra_flag|exact G]]]|].
  constructor; [split; [safe_prefix|split; [template_keys|cbn [sw_template]; constructor; [extra_flag|constructor; [extra_int|exact G]]]]|].
  constructor; [split; [safe_prefix|split; [template_keys|cbn [sw_template]; constructor; [extra_flag|exact G]]]|constructor].
Qed.

(** The names of the runs are harmless. *)
Definition names_ok (args : sweep_args) (s : sweep) : Prop := forall c, shaped c ->
  all_chars plain_char (py_str (current_fcn args (sw_template s) c)) = true /\
  all_chars plain_char (py_str (current_shooting_model args (sw_template s) c)) = true.

Lemma shaped_get c k : shaped c -> k <> "nr_of_particles" -> k <> "inflation_factor" -> pd_get k c = None.
Proof.
  intros (a & b & -> & _ & _) N1 N2. apply get_absent. cbn. intros [H|[H|[]]]; congruence.
Qed.

Lemma names_from args s model fcn : pd_get "shooting_model" (sw_template s) = Some (VStr model) -> ShellSpec.plain model ->
  (pd_get "fcn" (sw_template s) = Some (VStr fcn) /\ ShellSpec.plain fcn \/
   pd_get "fcn" (sw_template s) = None /\ a_fcn args = None) -> names_ok args s.
Proof.
  intros M PM F c S. unfold current_fcn, current_shooting_model.
  rewrite !(shaped_get c) by (auto; discriminate). rewrite M. split; [|apply PM].
  destruct F as [(F & P)|(F & A)]; [rewrite F; apply P|rewrite F, A; reflexivity].
Qed.

Lemma all_told leaves target script python gpu dnr args sweeps Ls files :
  target_ok target -> Forall (sweep_ok target) sweeps -> Forall (names_ok args) sweeps -> Forall (Forall shaped) Ls ->
  ShellSpec.plain (a_output_base_directory args) -> ShellSpec.plain script -> ShellSpec.plain python ->
  forall r, In r (snd (all_jobs leaves script python gpu dnr args 0 sweeps Ls (files, []))) ->
  exists s, nth_error sweeps (r_sweep r) = Some s /\
    told target script (settings s (output_directory (sw_prefix s) args (sw_template s) (r_seed r) (r_config r)) (r_seed r) (r_config r))
      (r_command r).
Proof.
  intros T O NM SH PB PS PP r H. apply all_jobs_runs in H as [[]|(i & s & L & A & B & j & J & ->)].
  cbn [Nat.add r_sweep r_seed r_config r_command]. exists s. split; [exact A|].
  apply jobs_in in J as (_ & J).
  assert (S : shaped (snd j)).
  { apply (proj1 (Forall_forall _ L)); [|exact J]. apply (proj1 (Forall_forall _ _) SH). apply (nth_error_In _ _ B). }
  apply nth_error_In in A. destruct (proj1 (Forall_forall _ _) O s A) as (SP & TO & G).
  destruct (proj1 (Forall_forall _ _) NM s A (snd j) S) as (N1 & N2).
  apply run_told; auto. apply directory_safe; auto.
Qed.

Lemma spiral_no_fcn python argv ns : parse_args (spiral_sweep_parser python) argv = Some ns -> text_of "fcn" ns = Raise AttributeError.
Proof.
  intros E. unfold text_of.
  rewrite (parse_undeclared (("help", Help) :: spiral_sweep_parser python) ltac:(nodup_keys) "fcn" eq_refl _ _ (le_n _) _ _ E).
  reflexivity.
Qed.

(** What is claimed of the runs of a script. *)
Lemma sweep_args_ok ns gpu path n start model base force : sweep_namespace ns gpu path n start model base force ->
  sweep_args_of ns = Ok (args_of ns n start base model).
Proof.
  intros (A1 & A2 & A3 & A4 & A5 & _ & A6 & A7). unfold sweep_args_of, int_of. rewrite A4, A3. cbn [bind].
  assert (X : text_of "output_base_directory" ns = Ok base) by (unfold text_of; rewrite A6; reflexivity). rewrite X. cbn [bind].
  assert (Y : text_of "shooting_model" ns = Ok model) by (unfold text_of; rewrite A5; reflexivity). rewrite Y. reflexivity.
Qed.

Definition spiral_lists (rnn : bool) : list (list config) :=
  if rnn then [product spiral_free_values; product spiral_free_values ++ product spiral_free_values;
   product spiral_free_values ++ product spiral_free_values ++ product spiral_values] else [product spiral_values].
Definition mapping_lists (rnn : bool) : list (list config) :=
  if rnn then [product mapping_free_values; product mapping_free_values ++ product mapping_free_values;
   product mapping_free_values ++ product mapping_free_values ++ product mapping_values] else [product mapping_values].

Lemma spiral_script_chain rnn model : chain process0 (spiral_script rnn model) (spiral_lists rnn).
Proof. destruct rnn; [apply spiral_rnn_chain|apply spiral_chain]. Qed.
Lemma mapping_script_chain rnn model fcn : chain process0 (mapping_script rnn model fcn) (mapping_lists rnn).
Proof. destruct rnn; [apply mapping_rnn_chain|apply mapping_chain]. Qed.

Lemma spiral_lists_shaped rnn : Forall (Forall shaped) (spiral_lists rnn).
Proof.
  assert (A := spiral_values_shaped). assert (B := spiral_free_shaped).
  destruct rnn; cbn [spiral_lists]; repeat (apply Forall_cons; [repeat first [assumption|apply Forall_app; split]|]); apply Forall_nil.
Qed.
Lemma mapping_lists_shaped rnn : Forall (Forall shaped) (mapping_lists rnn).
Proof.
  assert (A := mapping_values_shaped). assert (B := mapping_free_shaped).
  destruct rnn; cbn [mapping_lists]; repeat (apply Forall_cons; [repeat first [assumption|apply Forall_app; split]|]); apply Forall_nil.
Qed.

Lemma spiral_names rnn args model : In model offered_models -> a_fcn args = None -> Forall (names_ok args) (spiral_script rnn model).
Proof.
  intros M A. destruct (offered_safe model M) as (P & _).
  destruct rnn; repeat constructor; apply (names_from args _ model ""); auto.
Qed.
Lemma mapping_names rnn args model fcn : In model offered_models -> In fcn ["cubic"; "quadratic"] -> Forall (names_ok args) (mapping_script rnn model fcn).
Proof.
  intros M F. destruct (offered_safe model M) as (P & _).
  assert (PF : ShellSpec.plain fcn) by (repeat destruct F as [<-|F]; try contradiction; apply plain_text; reflexivity).
  destruct rnn; repeat constructor; apply (names_from args _ model fcn); auto.
Qed.

Lemma all_told_runs leaves target script python gpu dnr args sweeps Ls files :
  target_ok target -> Forall (sweep_ok target) sweeps -> Forall (names_ok args) sweeps -> Forall (Forall shaped) Ls ->
  ShellSpec.plain (a_output_base_directory args) -> ShellSpec.plain script -> ShellSpec.plain python ->
  all_runs sweeps args (fun s dir seed c command => told target script (settings s dir seed c) command)
    (snd (all_jobs leaves script python gpu dnr args 0 sweeps Ls (files, []))).
Proof.
  intros T O NM SH PB PS PP r H. destruct (all_told leaves target script python gpu dnr args sweeps Ls files T O NM SH PB PS PP r H) as (s & A & B).
  exists s. eexists. split; [exact A|]. split; [|exact B]. unfold directory, job_of. cbn [fst snd]. rewrite A. reflexivity.
Qed.

Lemma plain_script : ShellSpec.plain "spiral.py" /\ ShellSpec.plain "simple_functional_mapping_example.py".
Proof. split; apply plain_text; reflexivity. Qed.

Lemma mapping_all_told python argv ns rnn leaves files : parse_args (mapping_sweep_parser python) argv = Some ns -> plain_arguments ns ->
  exists model fcn args runs, pd_get "shooting_model" ns = Some (AText model) /\ pd_get "fcn" ns = Some (AText fcn) /\
    sweep_args_of ns = Ok args /\ mapping_experiments rnn leaves ns files = Ok runs /\
    all_runs (mapping_script rnn model fcn) args
      (fun s dir seed c command => told mapping_parser "simple_functional_mapping_example.py" (settings s dir seed c) command) runs.
Proof.
  intros E (PB & PP & _). destruct (mapping_namespace python argv ns E) as (gpu & path & n & start & model & base & force & fcn & S & F & IF).
  assert (S' := S). destruct S' as (A1 & A2 & A3 & A4 & A5 & IM & A6 & A7).
  exists model, fcn, (args_of ns n start base model). eexists. split; [exact A5|]. split; [exact F|].
  split; [apply (sweep_args_ok _ _ _ _ _ _ _ _ S)|]. split.
  - unfold mapping_experiments. assert (X : text_of "shooting_model" ns = Ok model) by (unfold text_of; rewrite A5; reflexivity).
    assert (Y : text_of "fcn" ns = Ok fcn) by (unfold text_of; rewrite F; reflexivity). rewrite X, Y. cbn [bind].
    apply (script_runs leaves _ (mapping_script rnn model fcn) (mapping_lists rnn) ns files _ _ _ _ _ _ _ S (mapping_script_chain rnn model fcn)).
  - apply all_told_runs.
    + apply mapping_target.
    + destruct rnn; [apply mapping_rnn_sweeps_ok|apply mapping_sweeps_ok]; assumption.
    + apply mapping_names; assumption.
    + apply mapping_lists_shaped.
    + apply PB. exact A6.
    + apply plain_script.
    + apply PP. exact A2.
Qed.

Lemma spiral_run python argv ns : parse_args (spiral_sweep_parser python) argv = Some ns ->
  exists gpu path n start model base force, sweep_namespace ns gpu path n start model base force /\
    a_fcn (args_of ns n start base model) = None /\
    forall rnn leaves files, spiral_experiments rnn leaves ns files =
      Ok (snd (all_jobs leaves "spiral.py" path gpu (negb force) (args_of ns n start base model) 0 (spiral_script rnn model) (spiral_lists rnn) (files, []))).
Proof.
  intros E. destruct (spiral_namespace python argv ns E) as (gpu & path & n & start & model & base & force & S).
  exists gpu, path, n, start, model, base, force. split; [exact S|]. split.
  - unfold args_of. rewrite (spiral_no_fcn python argv ns E). reflexivity.
  - intros rnn leaves files. unfold spiral_experiments.
    assert (X : text_of "shooting_model" ns = Ok model) by (destruct S as (_ & _ & _ & _ & A5 & _); unfold text_of; rewrite A5; reflexivity).
    rewrite X. cbn [bind].
    apply (script_runs leaves _ (spiral_script rnn model) (spiral_lists rnn) ns files _ _ _ _ _ _ _ S (spiral_script_chain rnn model)).
Qed.

Lemma spiral_all_told python argv ns rnn leaves files model : parse_args (spiral_sweep_parser python) argv = Some ns -> plain_arguments ns ->
  pd_get "shooting_model" ns = Some (AText model) -> In model spiral_models ->
  exists args runs, sweep_args_of ns = Ok args /\ spiral_experiments rnn leaves ns files = Ok runs /\
    all_runs (spiral_script rnn model) args (fun s dir seed c command => told spiral_parser "spiral.py" (settings s dir seed c) command) runs.
Proof.
  intros E (PB & PP & _) M IM. destruct (spiral_run python argv ns E) as (gpu & path & n & start & model' & base & force & S & NF & R).
  assert (S' := S). destruct S' as (A1 & A2 & A3 & A4 & A5 & IO & A6 & A7).
  assert (model' = model) as -> by congruence.
  exists (args_of ns n start base model). eexists. split; [apply (sweep_args_ok _ _ _ _ _ _ _ _ S)|]. split; [apply R|].
  apply all_told_runs.
  - apply spiral_target.
  - destruct rnn; [apply spiral_rnn_sweeps_ok|apply spiral_sweeps_ok]; exact IM.
  - apply spiral_names; assumption.
  - apply spiral_lists_shaped.
  - apply PB. exact A6.
  - apply plain_script.
  - apply PP. exact A2.
Qed.

(** ** Models spiral.py does not know *)
Lemma spiral_rest_printable model : Forall printable (tl (spiral_settings model)).
Proof. apply (Forall_impl _ (good_printable spiral_parser)). apply spiral_rest_good. Qed.

Lemma spiral_refused_run python gpu args extra prefix seed c model : In model offered_models -> ~ In model spiral_models ->
  let s := mkSweep prefix (extra ++ spiral_settings model) spiral_values in
  Forall (good spiral_parser) extra -> template_ok (extra ++ spiral_settings model) -> shaped c ->
  safe (output_directory prefix args (extra ++ spiral_settings model) seed c) -> ShellSpec.plain python ->
  refused spiral_parser "spiral.py" (command_of "spiral.py" python gpu args s seed c).
Proof.
  intros IO NI s G O S D PP. unfold command_of. cbn [sw_template sw_prefix s]. set (dir := output_directory _ _ _ _ _) in *.
  rewrite (run_args_list _ _ _ _ S (proj2 O)). rewrite <- app_assoc.
  change (spiral_settings model) with (("shooting_model", VStr model) :: tl (spiral_settings model)).
  cbn [app]. destruct (offered_safe model IO) as (P & ND). eapply command_refused.
  - exact G.
  - apply Forall_app. split; [apply spiral_rest_printable|].
    apply (Forall_impl _ (good_printable spiral_parser)). apply tail_good; [apply spiral_target|exact D|exact S].
  - apply plain_text. reflexivity.
  - discriminate.
  - exact P.
  - exact ND.
  - reflexivity.
  - exact NI.
  - apply plain_script.
  - exact PP.
  - apply log_plain. exact D.
Qed.

Lemma spiral_all_refused python argv ns rnn leaves files model : parse_args (spiral_sweep_parser python) argv = Some ns -> plain_arguments ns ->
  pd_get "shooting_model" ns = Some (AText model) -> ~ In model spiral_models ->
  exists runs, spiral_experiments rnn leaves ns files = Ok runs /\
    forall r, In r runs -> refused spiral_parser "spiral.py" (r_command r).
Proof.
  intros E (PB & PP & _) M NI. destruct (spiral_run python argv ns E) as (gpu & path & n & start & model' & base & force & S & NF & R).
  assert (S' := S). destruct S' as (A1 & A2 & A3 & A4 & A5 & IO & A6 & A7).
  assert (model' = model) as -> by congruence. eexists. split; [apply R|].
  intros r H. apply all_jobs_runs in H as [[]|(i & s & L & A & B & j & J & ->)]. cbn [r_command].
  apply jobs_in in J as (_ & J).
  assert (SH : shaped (snd j)).
  { apply (proj1 (Forall_forall _ L)); [|exact J]. apply (proj1 (Forall_forall _ _) (spiral_lists_shaped rnn)). apply (nth_error_In _ _ B). }
  assert (NM := proj1 (Forall_forall _ _) (spiral_names rnn (args_of ns n start base model) model IO NF) s (nth_error_In _ _ A) (snd j) SH).
  assert (PS : safe (sw_prefix s) /\ template_ok (sw_template s) /\
    exists extra, Forall (good spiral_parser) extra /\ sw_template s = extra ++ spiral_settings model).
  { apply nth_error_In in A. destruct rnn; cbn [spiral_script spiral_rnn_sweeps spiral_sweeps In] in A;
      repeat destruct A as [<-|A]; try contradiction; cbn [sw_template sw_prefix]; (split; [safe_prefix|split; [template_keys|]]).
    - exists [("use_particle_free_rnn_mode", VNone)]. split; [constructor; [extra_flag|constructor]|reflexivity].
    - exists [("use_particle_free_time_dependent_mode", VNone); ("nr_of_particle_free_time_dependent_steps", VInt 5)].
      split; [constructor; [extra_flag|constructor; [extra_int|constructor]]|reflexivity].
    - exists [("use_particle_rnn_mode", VNone)]. split; [constructor; [extra_flag|constructor]|reflexivity].
    - exists []. split; [constructor|reflexivity]. }
  destruct PS as (P & O & extra & G & X).
  assert (D := directory_safe (sw_prefix s) (args_of ns n start base model) (sw_template s) (fst j) (snd j) P (PB _ A6) SH (proj1 NM) (proj2 NM)).
  destruct s as [prefix template values]. cbn [sw_template sw_prefix] in *. subst template.
  apply (spiral_refused_run path gpu (args_of ns n start base model) extra prefix (fst j) (snd j) model IO NI G O SH D (PP _ A2)).
Qed.

(** The parameters of the blocks are those expected. *)
From Coq Require Import List String Ascii ZArith QArith Bool Lia.
From Verif Require Import Base BaseFacts ArgparseModel ExperimentModel BlockModel BlockProofs3 IntegratorModel SetupModel SetupSpec
  SetupProofs2 TrainedModel TrainedSpec TrainedProofs.
Import ListNotations.
Open Scope string_scope.
Open Scope list_scope.
Open Scope nat_scope.

Lemma in_states mo n d e y : In mo all_models -> In y (states_of mo n d e) <-> In y (model_states mo n d e).
Proof. intros M. each M; try reflexivity. cbn. tauto. Qed.

Lemma in_particles mo n d e x s : In mo all_models ->
  In (x, s) (states_of mo n d e ++ initial_costates (states_of mo n d e)) <-> particle_parameter mo n d e x s.
Proof.
  intros M. rewrite in_app_iff. unfold particle_parameter, initial_costates. rewrite in_map_iff. split.
  - intros [I|((k, s') & E & I)].
    + exists x. split; [apply in_states; assumption|left; reflexivity].
    + cbn [fst snd] in E. injection E as <- <-. exists k. split; [apply in_states; assumption|right; reflexivity].
  - intros (k & I & [->| ->]); apply in_states in I; try assumption; [left; exact I|right]. exists (k, s). auto.
Qed.

Lemma in_data mo d e op ty x s : In mo all_models -> In ty ["direct"; "linear"; "mini_nn"] ->
  In (x, s) (undotted (data_list mo d e op ty)) <-> (op = true /\ In mo data_models) /\ data_parameter ty d e x s.
Proof.
  intros M T. unfold data_list. destruct op; cbn [andb].
  - destruct (str_in mo data_models) eqn:SI.
    + assert (I : In mo data_models) by (each M; (discriminate || (cbn; tauto))).
      each T; cbn; (split; [intros H; split; [split; [reflexivity|exact I]|]; decompose [or] H; try contradiction;
        match goal with H : (_, _) = (_, _) |- _ => injection H as <- <- end; tauto|]);
        intros (_ & H); decompose [or and] H; subst; auto 10.
    + split; [intros []|]. intros ((_ & I) & _). each M; try discriminate; cbn in I; decompose [or] I; try discriminate; contradiction.
  - split; [intros []|]. intros ((H & _) & _). discriminate.
Qed.

Lemma in_free sets mo d e x s :
  In (x, s) (free_list sets (layers_of mo d e)) <-> layer_parameter mo d e (Z.of_nat sets) x s.
Proof.
  unfold free_list, layer_parameter. rewrite in_flat_map. split.
  - intros (i & I1 & I2). apply in_seq in I1. apply in_flat_map in I2 as ((l, ps) & I2 & I3). apply in_map_iff in I3 as ((k, s') & E & I3).
    cbn [fst snd] in *. injection E as <- <-. unfold layers_of in I2. apply in_map_iff in I2 as ((((l', o), j), b) & E & I2).
    cbn [pair_of] in E. injection E as <- <-. exists i, l', o, j, b. split; [lia|]. split; [exact I2|].
    destruct b; cbn in I3; decompose [or] I3; try contradiction; match goal with H : (_, _) = (_, _) |- _ => injection H as <- <- end; auto.
  - intros (i & l & o & j & b & L & I & H). exists i. split; [apply in_seq; lia|]. apply in_flat_map.
    exists (pair_of (l, o, j, b)). split; [apply in_map; exact I|]. apply in_map_iff. cbn [pair_of fst snd].
    destruct H as [(-> & ->)|(-> & -> & ->)].
    + exists ("weight", [o; j]). split; [reflexivity|]. destruct b; cbn; auto.
    + exists ("bias", [o]). split; [reflexivity|]. cbn. auto.
Qed.

(** Numbers. *)
Lemma entries_app a b : entries (a ++ b) = (entries a + entries b)%Z.
Proof.
  induction a as [|x a IH]; [reflexivity|]. change ((x :: a) ++ b) with (x :: (a ++ b)). unfold entries in *. cbn [fold_right]. rewrite IH. ring.
Qed.

Lemma particle_entries mo n d e : In mo all_models ->
  entries (states_of mo n d e ++ initial_costates (states_of mo n d e)) = particle_numbers mo n d e.
Proof. intros M. each M; cbn -[Z.mul Z.add]; ring. Qed.

Lemma data_entries mo d e op ty : In mo all_models -> In ty ["direct"; "linear"; "mini_nn"] ->
  entries (undotted (data_list mo d e op ty)) = if op && str_in mo data_models then data_numbers ty d e else 0%Z.
Proof. intros M T. unfold data_list. destruct op; [|reflexivity]. each M; each T; cbn -[Z.mul Z.add]; ring. Qed.

Lemma entries_rename (f : string * size -> string) l : entries (map (fun k => (f k, snd k)) l) = entries l.
Proof. induction l as [|a l IH]; [reflexivity|]. unfold entries in *. cbn [map fold_right snd]. rewrite IH. reflexivity. Qed.

Lemma free_entries sets mo d e : In mo all_models ->
  entries (free_list sets (layers_of mo d e)) = (Z.of_nat sets * layer_numbers mo d e)%Z.
Proof.
  intros M. unfold free_list.
  assert (ONE : forall i, entries (flat_map (fun l => map (fun k => (free_name i (fst l) (fst k), snd k)) (snd l)) (layers_of mo d e)) = layer_numbers mo d e).
  { intros i. transitivity (entries (flat_map snd (layers_of mo d e))).
    - induction (layers_of mo d e) as [|l ls IH]; [reflexivity|]. cbn [flat_map]. rewrite !entries_app, IH. f_equal.
      apply (entries_rename (fun k => free_name i (fst l) (fst k))).
    - each M; cbn -[Z.mul Z.add]; ring. }
  generalize 0. induction sets as [|k IH]; intros s; [reflexivity|]. cbn [seq flat_map]. rewrite entries_app, ONE, IH. lia.
Qed.

Lemma nodup_particles mo n d e op ty : In mo all_models -> In ty ["direct"; "linear"; "mini_nn"] ->
  NoDup (map fst (states_of mo n d e ++ initial_costates (states_of mo n d e) ++ undotted (data_list mo d e op ty))).
Proof. intros M T. unfold data_list. each M; each T; destruct op; apply SetupProofs.nodupb_ok; reflexivity. Qed.

Lemma free_names sets layers : layer_keys layers -> map fst (free_list sets layers) = map triple_name (free_triples sets layers).
Proof. intros K. rewrite free_list_triples by exact K. rewrite map_map. apply map_ext. intros ((i, l), k). reflexivity. Qed.

Lemma nodup_free sets mo d e op ty : In mo all_models -> In ty ["direct"; "linear"; "mini_nn"] ->
  NoDup (map fst (free_list sets (layers_of mo d e) ++ undotted (data_list mo d e op ty))).
Proof.
  intros M T. pose proof (layer_keys_of mo d e M) as K. destruct (data_not_free mo d e op ty M T) as (DN & DF).
  rewrite map_app, free_names by exact K. unfold undotted. rewrite map_map. cbn [fst]. rewrite map_map in DN.
  apply NoDup_app_intro; [apply nodup_free_names; exact K|exact DN|].
  intros x X. apply in_map_iff in X as (((i, l), k) & <- & _). specialize (DF i l k). rewrite map_map in DF. exact DF.
Qed.

Lemma with_data_test mo op : In mo all_models ->
  (op = true /\ In mo data_models -> op && str_in mo data_models = true) /\
  (~ (op = true /\ In mo data_models) -> op && str_in mo data_models = false).
Proof.
  intros M. split.
  - intros (-> & I). unfold data_models in I. destruct I as [<-|[<-|[<-|[<-|[]]]]]; reflexivity.
  - intros H. destruct op; [|reflexivity]. cbn [andb]. each M; try reflexivity; exfalso; apply H; (split; [reflexivity|]); cbn; tauto.
Qed.

Lemma block_trained_made ns mo st co d n infl pw w nl rnn an op' op ty' ty m :
  pd_get "shooting_model" ns = Some (AText mo) -> pd_get "nr_of_particles" ns = Some (AInt n) ->
  pd_get "inflation_factor" ns = Some (AInt infl) -> pd_get "optimize_over_data_initial_conditions" ns = Some (AFlag op) ->
  pd_get "optimize_over_data_initial_conditions_type" ns = Some (AText ty) ->
  In mo all_models -> (0 <= d)%Z -> (0 <= n)%Z -> (0 <= infl)%Z ->
  attribute_parameters "_state_initializer" st = [] -> attribute_parameters "_costate_initializer" co = [] ->
  In ty ["direct"; "linear"; "mini_nn"] ->
  m_integrand m = integrand_of mo st co d n infl pw w nl rnn an op' op ty' ty ->
  asked_sets ns = (if m_free_rnn m || m_free_time m then Some (Z.of_nat (parameter_sets m)) else None) ->
  exists ps, block_parameters m = Ok ps /\ block_trained ns d ps /\
    (m_free_rnn m || m_free_time m = false -> exists a, ps = states_of mo n d (d * infl) ++ a /\ ~ In "q1" (map fst a)).
Proof.
  intros MO NP IF OP TY M D N F A B T G AS.
  pose proof (with_data_test mo op M) as W.
  destruct W as (W1 & W2).
  destruct (m_free_rnn m || m_free_time m) eqn:R.
  - eexists. split; [exact (free_block _ _ _ _ _ _ _ _ _ _ _ _ _ _ _ m M D N F A B T G R)|]. split; [|discriminate]. split; [apply nodup_free; assumption|].
    exists mo, n, infl, op, ty. split; [exact MO|]. split; [exact NP|]. split; [exact IF|]. split; [exact OP|]. split; [exact TY|]. cbv zeta.
    rewrite AS. split; [|split].
    + intros x s. rewrite in_app_iff, in_free, in_data by assumption. reflexivity.
    + intros H. rewrite entries_app, free_entries, data_entries, (W1 H) by assumption. reflexivity.
    + intros H. rewrite entries_app, free_entries, data_entries, (W2 H) by assumption. lia.
  - apply orb_false_iff in R as (R1 & R2). eexists. split; [exact (particle_block _ _ _ _ _ _ _ _ _ _ _ _ _ _ _ m M D N F A B T G R1 R2)|]. split; [split; [apply nodup_particles; assumption|]|].
    + exists mo, n, infl, op, ty. split; [exact MO|]. split; [exact NP|]. split; [exact IF|]. split; [exact OP|]. split; [exact TY|]. cbv zeta.
      rewrite AS. split; [|split].
      * intros x s. rewrite app_assoc, in_app_iff, in_particles, in_data by assumption. reflexivity.
      * intros H. rewrite app_assoc, entries_app, particle_entries, data_entries, (W1 H) by assumption. reflexivity.
      * intros H. rewrite app_assoc, entries_app, particle_entries, data_entries, (W2 H) by assumption. lia.
    + intros _. eexists. split; [reflexivity|]. unfold data_list. each M; each T; destruct op; cbn; intros H; decompose [or] H; try discriminate; contradiction.
Qed.

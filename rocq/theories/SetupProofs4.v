(** Witnesses about the options of the demos. *)
From Coq Require Import List String ZArith QArith Qcanon Bool Lia.
From Verif Require Import Base BaseFacts SweepModel ArgparseModel ArgparseProofs ExperimentModel CirclesModel
  ImagesModel IntegratorModel ActivationModel SetupModel SetupSpec SetupProofs SetupProofs2 SetupProofs3.
Import ListNotations.
Open Scope string_scope.
Open Scope list_scope.
Open Scope nat_scope.

Definition simple_words : list string := ["--shooting_model"; "simple"; "--optimize_over_data_initial_conditions"].

Lemma no_optimization ns m : pd_get "optimize_over_data_initial_conditions" ns = Some (AFlag true) ->
  has_attr m "optimize_over_data_initial_conditions" (KBool false) -> ~ right_data ns m.
Proof.
  intros O A (D & _). specialize (D _ _ (or_introl eq_refl)). unfold arrives in D. rewrite O in D. unfold has_attr in *. congruence.
Qed.

Lemma spiral_ignores : exists words ns, parse_args spiral_parser words = Some ns /\ ~ both_modes ns /\
  forall end_ m, spiral_setup ns end_ = Ok m -> ~ spiral_as_asked ns end_ m.
Proof.
  exists simple_words. eexists. split; [vm_compute; reflexivity|]. split; [intros (H & _); discriminate H|].
  intros end_ m S (_ & D & _). revert D.
  match type of S with spiral_setup ?n _ = _ => assert (P : parse_args spiral_parser simple_words = Some n) by (vm_compute; reflexivity) end.
  destruct (proj2 (spiral_setup_made _ _ end_ P)) as (m' & S' & H). { intros (H & _). discriminate H. }
  rewrite S in S'. injection S' as <-. destruct H as (_ & _ & _ & _ & _ & _ & _ & _ & _ & H).
  apply no_optimization; [reflexivity|]. apply H. reflexivity.
Qed.

Lemma image_ignores : exists words, forall p per, In (p, per) [(cc_parser, true); (rot_parser, false); (balls_parser, true)] ->
  exists ns, parse_args p words = Some ns /\ forall m, image_setup per ns = Ok m -> ~ image_as_asked ns m.
Proof.
  exists simple_words. intros p per I.
  assert (G : exists ns, parse_args p simple_words = Some ns /\ pd_get "optimize_over_data_initial_conditions" ns = Some (AFlag true) /\
    model_is ns "simple" /\ image_made ns (image_setup per ns)).
  { destruct I as [I|[I|[I|[]]]]; injection I as <- <-; eexists; (split; [vm_compute; reflexivity|]);
      (split; [reflexivity|]); (split; [reflexivity|]).
    - apply (circles_setup_made simple_words). vm_compute. reflexivity.
    - apply (rotation_setup_made simple_words). vm_compute. reflexivity.
    - apply (bouncing_setup_made simple_words). vm_compute. reflexivity. }
  destruct G as (ns & P & O & M & m & S & _ & _ & _ & _ & _ & _ & H & _). exists ns. split; [exact P|].
  intros m' S'. rewrite S in S'. injection S' as <-. intros (_ & D & _). revert D. apply no_optimization; [exact O|]. apply H. exact M.
Qed.

Lemma mapping_missing : exists words ns, parse_args mapping_parser words = Some ns /\ ~ both_modes ns /\ mapping_setup ns = Raise AttributeError.
Proof.
  exists ["--shooting_model"; "universal"]. eexists. split; [vm_compute; reflexivity|]. split; [intros (H & _); discriminate H|].
  vm_compute. reflexivity.
Qed.

Lemma mapping_ignores : exists words ns, parse_args mapping_parser words = Some ns /\ ~ both_modes ns /\ ~ model_is ns "universal" /\
  forall m, mapping_setup ns = Ok m -> ~ right_adjoint ns m /\ ~ right_integrator ns m.
Proof.
  exists ["--adjoint"; "--method"; "dopri5"]. eexists. split; [vm_compute; reflexivity|].
  assert (NB : forall ns, pd_get "use_particle_free_rnn_mode" ns = Some (AFlag false) -> ~ both_modes ns) by (intros ns H (H' & _); congruence).
  split; [apply NB; reflexivity|]. split; [discriminate|]. intros m S.
  match type of S with mapping_setup ?n = _ =>
    assert (P : parse_args mapping_parser ["--adjoint"; "--method"; "dopri5"] = Some n) by (vm_compute; reflexivity) end.
  destruct (proj2 (proj2 (mapping_setup_made _ _ P))) as (m' & S' & H); [discriminate|apply NB; reflexivity|].
  rewrite S in S'. injection S' as <-. destruct H as (_ & _ & _ & _ & _ & (me & st & _ & _ & _ & _ & AD & OP) & _). split.
  - unfold right_adjoint. rewrite AD. discriminate.
  - intros (me' & st' & ME & _ & _ & _ & OP'). injection ME as <-. rewrite OP in OP'. discriminate OP'.
Qed.

Lemma cc_ignores : exists words ns loss, parse_args cc_parser words = Some ns /\ cc_loss ns 0 1 = Ok loss /\ ~ weighted ns 0 1 loss.
Proof.
  exists []. eexists. eexists. split; [vm_compute; reflexivity|]. split; [reflexivity|].
  intros (w & nw & W & NW & _ & H). injection W as <-. injection NW as <-. assert (X := H ltac:(discriminate)). discriminate X.
Qed.

Lemma mapping_all words ns : parse_args mapping_parser words = Some ns ->
  (model_is ns "universal" -> mapping_setup ns = Raise AttributeError) /\
  (~ model_is ns "universal" -> both_modes ns -> mapping_setup ns = Raise ValueError) /\
  (~ model_is ns "universal" -> ~ both_modes ns -> exists m, mapping_setup ns = Ok m /\
     right_model ns m /\ right_weight ns m /\ right_modes ns m /\ particle_sizes m 1 /\ m_end m = 1%Q /\
     (exists method step, pd_get "method" ns = Some (AText method) /\ pd_get "stepsize" ns = Some (ANum step) /\
        i_library (m_integrator m) = "odeint" /\ i_name (m_integrator m) = method /\ i_adjoint (m_integrator m) = false /\
        m_options m = [("step_size", ONum (Q2Qc step))]) /\
     (forall o a, In (o, a) data_options -> arrives ns m o a) /\
     (~ model_is ns "simple" -> ~ model_is ns "2nd_order" -> ~ model_is ns "dampened_updown" -> right_data ns m) /\
     (model_is ns "simple" \/ model_is ns "2nd_order" \/ model_is ns "dampened_updown" ->
        forall a, In a ["data_q20"; "simple_init"; "init_l1"; "init_l2"] -> pd_get a (g_attrs (m_integrand m)) = None) /\
     (model_is ns "2nd_order" \/ model_is ns "dampened_updown" -> has_attr m "use_analytic_solution" (KBool false)) /\
     (~ model_is ns "2nd_order" -> ~ model_is ns "dampened_updown" -> has_attr m "use_analytic_solution" (KBool true))).
Proof.
  intros E. destruct (mapping_setup_made words ns E) as (A & B & C). split; [exact A|]. split; [exact B|].
  intros U M. destruct (C U M) as (m & S & H1 & H2 & H3 & H4 & H5 & H6 & H7 & H8 & H9 & H10). exists m.
  split; [exact S|]. do 9 (split; [assumption|]).
  destruct (opt_choice _ _ _ mapping_nodup mapping_defaults E "shooting_model" _ _ ltac:(discriminate) eq_refl) as (mo & MO & _).
  unfold model_is in *. rewrite MO in H10 |- *. split.
  - intros [X|X]; injection X as ->; exact H10.
  - intros X Y. replace (hand_written mo) with true in H10; [exact H10|]. unfold hand_written.
    destruct (String.eqb_spec mo "2nd_order") as [->|]; [contradiction|]. destruct (String.eqb_spec mo "dampened_updown") as [->|]; [contradiction|reflexivity].
Qed.

Lemma image_all p per : In (p, per) [(cc_parser, true); (rot_parser, false); (balls_parser, true)] ->
  forall words ns, parse_args p words = Some ns -> image_made ns (image_setup per ns).
Proof.
  intros [H|[H|[H|[]]]]; injection H as <- <-; intros words ns.
  - exact (circles_setup_made words ns).
  - exact (rotation_setup_made words ns).
  - exact (bouncing_setup_made words ns).
Qed.

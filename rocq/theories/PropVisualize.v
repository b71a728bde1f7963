(** C149: the picture of the learned vector field. *)
From Coq Require Import Reals List String Arith ZArith QArith Qcanon Qreals Lia Sorting.Sorted.
From Verif Require Import Base Tensor ScdModel ScdSpec BlockModel BlockSpec IntegratorModel FixedGridModel FixedGridSpec
  BlockSolverModel BlockSolverSpec TrajectoryModel TrajectoryProofs VisualizeModel VisualizeSpec VisualizeExamples VisualizeProofs.
Import ListNotations.
Open Scope string_scope.
Open Scope list_scope.
Open Scope nat_scope.

Definition vi_look := visualize (Q2Qc 0) vi_ig vi_attr (fun _ _ => Q2Qc 0) vi_solve Q2Qc (fun q : Qc => Q2R q).

(** False: looking at the picture changes the model.  Afterwards it returns predictions for the times of the picture. *)
Theorem C149_model_kept_refuted :
  exists (b b' : @block Qc) x fig z st co da z' st' co' da',
    vi_block = Ok b /\ snd (vi_apply x b) = Ok (RTensor z, st, co, da) /\
    vi_look [3; 1; 1; 2] [3; 1; 1; 2] false vi_times true b = (b', Ok fig) /\
    snd (vi_apply x b') = Ok (RTensor z', st', co', da') /\ tshape z' = 3 :: tshape z.
Proof.
  destruct vi_run as (b' & out & s & c & d & E & W & SH).
  destruct (visualize_succeeds (Q2Qc 0) vi_ig vi_attr (fun _ _ => Q2Qc 0) Q2Qc (fun q : Qc => Q2R q) vi_solve
    [3; 1; 1; 2] [3; 1; 1; 2] vi_times vi_b b' out s c d 2 eq_refl ltac:(discriminate) E W SH) as ((fig & F) & _).
  destruct (apply_after (Q2Qc 0) vi_ig vi_attr (fun _ _ => Q2Qc 0) vi_solve _ _ _ _ E) as (d0 & x0 & ps & _ & _ & EB). rewrite EB in F.
  exists vi_b. eexists. exists (mkT [1; 1; 2] [Q2Qc 7; Q2Qc 8]), fig. do 8 eexists.
  split; [reflexivity|]. split; [vm_compute; reflexivity|]. split; [exact F|].
  split; [vm_compute; reflexivity|reflexivity].
Qed.
Print Assumptions C149_model_kept_refuted.

(** False: for the same model the picture for models of first order fails. *)
Theorem C149_first_order_refuted :
  exists (b b' : @block Qc) fig, vi_block = Ok b /\
    vi_look [3; 1; 1; 2] [3; 1; 1; 2] false vi_times true b = (b', Ok fig) /\
    vi_look [3; 1; 1; 2] [3; 1; 1; 2] false vi_times false b = (b', Raise RuntimeError).
Proof.
  destruct vi_run as (b' & out & s & c & d & E & W & SH).
  destruct (visualize_succeeds (Q2Qc 0) vi_ig vi_attr (fun _ _ => Q2Qc 0) Q2Qc (fun q : Qc => Q2R q) vi_solve
    [3; 1; 1; 2] [3; 1; 1; 2] vi_times vi_b b' out s c d 2 eq_refl ltac:(discriminate) E W SH) as ((fig & F) & G).
  exists vi_b, b', fig. split; [reflexivity|]. split; [exact F|exact G].
Qed.
Print Assumptions C149_first_order_refuted.

(** It fails for every model whose predictions have one channel and two features. *)
Theorem C149_first_order_partial :
  forall (A : Type) (zero : A) ig has_attr rnd num val solve true_shape pred_shape grad times (b : @block A),
  (forall b1 out s c d,
     apply_block zero ig has_attr rnd solve (samples num) (set_times None (Some (firstn 5 times)) b) =
       (b1, Ok (RTensor out, s, c, d)) ->
     twf out /\ exists n, tshape out = [S n; 21 * 21; 1; 2]) ->
  exists e, snd (visualize zero ig has_attr rnd solve num val true_shape pred_shape grad times false b) = Raise e.
Proof. exact @visualize_first_order. Qed.
Print Assumptions C149_first_order_partial.

(** True observations which require gradients are refused before anything is computed. *)
Theorem C149_gradients_partial :
  forall (A : Type) (zero : A) ig has_attr rnd num val solve t m k c pred_shape times higher (b : @block A),
  0 < m -> 0 < k -> 1 < c -> t = List.length times ->
  visualize zero ig has_attr rnd solve num val [t; m; k; c] pred_shape true times higher b = (b, Raise RuntimeError).
Proof. exact @visualize_grad. Qed.
Print Assumptions C149_gradients_partial.

(** True: the vector drawn in row i and column j belongs to the place in row i and column j, and is the unit vector along
    the way of the sample which started there, from the first to the last of the first five times. *)
Theorem C149_field_partial :
  forall (A : Type) (zero : A) ig has_attr rnd num val solve true_shape pred_shape grad times (b b' : @block A) fig,
  visualize zero ig has_attr rnd solve num val true_shape pred_shape grad times true b = (b', Ok fig) ->
  exists out s c d,
  apply_block zero ig has_attr rnd solve (samples num) (set_times None (Some (firstn 5 times)) b) =
    (b', Ok (RTensor out, s, c, d)) /\
  (twf out -> exists n k, tshape out = [S n; 21 * 21; S k; 2] /\
   forall i j, i < 21 -> j < 21 -> exists row p v x0 y0 x1 y1,
    nth_error (fig_field fig) i = Some row /\ nth_error row j = Some (p, v) /\ at_place i j p /\
    tget (samples num) [i * 21 + j; 0; 0] = Some (num (fst p)) /\ tget (samples num) [i * 21 + j; 0; 1] = Some (num (snd p)) /\
    tget out [0; i * 21 + j; 0; 0] = Some x0 /\ tget out [0; i * 21 + j; 0; 1] = Some y0 /\
    tget out [n; i * 21 + j; 0; 0] = Some x1 /\ tget out [n; i * 21 + j; 0; 1] = Some y1 /\
    points_along (val x1 - val x0) (val y1 - val y0) v).
Proof. exact @visualize_field. Qed.
Print Assumptions C149_field_partial.

(** With the solvers of fixed step size and increasing times the way starts at the place itself. *)
Theorem C149_from_place_partial :
  forall (A : Type) (zero : A) ig has_attr rnd num val add mul rhs other odesolver h hp i true_shape pred_shape grad
    t0 t1 times (b b' : @block A) fig s0 c0 d0,
  steps_of h hp i -> StronglySorted Qclt (t0 :: t1 :: times) ->
  b_state b = Some s0 -> good_dict s0 -> b_costate b = Some c0 -> good_dict c0 ->
  ig_initial_data ig (samples num) = Ok d0 -> good_dict d0 -> sd_get (ig_output_key ig) d0 = Some (samples num) ->
  visualize zero ig has_attr rnd (integrator_solve add mul rhs other odesolver hp i) num val true_shape pred_shape grad
    (t0 :: t1 :: times) true b = (b', Ok fig) ->
  exists out s c d,
  apply_block zero ig has_attr rnd (integrator_solve add mul rhs other odesolver hp i) (samples num)
    (set_times None (Some (t0 :: t1 :: firstn 3 times)) b) = (b', Ok (RTensor out, s, c, d)) /\
  (twf out -> exists n, List.length (tshape out) = 4 /\ nth_error (tshape out) 0 = Some (S n) /\
   forall r k, r < 21 -> k < 21 -> exists row p v x1 y1,
    nth_error (fig_field fig) r = Some row /\ nth_error row k = Some (p, v) /\ at_place r k p /\
    tget out [n; r * 21 + k; 0; 0] = Some x1 /\ tget out [n; r * 21 + k; 0; 1] = Some y1 /\
    points_along (val x1 - val (num (fst p))) (val y1 - val (num (snd p))) v).
Proof. exact @visualize_start. Qed.
Print Assumptions C149_from_place_partial.

(** Of the block only the times change, and the bookkeeping of a prediction. *)
Theorem C149_block_partial :
  forall (A : Type) (zero : A) ig has_attr rnd num val solve true_shape pred_shape grad times higher (b b' : @block A) fig,
  visualize zero ig has_attr rnd solve num val true_shape pred_shape grad times higher b = (b', Ok fig) ->
  b_time b' = None /\ b_time_vec b' = Some (firstn 5 times) /\ b_state b' = b_state b /\ b_costate b' = b_costate b /\
  b_registry b' = b_registry b /\ b_store b' = b_store b.
Proof. exact @visualize_leaves. Qed.
Print Assumptions C149_block_partial.

(** No particles are drawn for a block without the attribute q_params; no block of the package has it. *)
Theorem C149_particles_partial :
  forall (A : Type) (zero : A) ig has_attr rnd num val solve true_shape pred_shape grad times higher (b b' : @block A) fig,
  visualize zero ig has_attr rnd solve num val true_shape pred_shape grad times higher b = (b', Ok fig) ->
  has_attr "q_params" = false -> ~ In "q_params" (map fst (b_registry b)) -> fig_particles fig = false.
Proof. exact @visualize_particles. Qed.
Print Assumptions C149_particles_partial.

(** The block of the refutations meets the hypotheses. *)
Example C149_example :
  steps_of 1%Qc vi_hp vi_i /\ StronglySorted Qclt vi_times /\ vi_attr "q_params" = false /\
  ~ In "q_params" (map fst (b_registry vi_b)) /\
  (exists s0 c0 d0, b_state vi_b = Some s0 /\ good_dict s0 /\ b_costate vi_b = Some c0 /\ good_dict c0 /\
     ig_initial_data vi_ig (samples Q2Qc) = Ok d0 /\ good_dict d0 /\ sd_get (ig_output_key vi_ig) d0 = Some (samples Q2Qc)) /\
  exists b' out s c d, vi_apply (samples Q2Qc) (set_times None (Some (firstn 5 vi_times)) vi_b) = (b', Ok (RTensor out, s, c, d)) /\
    twf out /\ tshape out = [3; 21 * 21; 1; 2].
Proof.
  assert (GD : forall k (t : tensor Qc), tshape t <> [] -> twf t -> good_dict [(k, t)]).
  { intros k t N W. split; [|split; [discriminate|constructor; [exact N|constructor]]].
    split; [repeat constructor|]. constructor; [exact W|constructor]. }
  split; [repeat split; [left; reflexivity|left; reflexivity]|].
  split; [repeat constructor|]. split; [reflexivity|].
  split; [cbn; intros [X|[X|[]]]; discriminate X|].
  split; [|exact vi_run].
  do 3 eexists. split; [reflexivity|]. split; [apply GD; [discriminate|reflexivity]|].
  split; [reflexivity|]. split; [apply GD; [discriminate|reflexivity]|]. split; [reflexivity|].
  split; [apply GD; [discriminate|apply samples_wf]|]. reflexivity.
Qed.

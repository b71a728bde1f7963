(** Property C38: samples of a batch do not influence each other. *)
From Coq Require Import List String Reals Arith Lia Lra Bool.
From Verif Require Import Base RealSum VecModel VecInit VecSpec VecFlow VecProofs7 VecFlowProofs AnalyticFlowSpec StepControl.
Import ListNotations.
Open Scope string_scope.
Open Scope list_scope.
Open Scope R_scope.

(** ** C38

    Every vector model evaluates each sample separately: the right-hand side of some samples of a batch
    (in any order, possibly repeated) is that part of the right-hand side of the batch, and errors are
    the same.  Parameters are arbitrary. *)
Theorem C38_right_hand_side : forall nl,
  samplewise (updown_rhs nl) /\ samplewise (universal_rhs nl) /\ samplewise (general_rhs nl) /\ samplewise (simple_rhs nl)
  /\ samplewise (debug_rhs nl) /\ samplewise (second_order_rhs nl) /\ samplewise (ot_rhs nl) /\ samplewise (dampened_q2_rhs nl)
  /\ samplewise (symmetrized_rhs nl) /\ samplewise (periodic_rhs nl) /\ samplewise (dampened_rhs nl).
Proof. exact all_samplewise. Qed.
Print Assumptions C38_right_hand_side.

(** So is the initial data. *)
Theorem C38_initial_data : forall nl f mode B B' pick x y, picked3 B B' pick x y ->
  (forall n, (n < B')%nat -> (pick n < B)%nat) ->
  both (picked B B' pick) (updown_data nl f mode x) (updown_data nl f mode y)
  /\ picked B B' pick (second_order_data x) (second_order_data y)
  /\ picked B B' pick (simple_data x) (simple_data y)
  /\ picked B B' pick (symmetrized_data f x) (symmetrized_data f y)
  /\ picked B B' pick (dampened_data f x) (dampened_data f y).
Proof. exact all_data_picked. Qed.
Print Assumptions C38_initial_data.

(** Whole integrations by any explicit scheme (see VecFlow.v), any way to obtain parameters from the
    particles and any costate equations: every vector computed holds the same particles, and the data of
    a sample is as if it were integrated alone; if one integration raises, so does the other.
    Missing: solvers that choose their step sizes or iterations from the whole vector. *)
Theorem C38_sample_alone_partial : forall rhs parameters costate prog s c B m x,
  samplewise rhs -> batch_of B x -> (m < B)%nat ->
  both (Forall2 (fun u v => sys_state u = sys_state v /\ sys_costate u = sys_costate v
                            /\ same_sample m 0 (sys_data u) (sys_data v)))
    (run rhs parameters costate prog (mkSystem s c x)) (run rhs parameters costate prog (mkSystem s c (sample m x))).
Proof. exact run_alone. Qed.
Print Assumptions C38_sample_alone_partial.

(** Two batches of any sizes with a common sample. *)
Theorem C38_common_sample_partial : forall rhs parameters costate prog s c B1 B2 m n x y env1 env2,
  samplewise rhs -> batch_of B1 x -> batch_of B2 y -> (m < B1)%nat -> (n < B2)%nat -> same_sample m n x y ->
  run rhs parameters costate prog (mkSystem s c x) = Ok env1 -> run rhs parameters costate prog (mkSystem s c y) = Ok env2 ->
  Forall2 (fun u v => sys_state u = sys_state v /\ sys_costate u = sys_costate v
                      /\ same_sample m n (sys_data u) (sys_data v)) env1 env2.
Proof. exact run_common. Qed.
Print Assumptions C38_common_sample_partial.

(** Refuted for step size control: an integrator that measures its error over the whole vector, as
    dopri5 does, gives a sample another result alone than next to a second sample. *)
Theorem C38_step_control_refuted : exists next s c x y env1 env2 d1 d2,
  looks_at_entries next /\ batch_of 1 x /\ batch_of 2 y /\ same_sample 0 0 x y
  /\ updown_integrate next (mkSystem s c x) = Ok (env1 ++ [d1])
  /\ updown_integrate next (mkSystem s c y) = Ok (env2 ++ [d2])
  /\ next (env1 ++ [d1]) = None /\ next (env2 ++ [d2]) = None
  /\ ~ same_sample 0 0 (sys_data d1) (sys_data d2).
Proof. exact step_control_mixes. Qed.
Print Assumptions C38_step_control_refuted.

(** Two Euler steps of the up-down model with hand-written parameters: two samples, and another batch of
    three samples whose last is the first of the two. *)
Definition two_euler : list instr :=
  [Rhs 0 0; Combine (1, 0%nat) [(1 / 2, 1%nat)]; Rhs (1 / 2) 2; Combine (1, 2%nat) [(1 / 2, 3%nat)]].
Example C38_case :
  let s := [("q1", col 1 1 (fun _ => 2)); ("q2", col 1 1 (fun _ => 1))] in
  let c := [("p_q1", col 1 1 (fun _ => 1)); ("p_q2", col 1 1 (fun _ => 3))] in
  let x := [("q1", mkT3 2 1 1 (fun n _ _ => INR n)); ("q2", mkT3 2 1 1 (fun _ _ _ => 0))] in
  let y := [("q1", mkT3 3 1 1 (fun n _ _ => 2 - INR n)); ("q2", mkT3 3 1 1 (fun _ _ _ => 0))] in
  let go z := run (updown_rhs idf) (fun _ => updown_parameters idf init0 1 1 None) (fun _ => updown_costate onef)
                two_euler (mkSystem s c z) in
  batch_of 2 x /\ batch_of 3 y /\ same_sample 0 2 x y
  /\ exists env1 env2 d1 d2, go x = Ok env1 /\ go y = Ok env2
     /\ nth_error (map sys_data env1) 4 = Some d1 /\ nth_error (map sys_data env2) 4 = Some d2 /\ same_sample 0 2 d1 d2.
Proof.
  cbv zeta. split; [repeat constructor|]. split; [repeat constructor|]. split.
  - repeat constructor; cbn; intros; lra.
  - do 4 eexists. split; [evalOk|]. split; [evalOk|]. split; [reflexivity|]. split; [reflexivity|].
    repeat constructor; cbn; intros; unfold idf; field.
Qed.

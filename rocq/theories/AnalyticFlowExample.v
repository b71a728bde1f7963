(** Example data for C115. *)
From Coq Require Import List String Bool Reals Arith Lia Lra.
From Verif Require Import Base Tensor RealSum VecModel VecSpec VecFlow VecProofs7 AnalyticFlowSpec AnalyticFlowProofs2.
Import ListNotations.
Open Scope string_scope.
Open Scope list_scope.
Open Scope R_scope.

(** One step of Heun's method. *)
Definition heun_step : list instr :=
  [Rhs 0 0; Combine (1, 0%nat) [(1 / 10, 1%nat)]; Rhs (1 / 10) 2; Combine (1, 0%nat) [(1 / 20, 1%nat); (1 / 20, 3%nat)]].

Definition big_start : system :=
  mkSystem [("q1", mkT3 8 1 2 (fun n i k => INR (n + k))); ("q2", mkT3 8 1 10 (fun n i k => INR (n * k)))]
           [("p_q1", mkT3 8 1 2 (fun n i k => INR k - 1)); ("p_q2", mkT3 8 1 10 (fun n i k => INR n))]
           [("q1", mkT3 3 1 2 (fun n i k => INR n)); ("q2", mkT3 3 1 10 (fun _ _ _ => 0))].

Lemma big_case :
  (exists parA cosA, differentiates_model (updown_rhs sin) (updown_objects init0 2 5 (Some 1)) [("q1", 2%nat); ("q2", 10%nat)] 8 1 parA cosA)
  /\ has_system [("q1", 2%nat); ("q2", 10%nat)] 8 1 3 1 big_start
  /\ refers_back 1 heun_step
  /\ looks_at_entries (fun env => nth_error heun_step (List.length env - 1))
  /\ exists env, run (updown_rhs sin) (fun _ => updown_parameters sin init0 2 5 (Some 1)) (fun _ => updown_costate cos) heun_step big_start = Ok env
       /\ List.length env = 5%nat.
Proof.
  assert (Hs : has_system [("q1", 2%nat); ("q2", 10%nat)] 8 1 3 1 big_start).
  { unfold has_system, has_states, big_start. cbn. repeat split; repeat constructor. }
  assert (Hr : refers_back 1 heun_step) by (cbn; repeat split; repeat constructor).
  split; [|split; [exact Hs|split; [exact Hr|split]]].
  - apply (updown_differentiable sin cos derivable_pt_lim_sin init0 2 5 (Some 1)); [cbn; lra|lia].
  - intros e e' H. replace (List.length e') with (List.length e); [reflexivity|]. induction H; cbn; auto.
  - destruct (updown_both sin cos derivable_pt_lim_sin init0 2 5 (Some 1) ltac:(cbn; lra)) as [_ H].
    destruct (H 8%nat 3%nat 1%nat heun_step big_start ltac:(lia) Hs Hr) as [env [E [L _]]]. exists env. split; [exact E|exact L].
Qed.

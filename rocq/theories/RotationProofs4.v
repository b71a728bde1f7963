(** Proofs: the models by their place, and a model which is not covariant. *)
From Coq Require Import List String Bool Reals Arith Lia Lra QArith Qcanon Qreals.
From Verif Require Import Base BaseFacts RealSum IntegratorModel FixedGridModel ActivationModel VecModel ParticlesModel
  RotationSpec RotationExamples RotationProofs3.
Import ListNotations.
Open Scope string_scope.
Open Scope list_scope.
Open Scope R_scope.

Lemma free_by_place nl dnl init d e W ow N i m : In i [0; 1; 5; 6; 7]%nat ->
  nth_error (vector_equations nl dnl init d e W ow N) i = Some m -> In m (free_equations d nl dnl init e W ow).
Proof.
  intros I H. repeat (destruct I as [<-|I]; [cbn in H; injection H as <-; cbn; tauto|]). contradiction.
Qed.

Lemma some_rotation_orthogonal : orthogonal 2 some_rotation.
Proof.
  intros [|[|j]] [|[|k]] J K; try lia; cbn; field.
Qed.

(** The first entry of the derivative of the only state. *)
Definition first_entry (y : result system) : R :=
  match y with Ok ([(_, x)], _, _) => v3 x 0%nat 0%nat 0%nat | _ => 0 end.

Lemma simple_not_covariant init : exists m y,
  nth_error (vector_equations relu drelu init 2 1 None 1 1) 4 = Some m /\ with_features 2 y /\
  (exists r, system_rhs m y = Ok r) /\
  system_rhs m (rotate_system 2 some_rotation y) <> bind (system_rhs m y) (fun r => Ok (rotate_system 2 some_rotation r)).
Proof.
  eexists _, east_system. split; [reflexivity|]. split.
  { unfold with_features, east_system, first_is. repeat split; eexists _, []; (split; [reflexivity|split; [reflexivity|cbn; tauto]]). }
  split.
  { eexists. lazy -[Rplus Rmult Ropp Rinv Rdiv IZR INR Q2R rsum relu drelu]. reflexivity. }
  intros X. apply (f_equal first_entry) in X. revert X. cbn -[relu].
  replace (relu (0 + 1 * - (3 / 5) + 0 * - (4 / 5))) with 0 by (unfold relu; rewrite Rmax_left; lra).
  replace (relu (0 + 1 * (4 / 5) + 0 * - (3 / 5))) with (4 / 5) by (unfold relu; rewrite Rmax_right; lra).
  replace (relu 1) with 1 by (unfold relu; rewrite Rmax_right; lra).
  replace (relu 0) with 0 by (unfold relu; rewrite Rmax_right; lra).
  intros X. field_simplify in X. lra.
Qed.

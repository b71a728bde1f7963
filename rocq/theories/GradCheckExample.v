(** Example data for C116. *)
From Coq Require Import List String Bool Reals Arith Lia Lra.
From Verif Require Import Base GradCheckModel GradCheckSpec GradCheckProofs.
Import ListNotations.
Open Scope string_scope.
Open Scope list_scope.
Open Scope R_scope.

Lemma zero_script : script script_tolerance [gradients_of [("q1", ([0; 0], [0; 0]))]] = Raise RuntimeError.
Proof.
  unfold script, check_model, gradients_of. cbn [map foldM with_analytic with_autodiff collect bind name_of by_analytic by_autodiff fst snd pd_set].
  unfold compare_model. cbn [foldM fst snd]. unfold sd_item. cbn [sd_get String.eqb Ascii.eqb Bool.eqb bind].
  rewrite (zero_gradient_raises script_tolerance 2 : compare script_tolerance [0; 0] [0; 0] = _). reflexivity.
Qed.

Lemma two_parameters :
  let ps := [("p_q1", ([1; 0; -2], [1; 0; -2])); ("q1", ([1; 0], [1; 3]))] in
  well_named ps /\ Forall comparable ps
  /\ script script_tolerance [gradients_of ps] = Ok (1%nat, 2%nat, [("p_q1", Passed 0); ("q1", FailedPattern)], false).
Proof.
  cbv zeta. assert (Hc : Forall comparable [("p_q1", ([1; 0; -2], [1; 0; -2])); ("q1", ([1; 0], [1; 3]))]).
  { constructor; [|constructor; [|constructor]]; (split; [reflexivity|exists 1; split; [left; reflexivity|lra]]). }
  assert (Hw : well_named [("p_q1", ([1; 0; -2], [1; 0; -2])); ("q1", ([1; 0], [1; 3]))]).
  { repeat constructor; cbn; intuition discriminate. }
  split; [exact Hw|]. split; [exact Hc|].
  assert (E1 : compare script_tolerance [1; 0; -2] [1; 0; -2] = Ok (Passed 0)).
  { unfold compare, relative_error, select. cbn [map].
    replace (nonzero 1) with true by (symmetry; apply nonzero_true; lra).
    replace (nonzero 0) with false by (symmetry; apply nonzero_false; lra).
    replace (nonzero (-2)) with true by (symmetry; apply nonzero_true; lra). cbn.
    replace (1 / 1 - 1) with 0 by field. replace (-2 / -2 - 1) with 0 by field. rewrite Rabs_R0, Rmax_left by lra.
    unfold script_tolerance. destruct (Rlt_dec 0 (5 / 1000)); [reflexivity|lra]. }
  assert (E2 : compare script_tolerance [1; 0] [1; 3] = Ok FailedPattern).
  { unfold compare. cbn [map].
    replace (nonzero 1) with true by (symmetry; apply nonzero_true; lra).
    replace (nonzero 0) with false by (symmetry; apply nonzero_false; lra).
    replace (nonzero 3) with true by (symmetry; apply nonzero_true; lra). reflexivity. }
  unfold script, check_model, gradients_of. cbn [map foldM with_analytic with_autodiff collect bind name_of by_analytic by_autodiff fst snd pd_set String.eqb Ascii.eqb Bool.eqb].
  unfold compare_model. cbn [foldM fst snd]. unfold sd_item. cbn [sd_get String.eqb Ascii.eqb Bool.eqb bind].
  rewrite E1. cbn [bind foldM fst snd sd_get String.eqb Ascii.eqb Bool.eqb]. rewrite E2. reflexivity.
Qed.

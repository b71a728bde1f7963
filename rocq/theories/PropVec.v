(** Properties C39, C41 and C61: the vector models. *)
From Coq Require Import List String Reals Arith Lia Lra Bool.
From Verif Require Import Base Tensor RealSum VecModel VecInit VecSpec VecProofs2 VecProofs6 VecProofs7 VecProofs8 VecProofs9.
Import ListNotations.
Open Scope string_scope.
Open Scope R_scope.

(** ** C39

    The reals stand for the floating point numbers.  What [autograd.grad] returns is stated as
    derivatives in VecSpec.v.  The costate equations are correct for all particle dimensions [D], the
    weights for all [D] in the models that use matrix products, the biases only for [D = 1] (the
    default particle_dimension); see the counterexamples below. *)

(** *** UpDown *)
Theorem C39_updown_costates : forall nl dnl, (forall x, derivable_pt_lim nl x (dnl x)) -> forall init d f W, effective W <> 0 ->
  analytic_costates_correct (updown_rhs nl) (updown_objects init d f W) (fun _ => updown_costate dnl) [("q1", d); ("q2", (d * f)%nat)].
Proof. exact (fun nl dnl Hnl init d f W HW => claims_costates _ _ _ _ _ (updown_claims nl dnl Hnl init d f W HW)). Qed.
Print Assumptions C39_updown_costates.

Theorem C39_updown_weights : forall nl dnl, (forall x, derivable_pt_lim nl x (dnl x)) -> forall init d f W, effective W <> 0 ->
  analytic_weights_correct (updown_rhs nl) (updown_objects init d f W) (fun _ => updown_parameters nl init d f W) [("q1", d); ("q2", (d * f)%nat)].
Proof. exact (fun nl dnl Hnl init d f W HW => updown_weights_correct nl dnl Hnl init d f W HW). Qed.
Print Assumptions C39_updown_weights.

(** Missing: particles of dimension other than 1. *)
Theorem C39_updown_parameters_partial : forall nl dnl, (forall x, derivable_pt_lim nl x (dnl x)) -> forall init d f W, effective W <> 0 ->
  analytic_parameters_correct 1 (updown_rhs nl) (updown_objects init d f W) (fun _ => updown_parameters nl init d f W) [("q1", d); ("q2", (d * f)%nat)].
Proof. exact (fun nl dnl Hnl init d f W HW => claims_parameters _ _ _ _ _ (updown_claims nl dnl Hnl init d f W HW)). Qed.
Print Assumptions C39_updown_parameters_partial.

(** *** UpDownUniversal *)
Theorem C39_universal_costates : forall nl dnl, (forall x, derivable_pt_lim nl x (dnl x)) -> forall init d f W ow, effective W <> 0 -> ow <> 0 ->
  analytic_costates_correct (universal_rhs nl) (universal_objects init d f W ow) (fun _ => universal_costate dnl) [("q1", d); ("q2", (d * f)%nat)].
Proof. exact (fun nl dnl Hnl init d f W ow HW How => claims_costates _ _ _ _ _ (universal_claims nl dnl Hnl init d f W HW ow How)). Qed.
Print Assumptions C39_universal_costates.

Theorem C39_universal_weights : forall nl dnl, (forall x, derivable_pt_lim nl x (dnl x)) -> forall init d f W ow, effective W <> 0 -> ow <> 0 ->
  analytic_weights_correct (universal_rhs nl) (universal_objects init d f W ow) (fun _ => universal_parameters nl init d f W ow) [("q1", d); ("q2", (d * f)%nat)].
Proof. exact (fun nl dnl Hnl init d f W ow HW How => universal_weights_correct nl dnl Hnl init d f W HW ow How). Qed.
Print Assumptions C39_universal_weights.

(** Missing: particles of dimension other than 1. *)
Theorem C39_universal_parameters_partial : forall nl dnl, (forall x, derivable_pt_lim nl x (dnl x)) -> forall init d f W ow, effective W <> 0 -> ow <> 0 ->
  analytic_parameters_correct 1 (universal_rhs nl) (universal_objects init d f W ow) (fun _ => universal_parameters nl init d f W ow) [("q1", d); ("q2", (d * f)%nat)].
Proof. exact (fun nl dnl Hnl init d f W ow HW How => claims_parameters _ _ _ _ _ (universal_claims nl dnl Hnl init d f W HW ow How)). Qed.
Print Assumptions C39_universal_parameters_partial.

(** *** Simple *)
Theorem C39_simple_costates : forall nl dnl, (forall x, derivable_pt_lim nl x (dnl x)) -> forall init d W, effective W <> 0 ->
  analytic_costates_correct (simple_rhs nl) (simple_objects init d W) (simple_costate nl dnl) [("q1", d)].
Proof. exact (fun nl dnl Hnl init d W HW => claims_costates _ _ _ _ _ (simple_claims nl dnl Hnl init d W HW)). Qed.
Print Assumptions C39_simple_costates.

(** Missing: particles of dimension other than 1. *)
Theorem C39_simple_parameters_partial : forall nl dnl, (forall x, derivable_pt_lim nl x (dnl x)) -> forall init d W, effective W <> 0 ->
  analytic_parameters_correct 1 (simple_rhs nl) (simple_objects init d W) (simple_parameters nl init d W) [("q1", d)].
Proof. exact (fun nl dnl Hnl init d W HW => claims_parameters _ _ _ _ _ (simple_claims nl dnl Hnl init d W HW)). Qed.
Print Assumptions C39_simple_parameters_partial.

(** *** GeneralUpDown *)
Theorem C39_general_costates : forall nl dnl, (forall x, derivable_pt_lim nl x (dnl x)) -> forall init d f W, effective W <> 0 ->
  analytic_costates_correct (general_rhs nl) (general_objects init d f W) (fun _ => general_costate dnl) [("q1", d); ("q2", (d * f)%nat)].
Proof. exact (fun nl dnl Hnl init d f W HW => claims_costates _ _ _ _ _ (general_claims nl dnl Hnl init d f W HW)). Qed.
Print Assumptions C39_general_costates.

Theorem C39_general_weights : forall nl dnl, (forall x, derivable_pt_lim nl x (dnl x)) -> forall init d f W, effective W <> 0 ->
  analytic_weights_correct (general_rhs nl) (general_objects init d f W) (fun _ => general_parameters nl init d f W) [("q1", d); ("q2", (d * f)%nat)].
Proof. exact (fun nl dnl Hnl init d f W HW => general_weights_correct nl dnl Hnl init d f W HW). Qed.
Print Assumptions C39_general_weights.

(** Missing: particles of dimension other than 1. *)
Theorem C39_general_parameters_partial : forall nl dnl, (forall x, derivable_pt_lim nl x (dnl x)) -> forall init d f W, effective W <> 0 ->
  analytic_parameters_correct 1 (general_rhs nl) (general_objects init d f W) (fun _ => general_parameters nl init d f W) [("q1", d); ("q2", (d * f)%nat)].
Proof. exact (fun nl dnl Hnl init d f W HW => claims_parameters _ _ _ _ _ (general_claims nl dnl Hnl init d f W HW)). Qed.
Print Assumptions C39_general_parameters_partial.

(** *** UpdownPeriodic *)
Theorem C39_periodic_costates : forall nl dnl, (forall x, derivable_pt_lim nl x (dnl x)) -> forall init d f W, effective W <> 0 ->
  analytic_costates_correct (periodic_rhs nl) (periodic_objects init d f W) (fun _ => periodic_costate dnl) [("q1", d); ("q2", (d * f)%nat)].
Proof. exact (fun nl dnl Hnl init d f W HW => claims_costates _ _ _ _ _ (periodic_claims nl dnl Hnl init d f W HW)). Qed.
Print Assumptions C39_periodic_costates.

Theorem C39_periodic_weights : forall nl dnl, (forall x, derivable_pt_lim nl x (dnl x)) -> forall init d f W, effective W <> 0 ->
  analytic_weights_correct (periodic_rhs nl) (periodic_objects init d f W) (fun _ => periodic_parameters nl init d f W) [("q1", d); ("q2", (d * f)%nat)].
Proof. exact (fun nl dnl Hnl init d f W HW => periodic_weights_correct nl dnl Hnl init d f W HW). Qed.
Print Assumptions C39_periodic_weights.

(** Missing: particles of dimension other than 1. *)
Theorem C39_periodic_parameters_partial : forall nl dnl, (forall x, derivable_pt_lim nl x (dnl x)) -> forall init d f W, effective W <> 0 ->
  analytic_parameters_correct 1 (periodic_rhs nl) (periodic_objects init d f W) (fun _ => periodic_parameters nl init d f W) [("q1", d); ("q2", (d * f)%nat)].
Proof. exact (fun nl dnl Hnl init d f W HW => claims_parameters _ _ _ _ _ (periodic_claims nl dnl Hnl init d f W HW)). Qed.
Print Assumptions C39_periodic_parameters_partial.

(** *** UpdownSymmetrized without inflation *)
Theorem C39_symmetrized_costates : forall nl dnl, (forall x, derivable_pt_lim nl x (dnl x)) -> forall init d W, effective W <> 0 ->
  analytic_costates_correct (symmetrized_rhs nl) (symmetrized_objects init d 1 W) (fun _ => symmetrized_costate dnl) [("q1", d); ("q2", d); ("q3", d)].
Proof. exact (fun nl dnl Hnl init d W HW => claims_costates _ _ _ _ _ (symmetrized_claims nl dnl Hnl init d W HW)). Qed.
Print Assumptions C39_symmetrized_costates.

Theorem C39_symmetrized_weights : forall nl dnl, (forall x, derivable_pt_lim nl x (dnl x)) -> forall init d W, effective W <> 0 ->
  analytic_weights_correct (symmetrized_rhs nl) (symmetrized_objects init d 1 W) (fun _ => symmetrized_parameters nl init d 1 W) [("q1", d); ("q2", d); ("q3", d)].
Proof. exact (fun nl dnl Hnl init d W HW => symmetrized_weights_correct nl dnl Hnl init d W HW). Qed.
Print Assumptions C39_symmetrized_weights.

(** Missing: particles of dimension other than 1. *)
Theorem C39_symmetrized_parameters_partial : forall nl dnl, (forall x, derivable_pt_lim nl x (dnl x)) -> forall init d W, effective W <> 0 ->
  analytic_parameters_correct 1 (symmetrized_rhs nl) (symmetrized_objects init d 1 W) (fun _ => symmetrized_parameters nl init d 1 W) [("q1", d); ("q2", d); ("q3", d)].
Proof. exact (fun nl dnl Hnl init d W HW => claims_parameters _ _ _ _ _ (symmetrized_claims nl dnl Hnl init d W HW)). Qed.
Print Assumptions C39_symmetrized_parameters_partial.

(** *** Debug *)
Theorem C39_debug_costates : forall nl dnl, (forall x, derivable_pt_lim nl x (dnl x)) -> forall init d W, effective W <> 0 ->
  analytic_costates_correct (debug_rhs nl) (debug_objects init d W) (debug_costate nl dnl) [("q1", d); ("q2", d)].
Proof. exact (fun nl dnl Hnl init d W HW => claims_costates _ _ _ _ _ (debug_claims nl dnl Hnl init d W HW)). Qed.
Print Assumptions C39_debug_costates.

(** Missing: particles of dimension other than 1. *)
Theorem C39_debug_parameters_partial : forall nl dnl, (forall x, derivable_pt_lim nl x (dnl x)) -> forall init d W, effective W <> 0 ->
  analytic_parameters_correct 1 (debug_rhs nl) (debug_objects init d W) (debug_parameters nl init d W) [("q1", d); ("q2", d)].
Proof. exact (fun nl dnl Hnl init d W HW => claims_parameters _ _ _ _ _ (debug_claims nl dnl Hnl init d W HW)). Qed.
Print Assumptions C39_debug_parameters_partial.

(** The derivatives determine the parameters and costates, and exist: so the statements above are about
    the values found by differentiation. *)
Theorem C39_autodiff_defined : forall nl dnl, (forall x, derivable_pt_lim nl x (dnl x)) -> forall init d f W, effective W <> 0 ->
  forall N D s c, has_states [("q1", d); ("q2", (d * f)%nat)] "" N D s -> has_states [("q1", d); ("q2", (d * f)%nat)] "p_" N D c ->
  exists th v, autodiff_parameters (updown_rhs nl) (updown_objects init d f W) s c th
    /\ reduced_lagrangian (updown_rhs nl) (updown_objects init d f W) N s c v.
Proof. exact updown_autodiff_defined. Qed.
Print Assumptions C39_autodiff_defined.

Theorem C39_autodiff_unique : forall nl dnl, (forall x, derivable_pt_lim nl x (dnl x)) -> forall init d f W, effective W <> 0 ->
  forall N D s c dp dp', has_states [("q1", d); ("q2", (d * f)%nat)] "" N D s -> has_states [("q1", d); ("q2", (d * f)%nat)] "p_" N D c ->
  autodiff_costates (updown_rhs nl) (updown_objects init d f W) N s c dp ->
  autodiff_costates (updown_rhs nl) (updown_objects init d f W) N s c dp' ->
  same_entries dp dp'.
Proof. exact updown_autodiff_unique. Qed.
Print Assumptions C39_autodiff_unique.

(** *** Particles of dimension 2

    Refutes [analytic_parameters_correct 2]: the hand-written biases keep one row per dimension instead
    of adding over the dimensions, and so move the states differently. *)
Theorem C39_updown_bias_refuted :
  exists s c th th' r r' x x',
    has_states [("q1", 1%nat); ("q2", 1%nat)] "" 1 2 s /\ has_states [("q1", 1%nat); ("q2", 1%nat)] "p_" 1 2 c
    /\ updown_parameters idf init0 1 1 None s c = Ok th
    /\ autodiff_parameters (updown_rhs idf) (updown_objects init0 1 1 None) s c th'
    /\ updown_rhs idf s th = Ok r /\ updown_rhs idf s th' = Ok r'
    /\ nth_error r 0 = Some ("dot_q1", x) /\ nth_error r' 0 = Some ("dot_q1", x') /\ v3 x 0 1 0 = 0 /\ v3 x' 0 1 0 = 1.
Proof. exact updown_bias_wrong. Qed.
Print Assumptions C39_updown_bias_refuted.

(** The loop of the simple model raises if the dimension is neither 1 nor the number of features. *)
Theorem C39_simple_raises_partial : forall nl init d W N D s c,
  (0 < N)%nat -> D <> 1%nat -> d <> 1%nat -> D <> d ->
  has_states [("q1", d)] "" N D s -> has_states [("q1", d)] "p_" N D c ->
  simple_parameters nl init d W N s c = Raise RuntimeError.
Proof. exact simple_loop_raises. Qed.
Print Assumptions C39_simple_raises_partial.

(** It returns a wrong weight if the dimension is the number of features. *)
Theorem C39_simple_weights_refuted :
  exists s c th, has_states [("q1", 2%nat)] "" 1 2 s /\ has_states [("q1", 2%nat)] "p_" 1 2 c
    /\ simple_parameters idf init0 2 None 1 s c = Ok th
    /\ ~ autodiff_weights (simple_rhs idf) (simple_objects init0 2 None) s c th.
Proof. exact simple_weights_wrong. Qed.
Print Assumptions C39_simple_weights_refuted.

(** The dampened model inherits costate equations without the dampening. *)
Theorem C39_dampened_q2_costates_refuted :
  exists s c th dp, has_states [("q1", 1%nat); ("q2", 1%nat)] "" 1 1 s /\ has_states [("q1", 1%nat); ("q2", 1%nat)] "p_" 1 1 c
    /\ autodiff_parameters (dampened_q2_rhs idf) (updown_objects init0 1 1 None) s c th
    /\ updown_costate onef s c th = Ok dp
    /\ ~ autodiff_costates (dampened_q2_rhs idf) (updown_objects init0 1 1 None) 1 s c dp.
Proof. exact dampened_q2_costates_wrong. Qed.
Print Assumptions C39_dampened_q2_costates_refuted.

(** States as in the hypotheses: 2 particles of dimension 3 with 2 features and inflation 2; and a
    differentiable nonlinearity. *)
Example C39_states :
  has_states [("q1", 2%nat); ("q2", (2 * 2)%nat)] "" 2 3
    [("q1", mkT3 2 3 2 (fun n i k => INR (n + i * k))); ("q2", mkT3 2 3 4 (fun n i k => INR (n + 1) - INR k))].
Proof. repeat constructor. Qed.
Example C39_nonlinearity : forall x, derivable_pt_lim sin x (cos x).
Proof. exact derivable_pt_lim_sin. Qed.

(** ** C61 *)

(** *** UpDown *)
Theorem C61_updown_stationary : forall nl dnl, (forall x, derivable_pt_lim nl x (dnl x)) -> forall init d f W, effective W <> 0 ->
  energy_stationary (updown_rhs nl) (updown_objects init d f W) (fun _ => updown_costate dnl) [("q1", d); ("q2", (d * f)%nat)].
Proof. exact (fun nl dnl Hnl init d f W HW => claims_stationary _ _ _ _ _ (updown_claims nl dnl Hnl init d f W HW)). Qed.
Print Assumptions C61_updown_stationary.

Theorem C61_updown_conserved : forall nl dnl, (forall x, derivable_pt_lim nl x (dnl x)) -> forall init d f W, effective W <> 0 ->
  energy_conserved (updown_rhs nl) (updown_objects init d f W) (fun _ => updown_costate dnl) [("q1", d); ("q2", (d * f)%nat)].
Proof. exact (fun nl dnl Hnl init d f W HW => claims_conserved _ _ _ _ _ (updown_claims nl dnl Hnl init d f W HW)). Qed.
Print Assumptions C61_updown_conserved.

(** Missing: particles of dimension other than 1. *)
Theorem C61_updown_analytic_flow_partial : forall nl dnl, (forall x, derivable_pt_lim nl x (dnl x)) -> forall init d f W, effective W <> 0 ->
  energy_conserved_analytic 1 (updown_rhs nl) (updown_objects init d f W) (fun _ => updown_costate dnl) (fun _ => updown_parameters nl init d f W) [("q1", d); ("q2", (d * f)%nat)].
Proof. exact (fun nl dnl Hnl init d f W HW => claims_analytic _ _ _ _ _ (updown_claims nl dnl Hnl init d f W HW)). Qed.
Print Assumptions C61_updown_analytic_flow_partial.

(** *** UpDownUniversal *)
Theorem C61_universal_stationary : forall nl dnl, (forall x, derivable_pt_lim nl x (dnl x)) -> forall init d f W ow, effective W <> 0 -> ow <> 0 ->
  energy_stationary (universal_rhs nl) (universal_objects init d f W ow) (fun _ => universal_costate dnl) [("q1", d); ("q2", (d * f)%nat)].
Proof. exact (fun nl dnl Hnl init d f W ow HW How => claims_stationary _ _ _ _ _ (universal_claims nl dnl Hnl init d f W HW ow How)). Qed.
Print Assumptions C61_universal_stationary.

Theorem C61_universal_conserved : forall nl dnl, (forall x, derivable_pt_lim nl x (dnl x)) -> forall init d f W ow, effective W <> 0 -> ow <> 0 ->
  energy_conserved (universal_rhs nl) (universal_objects init d f W ow) (fun _ => universal_costate dnl) [("q1", d); ("q2", (d * f)%nat)].
Proof. exact (fun nl dnl Hnl init d f W ow HW How => claims_conserved _ _ _ _ _ (universal_claims nl dnl Hnl init d f W HW ow How)). Qed.
Print Assumptions C61_universal_conserved.

(** Missing: particles of dimension other than 1. *)
Theorem C61_universal_analytic_flow_partial : forall nl dnl, (forall x, derivable_pt_lim nl x (dnl x)) -> forall init d f W ow, effective W <> 0 -> ow <> 0 ->
  energy_conserved_analytic 1 (universal_rhs nl) (universal_objects init d f W ow) (fun _ => universal_costate dnl) (fun _ => universal_parameters nl init d f W ow) [("q1", d); ("q2", (d * f)%nat)].
Proof. exact (fun nl dnl Hnl init d f W ow HW How => claims_analytic _ _ _ _ _ (universal_claims nl dnl Hnl init d f W HW ow How)). Qed.
Print Assumptions C61_universal_analytic_flow_partial.

(** *** Simple *)
Theorem C61_simple_stationary : forall nl dnl, (forall x, derivable_pt_lim nl x (dnl x)) -> forall init d W, effective W <> 0 ->
  energy_stationary (simple_rhs nl) (simple_objects init d W) (simple_costate nl dnl) [("q1", d)].
Proof. exact (fun nl dnl Hnl init d W HW => claims_stationary _ _ _ _ _ (simple_claims nl dnl Hnl init d W HW)). Qed.
Print Assumptions C61_simple_stationary.

Theorem C61_simple_conserved : forall nl dnl, (forall x, derivable_pt_lim nl x (dnl x)) -> forall init d W, effective W <> 0 ->
  energy_conserved (simple_rhs nl) (simple_objects init d W) (simple_costate nl dnl) [("q1", d)].
Proof. exact (fun nl dnl Hnl init d W HW => claims_conserved _ _ _ _ _ (simple_claims nl dnl Hnl init d W HW)). Qed.
Print Assumptions C61_simple_conserved.

(** Missing: particles of dimension other than 1. *)
Theorem C61_simple_analytic_flow_partial : forall nl dnl, (forall x, derivable_pt_lim nl x (dnl x)) -> forall init d W, effective W <> 0 ->
  energy_conserved_analytic 1 (simple_rhs nl) (simple_objects init d W) (simple_costate nl dnl) (simple_parameters nl init d W) [("q1", d)].
Proof. exact (fun nl dnl Hnl init d W HW => claims_analytic _ _ _ _ _ (simple_claims nl dnl Hnl init d W HW)). Qed.
Print Assumptions C61_simple_analytic_flow_partial.

(** *** GeneralUpDown *)
Theorem C61_general_stationary : forall nl dnl, (forall x, derivable_pt_lim nl x (dnl x)) -> forall init d f W, effective W <> 0 ->
  energy_stationary (general_rhs nl) (general_objects init d f W) (fun _ => general_costate dnl) [("q1", d); ("q2", (d * f)%nat)].
Proof. exact (fun nl dnl Hnl init d f W HW => claims_stationary _ _ _ _ _ (general_claims nl dnl Hnl init d f W HW)). Qed.
Print Assumptions C61_general_stationary.

Theorem C61_general_conserved : forall nl dnl, (forall x, derivable_pt_lim nl x (dnl x)) -> forall init d f W, effective W <> 0 ->
  energy_conserved (general_rhs nl) (general_objects init d f W) (fun _ => general_costate dnl) [("q1", d); ("q2", (d * f)%nat)].
Proof. exact (fun nl dnl Hnl init d f W HW => claims_conserved _ _ _ _ _ (general_claims nl dnl Hnl init d f W HW)). Qed.
Print Assumptions C61_general_conserved.

(** Missing: particles of dimension other than 1. *)
Theorem C61_general_analytic_flow_partial : forall nl dnl, (forall x, derivable_pt_lim nl x (dnl x)) -> forall init d f W, effective W <> 0 ->
  energy_conserved_analytic 1 (general_rhs nl) (general_objects init d f W) (fun _ => general_costate dnl) (fun _ => general_parameters nl init d f W) [("q1", d); ("q2", (d * f)%nat)].
Proof. exact (fun nl dnl Hnl init d f W HW => claims_analytic _ _ _ _ _ (general_claims nl dnl Hnl init d f W HW)). Qed.
Print Assumptions C61_general_analytic_flow_partial.

(** *** UpdownPeriodic *)
Theorem C61_periodic_stationary : forall nl dnl, (forall x, derivable_pt_lim nl x (dnl x)) -> forall init d f W, effective W <> 0 ->
  energy_stationary (periodic_rhs nl) (periodic_objects init d f W) (fun _ => periodic_costate dnl) [("q1", d); ("q2", (d * f)%nat)].
Proof. exact (fun nl dnl Hnl init d f W HW => claims_stationary _ _ _ _ _ (periodic_claims nl dnl Hnl init d f W HW)). Qed.
Print Assumptions C61_periodic_stationary.

Theorem C61_periodic_conserved : forall nl dnl, (forall x, derivable_pt_lim nl x (dnl x)) -> forall init d f W, effective W <> 0 ->
  energy_conserved (periodic_rhs nl) (periodic_objects init d f W) (fun _ => periodic_costate dnl) [("q1", d); ("q2", (d * f)%nat)].
Proof. exact (fun nl dnl Hnl init d f W HW => claims_conserved _ _ _ _ _ (periodic_claims nl dnl Hnl init d f W HW)). Qed.
Print Assumptions C61_periodic_conserved.

(** Missing: particles of dimension other than 1. *)
Theorem C61_periodic_analytic_flow_partial : forall nl dnl, (forall x, derivable_pt_lim nl x (dnl x)) -> forall init d f W, effective W <> 0 ->
  energy_conserved_analytic 1 (periodic_rhs nl) (periodic_objects init d f W) (fun _ => periodic_costate dnl) (fun _ => periodic_parameters nl init d f W) [("q1", d); ("q2", (d * f)%nat)].
Proof. exact (fun nl dnl Hnl init d f W HW => claims_analytic _ _ _ _ _ (periodic_claims nl dnl Hnl init d f W HW)). Qed.
Print Assumptions C61_periodic_analytic_flow_partial.

(** *** UpdownSymmetrized without inflation *)
Theorem C61_symmetrized_stationary : forall nl dnl, (forall x, derivable_pt_lim nl x (dnl x)) -> forall init d W, effective W <> 0 ->
  energy_stationary (symmetrized_rhs nl) (symmetrized_objects init d 1 W) (fun _ => symmetrized_costate dnl) [("q1", d); ("q2", d); ("q3", d)].
Proof. exact (fun nl dnl Hnl init d W HW => claims_stationary _ _ _ _ _ (symmetrized_claims nl dnl Hnl init d W HW)). Qed.
Print Assumptions C61_symmetrized_stationary.

Theorem C61_symmetrized_conserved : forall nl dnl, (forall x, derivable_pt_lim nl x (dnl x)) -> forall init d W, effective W <> 0 ->
  energy_conserved (symmetrized_rhs nl) (symmetrized_objects init d 1 W) (fun _ => symmetrized_costate dnl) [("q1", d); ("q2", d); ("q3", d)].
Proof. exact (fun nl dnl Hnl init d W HW => claims_conserved _ _ _ _ _ (symmetrized_claims nl dnl Hnl init d W HW)). Qed.
Print Assumptions C61_symmetrized_conserved.

(** Missing: particles of dimension other than 1. *)
Theorem C61_symmetrized_analytic_flow_partial : forall nl dnl, (forall x, derivable_pt_lim nl x (dnl x)) -> forall init d W, effective W <> 0 ->
  energy_conserved_analytic 1 (symmetrized_rhs nl) (symmetrized_objects init d 1 W) (fun _ => symmetrized_costate dnl) (fun _ => symmetrized_parameters nl init d 1 W) [("q1", d); ("q2", d); ("q3", d)].
Proof. exact (fun nl dnl Hnl init d W HW => claims_analytic _ _ _ _ _ (symmetrized_claims nl dnl Hnl init d W HW)). Qed.
Print Assumptions C61_symmetrized_analytic_flow_partial.

(** *** Debug *)
Theorem C61_debug_stationary : forall nl dnl, (forall x, derivable_pt_lim nl x (dnl x)) -> forall init d W, effective W <> 0 ->
  energy_stationary (debug_rhs nl) (debug_objects init d W) (debug_costate nl dnl) [("q1", d); ("q2", d)].
Proof. exact (fun nl dnl Hnl init d W HW => claims_stationary _ _ _ _ _ (debug_claims nl dnl Hnl init d W HW)). Qed.
Print Assumptions C61_debug_stationary.

Theorem C61_debug_conserved : forall nl dnl, (forall x, derivable_pt_lim nl x (dnl x)) -> forall init d W, effective W <> 0 ->
  energy_conserved (debug_rhs nl) (debug_objects init d W) (debug_costate nl dnl) [("q1", d); ("q2", d)].
Proof. exact (fun nl dnl Hnl init d W HW => claims_conserved _ _ _ _ _ (debug_claims nl dnl Hnl init d W HW)). Qed.
Print Assumptions C61_debug_conserved.

(** Missing: particles of dimension other than 1. *)
Theorem C61_debug_analytic_flow_partial : forall nl dnl, (forall x, derivable_pt_lim nl x (dnl x)) -> forall init d W, effective W <> 0 ->
  energy_conserved_analytic 1 (debug_rhs nl) (debug_objects init d W) (debug_costate nl dnl) (debug_parameters nl init d W) [("q1", d); ("q2", d)].
Proof. exact (fun nl dnl Hnl init d W HW => claims_analytic _ _ _ _ _ (debug_claims nl dnl Hnl init d W HW)). Qed.
Print Assumptions C61_debug_analytic_flow_partial.

(** Refutes [energy_conserved_analytic 2]: the reduced Lagrangian changes along the hand-written
    equations. *)
Theorem C61_analytic_flow_refuted :
  exists (Q P : R -> states) th r dp F v,
    (forall u, has_states [("q1", 1%nat); ("q2", 1%nat)] "" 1 2 (Q u))
    /\ (forall u, has_states [("q1", 1%nat); ("q2", 1%nat)] "p_" 1 2 (P u))
    /\ updown_parameters idf init0 1 1 None (Q 0) (P 0) = Ok th
    /\ updown_rhs idf (Q 0) th = Ok r /\ updown_costate onef (Q 0) (P 0) th = Ok dp
    /\ moves_along Q 0 r /\ moves_along P 0 dp
    /\ (forall u, reduced_lagrangian (updown_rhs idf) (updown_objects init0 1 1 None) 1 (Q u) (P u) (F u))
    /\ derivable_pt_lim F 0 v /\ v <> 0.
Proof. exact energy_changes. Qed.
Print Assumptions C61_analytic_flow_refuted.

(** A solution as in the hypotheses, with a Lagrangian other than 0: the particle moves with unit speed. *)
Example C61_solution :
  (forall t, has_states [("q1", 1%nat); ("q2", 1%nat)] "" 1 1 (free_state t))
  /\ (forall t, has_states [("q1", 1%nat); ("q2", 1%nat)] "p_" 1 1 (free_costate t))
  /\ analytic_solution (updown_rhs idf) (updown_costate onef) (updown_parameters idf init0 1 1 None) free_state free_costate
  /\ shooting_solution (updown_rhs idf) (updown_costate onef) (updown_objects init0 1 1 None) free_state free_costate
  /\ exists v, v <> 0 /\ reduced_lagrangian (updown_rhs idf) (updown_objects init0 1 1 None) 1 (free_state 0) (free_costate 0) v.
Proof. exact free_solution. Qed.

(** ** C41

    Right-hand sides. *)

Theorem C41_updown_shapes : forall nl init d f W, shapes_preserved (updown_rhs nl) (updown_objects init d f W) [("q1", d); ("q2", (d * f)%nat)].
Proof. exact updown_shapes. Qed.
Print Assumptions C41_updown_shapes.

Theorem C41_universal_shapes : forall nl init d f W ow, shapes_preserved (universal_rhs nl) (universal_objects init d f W ow) [("q1", d); ("q2", (d * f)%nat)].
Proof. exact universal_shapes. Qed.
Print Assumptions C41_universal_shapes.

Theorem C41_general_shapes : forall nl init d f W, shapes_preserved (general_rhs nl) (general_objects init d f W) [("q1", d); ("q2", (d * f)%nat)].
Proof. exact general_shapes. Qed.
Print Assumptions C41_general_shapes.

Theorem C41_periodic_shapes : forall nl init d f W, shapes_preserved (periodic_rhs nl) (periodic_objects init d f W) [("q1", d); ("q2", (d * f)%nat)].
Proof. exact periodic_shapes. Qed.
Print Assumptions C41_periodic_shapes.

Theorem C41_dampened_q2_shapes : forall nl init d f W, shapes_preserved (dampened_q2_rhs nl) (updown_objects init d f W) [("q1", d); ("q2", (d * f)%nat)].
Proof. exact dampened_q2_shapes. Qed.
Print Assumptions C41_dampened_q2_shapes.

Theorem C41_simple_shapes : forall nl init d W, shapes_preserved (simple_rhs nl) (simple_objects init d W) [("q1", d)].
Proof. exact simple_shapes. Qed.
Print Assumptions C41_simple_shapes.

Theorem C41_debug_shapes : forall nl init d W, shapes_preserved (debug_rhs nl) (debug_objects init d W) [("q1", d); ("q2", d)].
Proof. exact debug_shapes. Qed.
Print Assumptions C41_debug_shapes.

Theorem C41_second_order_shapes : forall nl init d W, shapes_preserved (second_order_rhs nl) (second_order_objects init d W) [("q1", d); ("q2", d)].
Proof. exact second_order_shapes. Qed.
Print Assumptions C41_second_order_shapes.

Theorem C41_dampened_shapes : forall nl init d f W N D s th,
  dampened_sizes d f N D s -> same_objects (updown_objects init d f W) th ->
  exists r, dampened_rhs nl s th = Ok r /\ derivative_shapes s r.
Proof. exact dampened_shapes. Qed.
Print Assumptions C41_dampened_shapes.

(** Missing: inflation factors other than 1, for which the claim is false. *)
Theorem C41_symmetrized_shapes_partial : forall nl init d W,
  shapes_preserved (symmetrized_rhs nl) (symmetrized_objects init d 1 W) [("q1", d); ("q2", d); ("q3", d)].
Proof. exact symmetrized_shapes. Qed.
Print Assumptions C41_symmetrized_shapes_partial.

Theorem C41_ot_shapes_partial : forall nl init d W,
  shapes_preserved (ot_rhs nl) (ot_objects init d 1 W) [("q1", d); ("q2", d)].
Proof. exact ot_shapes. Qed.
Print Assumptions C41_ot_shapes_partial.

(** With inflation the derivative of the third state of the symmetrized model always has the features of
    the second. *)
Theorem C41_symmetrized_inflated_partial : forall nl init d f W N D s th, (d * f)%nat <> d ->
  has_states [("q1", d); ("q2", (d * f)%nat); ("q3", d)] "" N D s -> same_objects (symmetrized_objects init d f W) th ->
  exists r x, symmetrized_rhs nl s th = Ok r /\ nth_error r 2 = Some ("dot_q3", x) /\ n2 x = (d * f)%nat.
Proof. exact symmetrized_inflated. Qed.
Print Assumptions C41_symmetrized_inflated_partial.

(** The optimal transport model then always raises. *)
Theorem C41_ot_inflated_partial : forall nl init d f W N D s th, (d * f)%nat <> d ->
  has_states [("q1", d); ("q2", d)] "" N D s -> same_objects (ot_objects init d f W) th ->
  ot_rhs nl s th = Raise RuntimeError.
Proof. exact ot_inflated. Qed.
Print Assumptions C41_ot_inflated_partial.

Theorem C41_symmetrized_refuted : exists nl init d f W s,
  has_states [("q1", d); ("q2", (d * f)%nat); ("q3", d)] "" 1 1 s
  /\ ~ exists r, symmetrized_rhs nl s (symmetrized_objects init d f W) = Ok r /\ derivative_shapes s r.
Proof. exact symmetrized_shapes_wrong. Qed.
Print Assumptions C41_symmetrized_refuted.

(** Initial particles and data have the sizes used above. *)
Theorem C41_initial_states : forall d f ini N D,
  has_states [("q1", d); ("q2", (d * f)%nat)] "" N D (updown_initial ini N D d f)
  /\ has_states [("q1", d); ("q2", d)] "" N D (second_order_initial ini N D d)
  /\ has_states [("q1", d)] "" N D (simple_initial ini N D d)
  /\ has_states [("q1", d); ("q2", (d * f)%nat); ("q3", d)] "" N D (symmetrized_initial ini N D d f)
  /\ dampened_sizes d f N D (dampened_initial ini N D d f).
Proof. exact all_initial_sizes. Qed.
Print Assumptions C41_initial_states.

Theorem C41_initial_data : forall nl d f B D x mode, of_shape B D d x -> mode_of_sizes D d (d * f) mode ->
  (exists s, updown_data nl f mode x = Ok s /\ has_states [("q1", d); ("q2", (d * f)%nat)] "" B D s)
  /\ has_states [("q1", d); ("q2", d)] "" B D (second_order_data x)
  /\ has_states [("q1", d)] "" B D (simple_data x)
  /\ has_states [("q1", d); ("q2", (d * f)%nat); ("q3", d)] "" B D (symmetrized_data f x)
  /\ dampened_sizes d f B D (dampened_data f x).
Proof. exact all_data_sizes. Qed.
Print Assumptions C41_initial_data.

Example C41_case : same_objects (updown_objects init0 2 5 (Some 1)) (updown_objects (fun _ => (fun i k => INR (i + k), INR)) 2 5 (Some 1))
  /\ mode_of_sizes 3 2 (2 * 5) (LinearInit (snn_linear (fun i k => INR (i * k), INR) 2 10 true None)).
Proof. split; [repeat constructor|cbn; eauto 8]. Qed.

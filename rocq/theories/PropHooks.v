(** * C75, C76, C77: the recording hook *)
From Coq Require Import List String Ascii Bool Reals Arith Lia Lra.
From Verif Require Import Base Tensor EnergyModel HooksModel HooksSpec HooksProofs.
Import ListNotations.
Open Scope R_scope.
Open Scope string_scope.
Open Scope list_scope.

(** ** C75

    After any sequence of successful calls, the record holds under every name
    exactly the values of all calls, in the order of the calls: the times, *)
Theorem C75_times : forall nuc spec calls d, Forall args_ok calls ->
  run_hook nuc spec calls (HRecord []) = (Ok tt, HRecord d) ->
  series d "t" = map (fun a => VNum (h_t a)) calls.
Proof. exact series_time. Qed.
Print Assumptions C75_times.

(** the states, costates, data and their derivatives, *)
Theorem C75_variables : forall nuc spec calls d, Forall args_ok calls ->
  run_hook nuc spec calls (HRecord []) = (Ok tt, HRecord d) ->
  forall n (sel : hook_args -> sdict (sdict (tensor R))) b v,
  (forall a, In (n, sel a) (dictionaries a)) -> dotfree v ->
  series d (b ++ "." ++ n ++ "." ++ v)%string =
  flat_map (fun a => match value_of (sel a) b v with Some t => [VTen t] | None => [] end) calls.
Proof. exact series_variable. Qed.
Print Assumptions C75_variables.

(** the parameters, *)
Theorem C75_parameters : forall nuc spec calls d, Forall args_ok calls ->
  run_hook nuc spec calls (HRecord []) = (Ok tt, HRecord d) ->
  forall k p, dotfree k -> String.prefix "sqr_" k = false -> dotfree p ->
  series d (k ++ "." ++ p)%string =
  flat_map (fun a => match parameter_of (h_pars a) k p with Some t => [VTen t] | None => [] end) calls.
Proof. exact series_parameter. Qed.
Print Assumptions C75_parameters.

(** the squared norms of the parameters which are not biases, *)
Theorem C75_norms : forall nuc spec calls d, Forall args_ok calls ->
  run_hook nuc spec calls (HRecord []) = (Ok tt, HRecord d) ->
  forall k p, dotfree k -> dotfree p -> p <> "bias" ->
  let norm2s f := flat_map (fun a =>
        match parameter_of (h_pars a) k p with Some t => [VNum (f t)] | None => [] end) calls in
  series d ("sqr_frobenius_norm_" ++ k ++ "." ++ p)%string = norm2s sum_squares /\
  series d ("sqr_nuclear_norm_" ++ k ++ "." ++ p)%string = norm2s (fun t => nuc t ^ 2) /\
  series d ("sqr_spectral_norm_" ++ k ++ "." ++ p)%string = norm2s (fun t => spec t ^ 2).
Proof. exact series_norms. Qed.
Print Assumptions C75_norms.

(** and the sums of the squared norms. *)
Theorem C75_sums : forall nuc spec calls d, Forall args_ok calls ->
  run_hook nuc spec calls (HRecord []) = (Ok tt, HRecord d) ->
  series d "sum_sqr_frobenius_norm" = map (fun a => VNum (sum_of_norms sum_squares (h_pars a))) calls /\
  series d "sum_sqr_nuclear_norm" = map (fun a => VNum (sum_of_norms (fun t => nuc t ^ 2) (h_pars a))) calls /\
  series d "sum_sqr_spectral_norm" = map (fun a => VNum (sum_of_norms (fun t => spec t ^ 2) (h_pars a))) calls.
Proof. exact series_sums. Qed.
Print Assumptions C75_sums.

(** ** C76

    The energies recorded are half the sums of squares of the parameters. *)
Theorem C76_energies : forall nuc spec calls d, Forall args_ok calls ->
  run_hook nuc spec calls (HRecord []) = (Ok tt, HRecord d) ->
  series d "energy" = map (fun a => VNum (energy_of (h_pars a))) calls.
Proof. exact series_energy. Qed.
Print Assumptions C76_energies.

(** Full claim: this is the kinetic energy of the integrand.  It is not when a
    parameter has a weight, as the third layer of the universal model has by default. *)
Theorem C76_kinetic_refuted : exists os, energy_of os <> kinetic_energy os.
Proof.
  exists [("l3", mkPobj [("weight", mkT [1%nat; 1%nat] [1])] [("weight", Some 10)])].
  unfold energy_of, sum_parameters, kinetic_energy, par_penalty, sum_squares, total; cbn. lra.
Qed.
Print Assumptions C76_kinetic_refuted.

Theorem C76_kinetic_partial : forall os, unit_weights os -> energy_of os = kinetic_energy os.
Proof. exact energy_unit_weights. Qed.
Print Assumptions C76_kinetic_partial.

(** With weights of at least one it is a lower bound. *)
Theorem C76_lower_bound_partial : forall os,
  (forall k o p w, In (k, o) os -> sd_get p (po_weights o) = Some (Some w) -> 1 <= w) ->
  energy_of os <= kinetic_energy os.
Proof. exact energy_large_weights. Qed.
Print Assumptions C76_lower_bound_partial.

(** The recorded energy is half of the recorded sum of squared Frobenius norms
    plus half of the squares of the biases. *)
Theorem C76_frobenius : forall os,
  energy_of os = 1 / 2 * (sum_of_norms sum_squares os +
     sum_parameters (fun p t => if String.eqb p "bias" then sum_squares t else 0) os).
Proof. exact energy_split. Qed.
Print Assumptions C76_frobenius.

(** ** C77

    Full claim: the hook can be used with the layers of all shipped models.  It
    raises for convolutions. *)
Theorem C77_all_models_refuted : exists a, args_ok a /\
  Forall (fun ko => linear_object (snd ko) \/ conv_object (snd ko)) (h_pars a) /\
  forall nuc spec, fst (parameter_evolution_hook nuc spec a (HRecord [])) = Raise RuntimeError.
Proof.
  exists example_conv_call. split; [exact example_conv_ok|]. split; [|reflexivity].
  constructor; [right; exact example_conv_object|constructor].
Qed.
Print Assumptions C77_all_models_refuted.

Theorem C77_convolutions : forall nuc spec a data, args_ok a ->
  (exists k o, In (k, o) (h_pars a) /\ conv_object o) ->
  fst (parameter_evolution_hook nuc spec a (HRecord data)) <> Ok tt.
Proof. exact conv_calls. Qed.
Print Assumptions C77_convolutions.

(** It succeeds at all evaluations of models with linear layers. *)
Theorem C77_linear_partial : forall nuc spec calls data, Forall args_ok calls ->
  Forall (fun a => Forall (fun ko => linear_object (snd ko)) (h_pars a)) calls ->
  fst (run_hook nuc spec calls (HRecord data)) = Ok tt.
Proof. exact linear_calls. Qed.
Print Assumptions C77_linear_partial.

(** Exactly: all parameters but biases are matrices with at least one entry. *)
Theorem C77_exactly : forall nuc spec calls, Forall args_ok calls -> forall data,
  fst (run_hook nuc spec calls (HRecord data)) = Ok tt <->
  Forall (fun a => only_matrices (h_pars a)) calls.
Proof. exact run_ok_iff. Qed.
Print Assumptions C77_exactly.

(** A failing call leaves the time and the energy in the record, without the
    norms which belong to them. *)
Theorem C77_failure : forall nuc spec a data e d, args_ok a ->
  parameter_evolution_hook nuc spec a (HRecord data) = (Raise e, HRecord d) ->
  (e = RuntimeError \/ e = IndexError) /\
  series d "t" = series data "t" ++ [VNum (h_t a)] /\
  series d "energy" = series data "energy" ++ [VNum (energy_of (h_pars a))] /\
  series d "sum_sqr_frobenius_norm" = series data "sum_sqr_frobenius_norm".
Proof. exact hook_failure. Qed.
Print Assumptions C77_failure.

(** Anything but a default dictionary is rejected. *)
Theorem C77_no_record : forall nuc spec a,
  parameter_evolution_hook nuc spec a HOther = (Raise ValueError, HOther).
Proof. exact hook_no_record. Qed.
Print Assumptions C77_no_record.

(** ** Instances *)

Example C75_example : forall nuc spec,
  let calls := [example_call 0 1; example_call 1 5] in
  Forall args_ok calls /\
  exists d, run_hook nuc spec calls (HRecord []) = (Ok tt, HRecord d) /\
    series d "t" = [VNum 0; VNum 1] /\
    series d "block.state.q1" = [VTen (mkT [1%nat] [0]); VTen (mkT [1%nat] [1])] /\
    series d "l1.weight" = [VTen (mkT [1%nat; 2%nat] [1; 2]); VTen (mkT [1%nat; 2%nat] [5; 2])] /\
    series d "energy" = [VNum 7; VNum 19] /\
    series d "sqr_frobenius_norm_l1.weight" = [VNum 5; VNum 29] /\
    series d "sum_sqr_frobenius_norm" = [VNum 5; VNum 29].
Proof.
  intros nuc spec calls.
  assert (A : Forall args_ok calls) by (constructor; [apply example_call_ok|constructor; [apply example_call_ok|constructor]]).
  split; [exact A|].
  eexists. split; [reflexivity|].
  cbn. unfold sum_squares, total; cbn.
  repeat split; repeat (f_equal; try lra).
Qed.

Example C77_example : forall nuc spec,
  args_ok example_conv_call /\
  (exists k o, In (k, o) (h_pars example_conv_call) /\ conv_object o) /\
  (exists d, parameter_evolution_hook nuc spec example_conv_call (HRecord []) = (Raise RuntimeError, HRecord d) /\
    series d "t" = [VNum 0] /\ series d "sum_sqr_frobenius_norm" = []) /\
  Forall (fun ko => linear_object (snd ko)) (h_pars (example_call 0 1)).
Proof.
  intros nuc spec. split; [exact example_conv_ok|]. split; [|split].
  - exists "conv1", example_conv. split; [left; reflexivity|exact example_conv_object].
  - eexists. split; [reflexivity|]. split; reflexivity.
  - constructor; [|constructor]. intros p t [I|[I|[]]]; injection I as <- <-; [right|left; reflexivity].
    split; [reflexivity|]. exists 0%nat, 1%nat. reflexivity.
Qed.

Example C76_example :
  unit_weights [("l1", mkPobj [("weight", mkT [1%nat; 2%nat] [1; 2]); ("bias", mkT [1%nat] [3])]
                         [("weight", Some 1); ("bias", None)])] /\
  energy_of [("l1", mkPobj [("weight", mkT [1%nat; 2%nat] [1; 2]); ("bias", mkT [1%nat] [3])]
                         [("weight", Some 1); ("bias", None)])] = 7.
Proof.
  split.
  - intros k o p w [I|[]] G. injection I as <- <-. cbn [po_weights] in G.
    unfold sd_get in G. destruct (String.eqb p "weight"); [injection G as <-; reflexivity|].
    destruct (String.eqb p "bias"); discriminate.
  - unfold energy_of, sum_parameters, sum_squares, total; cbn. lra.
Qed.

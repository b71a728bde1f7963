(** Proofs: whole runs of mirror images, and the activations by name. *)
From Coq Require Import List String Bool Reals Arith Lia Lra QArith Qcanon Qreals FunctionalExtensionality.
From Verif Require Import Base BaseFacts RealSum IntegratorModel FixedGridModel ActivationModel ActivationSpec ActivationProofs
  VecModel ParticlesModel ParticlesProofs2 ParticlesExamples ScalingSpec ScalingProofs ScalingProofs2 MirrorSpec MirrorProofs.
Import ListNotations.
Open Scope string_scope.
Open Scope list_scope.
Open Scope R_scope.

Section Runs.
Variable nl dnl : R -> R.
Hypothesis ODD : forall x, nl (- x) = - nl x.
Hypothesis EVEN : forall x, dnl (- x) = dnl x.
Variable init : string -> (nat -> nat -> R) * (nat -> R).
Variable d e : nat.
Variable W : option R.
Variable ow : R.
Variable N : nat.
Notation family := (vector_equations nl dnl init d e W ow N).

Ltac families I := cbn [vector_equations] in I;
  repeat (destruct I as [I|I]; [rewrite <- I; cbn [eq_parameters eq_rhs eq_costate]|]); [..|contradiction].

Lemma parameters_mirror m s c : In m family ->
  eq_parameters m (mirror s) (mirror c) = lift (eq_parameters m s c) mirror_layers.
Proof.
  intros I. rewrite !mirror_multiple. families I.
  - apply updown_parameters_turned; assumption.
  - apply universal_parameters_turned; assumption.
  - apply general_parameters_turned; assumption.
  - apply debug_parameters_turned; assumption.
  - apply simple_parameters_turned; assumption.
  - apply updown_parameters_turned; assumption.
  - apply symmetrized_parameters_turned; assumption.
  - apply periodic_parameters_turned; assumption.
Qed.

Lemma rhs_mirror m s th : In m family -> eq_rhs m (mirror s) (mirror_layers th) = lift (eq_rhs m s th) mirror.
Proof.
  intros I. replace mirror with (multiple (-1)) by (ext; symmetry; apply mirror_multiple). families I.
  - apply updown_rhs_turned; assumption.
  - apply universal_rhs_turned; assumption.
  - apply general_rhs_turned; assumption.
  - apply debug_rhs_turned; assumption.
  - apply simple_rhs_turned; assumption.
  - apply dampened_q2_rhs_turned; assumption.
  - apply symmetrized_rhs_turned; assumption.
  - apply periodic_rhs_turned; assumption.
Qed.

Lemma costate_mirror m s c th : In m family ->
  eq_costate m (mirror s) (mirror c) (mirror_layers th) = lift (eq_costate m s c th) mirror.
Proof.
  intros I. replace mirror with (multiple (-1)) by (ext; symmetry; apply mirror_multiple). families I.
  - apply updown_costate_turned; assumption.
  - apply universal_costate_turned; assumption.
  - apply general_costate_turned; assumption.
  - apply debug_costate_turned; assumption.
  - apply simple_costate_turned; assumption.
  - apply updown_costate_turned; assumption.
  - apply symmetrized_costate_turned; assumption.
  - apply periodic_costate_turned; assumption.
Qed.

Lemma system_mirror m y : In m family -> system_rhs m (mirror_system y) = lift (system_rhs m y) mirror_system.
Proof.
  intros I. destruct y as [[s c] z]. unfold system_rhs, mirror_system. rewrite (parameters_mirror m s c I).
  destruct (eq_parameters m s c) as [th|]; [|reflexivity]. cbn [bind].
  rewrite !(rhs_mirror m _ _ I), (costate_mirror m s c th I).
  destruct (eq_rhs m s th); [|reflexivity]. cbn [bind]. destruct (eq_rhs m z th); [|reflexivity]. cbn [bind].
  destruct (eq_costate m s c th); reflexivity.
Qed.

Lemma plus_mirror s r : plus_states (mirror s) (mirror r) = lift (plus_states s r) mirror.
Proof.
  replace mirror with (multiple (-1)) by (ext; symmetry; apply mirror_multiple). apply plus_multiple.
Qed.
Lemma times_mirror a s : times_states a (mirror s) = mirror (times_states a s).
Proof. rewrite !mirror_multiple. apply times_multiple. Qed.

Definition mirrored (y y' : result system) : Prop := y' = lift y mirror_system.

Lemma run_mirror m other adj name o y t ys : In m family -> In name ["euler"; "midpoint"; "rk4"] ->
  fixed_odeint plus_system times_system (system_field m) other adj name o (Ok y) t = Ok (map Ok ys) ->
  fixed_odeint plus_system times_system (system_field m) other adj name o (Ok (mirror_system y)) t
  = Ok (map Ok (map mirror_system ys)).
Proof.
  intros I NM H.
  destruct (fixed_odeint_rel plus_system times_system plus_system times_system mirrored) with
    (f := system_field m) (f' := system_field m) (otherX := other) (otherY := other) (adj := adj) (name := name) (o := o)
    (x := Ok y : result system) (y := Ok (mirror_system y) : result system) (t := t) (xs := map Ok ys : list (result system)) as (zs & Z & F).
  - intros x x' u u' A B. unfold mirrored in *. subst. destruct x as [[[s c] z]|]; [|reflexivity].
    destruct x' as [[[s' c'] z']|]; [|reflexivity]. cbn [bind mirror_system plus_system]. rewrite !plus_mirror.
    destruct (plus_states s s'); [|reflexivity]. cbn [bind]. destruct (plus_states c c'); [|reflexivity]. cbn [bind].
    destruct (plus_states z z'); reflexivity.
  - intros a x u A. unfold mirrored in *. rewrite A. destruct x as [[[s c] z]|]; [|reflexivity].
    cbn [bind mirror_system times_system]. rewrite !times_mirror. reflexivity.
  - intros s x u A. unfold mirrored in *. rewrite A. destruct x as [x|]; [|reflexivity]. cbn [bind system_field].
    apply system_mirror. exact I.
  - exact NM.
  - reflexivity.
  - exact H.
  - rewrite Z. f_equal. clear -F. revert zs F. induction ys as [|a ys IH]; intros zs F.
    + inversion F. reflexivity.
    + inversion F as [|? b ? zs' A F']. cbn [map]. rewrite (IH _ F'). f_equal. exact A.
Qed.
End Runs.

(** ** Names *)
Lemma tanh_odd x : tanh (- x) = - tanh x.
Proof. unfold tanh, sinh, cosh. rewrite Ropp_involutive. field. pose proof (exp_pos x). pose proof (exp_pos (- x)). lra. Qed.

Lemma odd_by_name name nl dnl : get_nonlinearity name = Ok (nl, dnl) ->
  name = None \/ (exists s, name = Some s /\ (same_up_to_case s "identity" \/ same_up_to_case s "tanh")) ->
  (forall x, nl (- x) = - nl x) /\ (forall x, dnl (- x) = dnl x).
Proof.
  intros G [->|(s & -> & [S0|S0])].
  - cbn in G. injection G as <- <-. split; reflexivity.
  - rewrite (names_case_insensitive _ _ S0) in G. cbn in G. injection G as <- <-. split; reflexivity.
  - rewrite (names_case_insensitive _ _ S0) in G. cbn in G. injection G as <- <-. split; [exact tanh_odd|].
    intros x. unfold dtanh. rewrite tanh_odd. ring.
Qed.

Lemma others_by_name s : same_up_to_case s "relu" \/ same_up_to_case s "sigmoid" \/ same_up_to_case s "softmax" ->
  exists nl dnl, get_nonlinearity (Some s) = Ok (nl, dnl) /\ nl 1 * nl 1 <> nl (-1) * nl (-1).
Proof.
  intros [S0|[S0|S0]]; rewrite (names_case_insensitive _ _ S0); cbn; do 2 eexists; (split; [reflexivity|]).
  - unfold relu. rewrite Rmax_right, Rmax_left by lra. lra.
  - assert (sigmoid (-1) < sigmoid 1).
    { unfold sigmoid, Rdiv. rewrite !Rmult_1_l. replace (- -1) with 1 by ring. replace (- (1)) with (-1) by ring.
      pose proof (exp_pos (-1)). pose proof (exp_pos 1). assert (exp (-1) < exp 1) by (apply exp_increasing; lra).
      apply Rinv_lt_contravar; [apply Rmult_lt_0_compat|]; lra. }
    pose proof (sigmoid_positive (-1)). intros E. nra.
  - unfold softmax. replace (- (1) * 1) with (-1) by ring. replace (- (-1) * 1) with 1 by ring.
    pose proof (exp_pos (-1)). pose proof (exp_pos 1). assert (exp (-1) < exp 1) by (apply exp_increasing; lra).
    assert (A : / (exp 1 + 1) < / (exp (-1) + 1)) by (apply Rinv_lt_contravar; [apply Rmult_lt_0_compat|]; lra).
    assert (0 < / (exp 1 + 1)) by (apply Rinv_0_lt_compat; lra).
    unfold Rdiv. replace (1 * 1 * / (exp (-1) + 1)) with (/ (exp (-1) + 1)) by ring.
    intros E. nra.
Qed.

(** The derivative of the only state in the only place. *)
Definition only_derivative (y : result system) : R :=
  match y with Ok ([(_, x)], _, _) => v3 x 0%nat 0%nat 0%nat | _ => 0 end.

Lemma others_not_mirrored s : same_up_to_case s "relu" \/ same_up_to_case s "sigmoid" \/ same_up_to_case s "softmax" ->
  forall init, exists nl dnl m y, get_nonlinearity (Some s) = Ok (nl, dnl) /\ In m (vector_equations nl dnl init 1 1 None 1 1) /\
  (exists r, system_rhs m y = Ok r) /\
  system_rhs m (mirror_system y) <> bind (system_rhs m y) (fun r => Ok (mirror_system r)).
Proof.
  intros S0 init. destruct (others_by_name s S0) as (nl & dnl & G & E).
  exists nl, dnl, (mkEquations (simple_rhs nl) (simple_costate nl dnl 1) (simple_parameters nl init 1 None 1)),
    (one_position, one_costate, some_data).
  split; [exact G|]. split; [cbn; tauto|]. split.
  - eexists. lazy -[Rplus Rmult Ropp Rinv Rdiv IZR INR Q2R rsum]. reflexivity.
  - intros X. apply (f_equal only_derivative) in X. apply E. revert X.
    cbn. replace (- (1)) with (-1) by ring. intros X.
    assert (- (nl (-1) * nl (-1)) - 1 = - (nl 1 * nl 1 + 1)); [|lra].
    etransitivity; [|etransitivity; [exact X|]]; field.
Qed.

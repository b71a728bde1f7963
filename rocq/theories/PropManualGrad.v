(** Property C112: the hand-made equations of tests/autograd_versus_manualgrad.py (mg.py). *)
From Coq Require Import List String Reals Arith Lia Lra.
From Verif Require Import Base RealSum VecModel VecSpec ActivationModel ActivationProofs ManualGradModel ManualGradSpec ManualGradProofs.
Import ListNotations.
Open Scope R_scope.

(** Ones, for one particle with two features. *)
Example C112_case : of_shape 1 1 2 (mkT3 1 1 2 (fun _ _ _ => 1)) /\ (forall x, derivable_pt_lim tanh x (dtanh x)).
Proof. split; [repeat split|exact tanh_derivative]. Qed.

(** C112, as expected by a user ("should be the same", mg.py:163-167), asks for equal weights, biases and
    derivatives.  False with more than one feature: the script divides by the number of features, but the
    package only takes the mean over the particles. *)
Theorem C112_same_refuted : exists nl dnl init N d q p At bt dq dp A b rq rp,
  (forall x, derivable_pt_lim nl x (dnl x)) /\ of_shape N 1 d q /\ of_shape N 1 d p
  /\ manual nl dnl d N q p = Ok (At, bt, dq, dp) /\ package_computes nl init N d q p A b rq rp
  /\ ~ agree_up_to 1 N d At bt dq dp A b rq rp.
Proof.
  set (x := mkT3 1 1 2 (fun _ _ _ => 1)). set (init := (fun _ => (fun _ _ => 0, fun _ => 0)) : inits).
  assert (S : of_shape 1 1 2 x) by (repeat split).
  destruct (compared tanh dtanh init 1 2 tanh_derivative ltac:(lia) ltac:(lia) x x S S) as [At [bt [dq [dp [E _]]]]].
  destruct (package_defined tanh dtanh init 1 2 tanh_derivative ltac:(lia) x x S S) as [A [b [rq [rp P]]]].
  exists tanh, dtanh, init, 1%nat, 2%nat, x, x, At, bt, dq, dp, A, b, rq, rp.
  split; [exact tanh_derivative|]. do 4 (split; [assumption|]).
  apply (differs tanh dtanh init 1 2 x x At bt dq dp A b rq rp 0 tanh_derivative); auto; cbn; lra.
Qed.
Print Assumptions C112_same_refuted.

(** C112: with two or more features they differ whenever the costates do not sum to zero. *)
Theorem C112_differs : forall nl dnl init N d q p At bt dq dp A b rq rp k,
  (forall x, derivable_pt_lim nl x (dnl x)) -> (0 < N)%nat -> (2 <= d)%nat -> of_shape N 1 d q -> of_shape N 1 d p ->
  (k < d)%nat -> rsum N (fun n => v3 p n 0 k) <> 0 ->
  manual nl dnl d N q p = Ok (At, bt, dq, dp) -> package_computes nl init N d q p A b rq rp ->
  ~ agree_up_to 1 N d At bt dq dp A b rq rp.
Proof. exact differs. Qed.
Print Assumptions C112_differs.

(** C112: for all numbers of particles and features, states and costates, the package's weight, bias and
    derivatives are the hand-made ones times the number of features; they are the same with one feature.
    Missing from the full statement: the same with more features. *)
Theorem C112_up_to_features_partial : forall nl dnl init N d, (forall x, derivable_pt_lim nl x (dnl x)) ->
  (0 < N)%nat -> (0 < d)%nat -> forall q p, of_shape N 1 d q -> of_shape N 1 d p ->
  exists At bt dq dp, manual nl dnl d N q p = Ok (At, bt, dq, dp)
    /\ forall A b rq rp, package_computes nl init N d q p A b rq rp -> agree_up_to (INR d) N d At bt dq dp A b rq rp.
Proof. exact compared. Qed.
Print Assumptions C112_up_to_features_partial.

(** C112: what the package computes exists. *)
Theorem C112_package_defined : forall nl dnl init N d, (forall x, derivable_pt_lim nl x (dnl x)) ->
  (0 < N)%nat -> forall q p, of_shape N 1 d q -> of_shape N 1 d p ->
  exists A b rq rp, package_computes nl init N d q p A b rq rp.
Proof. exact package_defined. Qed.
Print Assumptions C112_package_defined.

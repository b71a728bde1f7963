(** Property C40: activation functions and their derivatives. *)
From Coq Require Import List String Ascii Reals NArith Lra.
From Verif Require Import Base ActivationModel ActivationSpec ActivationProofs.
Import ListNotations.
Open Scope R_scope.

(** Full statement of C40: for every name the second function returned is the derivative of the
    first wherever that exists.  False for 'sigmoid': the sigmoid itself is returned
    as its derivative (act.py:57), which is too large everywhere. *)
Theorem C40_sigmoid_refuted : forall s, same_up_to_case s "sigmoid" ->
  exists nl dnl, get_nonlinearity (Some s) = Ok (nl, dnl) /\
  forall x, exists l, derivable_pt_lim nl x l /\ l < dnl x.
Proof. exact sigmoid_wrong. Qed.
Print Assumptions C40_sigmoid_refuted.

(** C40 for every other name (missing: sigmoid). *)
Theorem C40_derivative_partial : forall name nl dnl,
  get_nonlinearity name = Ok (nl, dnl) ->
  (forall s, name = Some s -> ~ same_up_to_case s "sigmoid") ->
  forall x l, derivable_pt_lim nl x l -> dnl x = l.
Proof. exact derivative_unique. Qed.
Print Assumptions C40_derivative_partial.

(** The statement above is not empty: only relu at 0 has no derivative. *)
Theorem C40_differentiable : forall name nl dnl,
  get_nonlinearity name = Ok (nl, dnl) ->
  forall x, (forall s, name = Some s -> same_up_to_case s "relu" -> x <> 0) ->
  exists l, derivable_pt_lim nl x l.
Proof. exact derivative_exists. Qed.
Print Assumptions C40_differentiable.

(** Names that differ in case mean the same functions. *)
Theorem C40_case_insensitive : forall s t, same_up_to_case s t ->
  get_nonlinearity (Some s) = get_nonlinearity (Some t).
Proof. exact names_case_insensitive. Qed.
Print Assumptions C40_case_insensitive.

(** Exactly the documented names are accepted; any other name is a ValueError. *)
Theorem C40_names : forall s,
  ((exists d, In d documented /\ same_up_to_case s d) ->
     exists nl dnl, get_nonlinearity (Some s) = Ok (nl, dnl)) /\
  (~ (exists d, In d documented /\ same_up_to_case s d) ->
     get_nonlinearity (Some s) = Raise ValueError).
Proof. exact names_spec. Qed.
Print Assumptions C40_names.

(** Without a name the identity is used. *)
Theorem C40_default : exists dnl, get_nonlinearity None = Ok (fun x => x, dnl).
Proof. exact default_identity. Qed.
Print Assumptions C40_default.

Example C40_names_case : same_up_to_case "TanH" "tanh" /\ same_up_to_case "Sigmoid" "sigmoid".
Proof. split; apply lower_same; reflexivity. Qed.

Example C40_relu_case : exists nl dnl, get_nonlinearity (Some "ReLU"%string) = Ok (nl, dnl) /\
  nl (-3) = 0 /\ dnl (-3) = 0 /\ nl 2 = 2 /\ dnl 2 = 1 /\ dnl 0 = 1.
Proof.
  exists relu, drelu. split; [reflexivity|]. unfold relu, drelu.
  repeat split; try (destruct (Rle_dec _ _); lra).
  - apply Rmax_left; lra.
  - apply Rmax_right; lra.
Qed.

Example C40_unknown_case : get_nonlinearity (Some "gelu"%string) = Raise ValueError.
Proof. reflexivity. Qed.

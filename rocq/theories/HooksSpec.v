(** Vocabulary of the statements about the recording hook (C75, C76, C77). *)
From Coq Require Import List String Ascii Bool Reals Arith.
From Verif Require Import Base Tensor EnergyModel HooksModel.
Import ListNotations.
Open Scope R_scope.
Open Scope string_scope.
Open Scope list_scope.

(** What has been recorded under a name. *)
Definition series (d : record) (k : string) : list val :=
  match pd_get k d with Some l => l | None => [] end.

(** A name without a dot. *)
Fixpoint dotfree (s : string) : Prop :=
  match s with
  | EmptyString => True
  | String c s' => c <> "."%char /\ dotfree s'
  end.

(** The value of variable [v] of block [b]. *)
Definition value_of {A} (dd : sdict (sdict A)) (b v : string) : option A :=
  match sd_get b dd with Some d => sd_get v d | None => None end.

(** The value of parameter [p] of object [k]. *)
Definition parameter_of (os : pobjs) (k p : string) : option (tensor R) :=
  match sd_get k os with Some o => sd_get p (po_pars o) | None => None end.

(** The six dictionaries of a call with the names they are recorded under. *)
Definition dictionaries (a : hook_args) : list (string * sdict (sdict (tensor R))) :=
  [("state", h_state a); ("costate", h_costate a); ("data", h_data a);
   ("dot_state", h_dot_state a); ("dot_costate", h_dot_costate a); ("dot_data", h_dot_data a)].

(** Ordinary dictionaries of dictionaries: names occur once, names of variables
    have no dot. *)
Definition names_ok {A} (dd : sdict (sdict A)) : Prop :=
  NoDup (keys dd) /\
  forall b d, In (b, d) dd -> NoDup (keys d) /\ forall v, In v (keys d) -> dotfree v.

(** Ordinary arguments: as above, names of parameter objects have no dot and do
    not start with "sqr_". *)
Definition args_ok (a : hook_args) : Prop :=
  Forall (fun nd => names_ok (snd nd)) (dictionaries a) /\
  names_ok (map (fun op => (fst op, po_pars (snd op))) (h_pars a)) /\
  forall k, In k (keys (h_pars a)) -> dotfree k /\ String.prefix "sqr_" k = false.

(** Sum over all parameters of all objects. *)
Definition sum_parameters (f : string -> tensor R -> R) (os : pobjs) : R :=
  fold_right Rplus 0
    (flat_map (fun op => map (fun pt => f (fst pt) (snd pt)) (po_pars (snd op))) os).

(** Half the sum of squares of all parameters. *)
Definition energy_of (os : pobjs) : R :=
  1 / 2 * sum_parameters (fun _ t => sum_squares t) os.

(** Sum of the squared norms of all parameters which are not biases. *)
Definition sum_of_norms (norm2 : tensor R -> R) (os : pobjs) : R :=
  sum_parameters (fun p t => if String.eqb p "bias" then 0 else norm2 t) os.

(** All parameters but biases are matrices with at least one entry. *)
Definition only_matrices (os : pobjs) : Prop :=
  forall k o p t, In (k, o) os -> In (p, t) (po_pars o) -> p <> "bias" ->
    List.length (tshape t) = 2%nat /\ prod (tshape t) <> 0%nat.

(** No parameter has a weight other than one. *)
Definition unit_weights (os : pobjs) : Prop :=
  forall k o p w, In (k, o) os -> sd_get p (po_weights o) = Some (Some w) -> w = 1.

(** The parameters of a linear layer with at least one input and output, and of a
    convolution layer (overwrite_classes.py:138-159, 88-109: a weight and perhaps a bias). *)
Definition linear_object (o : pobj) : Prop :=
  forall p t, In (p, t) (po_pars o) ->
    p = "bias" \/ p = "weight" /\ exists m n, tshape t = [S m; S n].
Definition conv_object (o : pobj) : Prop :=
  exists t c1 c2 k1 k2, sd_get "weight" (po_pars o) = Some t /\ tshape t = [c1; c2; k1; k2].

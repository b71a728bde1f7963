(** Specification vocabulary for the dictionary properties, independent of the
    model's functions. *)
From Coq Require Import List String Arith.
From Verif Require Import Base Tensor.
Import ListNotations.

(** Keys sorted and tensors well-formed. *)
Definition dict_wf {A} (d : sdict (tensor A)) : Prop :=
  sd_wf d /\ Forall (fun kt => twf (snd kt)) d.

Definition dicts_wf {A} (d : sdict (sdict (tensor A))) : Prop :=
  sd_wf d /\ Forall (fun kd => dict_wf (snd kd)) d.

(** No zero-dimensional (scalar) tensors. *)
Definition ranked {A} (d : sdict (sdict (tensor A))) : Prop :=
  Forall (fun kd => Forall (fun kt => tshape (snd kt) <> []) (snd kd)) d.

(** At least one block holds a variable. *)
Definition has_variable {V} (d : sdict (sdict V)) : Prop :=
  exists name block, In (name, block) d /\ block <> [].

(** The blocks that hold at least one variable. *)
Definition nonempty_blocks {V} (d : sdict (sdict V)) : sdict (sdict V) :=
  filter (fun kd => match snd kd with [] => false | _ => true end) d.

(** All elements of all tensors, in block, variable and row-major order. *)
Definition elements {A} (d : sdict (sdict (tensor A))) : list A :=
  flat_map (fun kd => flat_map (fun kt => tdata (snd kt)) (snd kd)) d.

(** Entry-wise relation between two dictionaries of dictionaries having the same
    block and variable names. *)
Definition dict_rel {V W} (R : V -> W -> Prop) (d1 : sdict V) (d2 : sdict W) : Prop :=
  Forall2 (fun a b => fst a = fst b /\ R (snd a) (snd b)) d1 d2.

Definition dicts_rel {V W} (R : V -> W -> Prop)
    (d1 : sdict (sdict V)) (d2 : sdict (sdict W)) : Prop :=
  dict_rel (dict_rel R) d1 d2.

(** [d2] is [d1] at time index [i]: every tensor has lost its leading dimension. *)
Definition at_time {A} (i : nat) (d1 d2 : sdict (sdict (tensor A))) : Prop :=
  dicts_rel (fun t u => tselect i t = Ok u) d1 d2.

(** Lookup of a variable in a block. *)
Definition lookup2 {V} (block name : string) (d : sdict (sdict V)) : option V :=
  match sd_get block d with Some b => sd_get name b | None => None end.

(** Renaming the variables of all blocks. *)
Definition rename {V} (f : string -> string) (d : sdict (sdict V)) : sdict (sdict V) :=
  map (fun kd => (fst kd, map (fun kv => (f (fst kv), snd kv)) (snd kd))) d.

(** All blocks have the same variable names. *)
Definition same_names {V} (d : sdict (sdict V)) : Prop :=
  forall n1 b1 n2 b2, In (n1, b1) d -> In (n2, b2) d -> keys b1 = keys b2.

(** Same-named tensors have the dimension [dim] and agree in all others. *)
Definition agree_off {A} (dim : nat) (d : sdict (sdict (tensor A))) : Prop :=
  forall n1 b1 n2 b2 k t1 t2,
    In (n1, b1) d -> In (n2, b2) d -> In (k, t1) b1 -> In (k, t2) b2 ->
    dim < List.length (tshape t1) /\ set_nth dim 0 (tshape t1) = set_nth dim 0 (tshape t2).

(** Extent of variable [k] of a block along [dim]. *)
Definition extent {A} (dim : nat) (k : string) (b : sdict (tensor A)) : nat :=
  match sd_get k b with Some t => nth dim (tshape t) 0 | None => 0 end.

(** Sum of the extents of variable [k] over some blocks. *)
Definition offset {A} (dim : nat) (k : string) (d : sdict (sdict (tensor A))) : nat :=
  fold_right (fun kd n => extent dim k (snd kd) + n) 0 d.

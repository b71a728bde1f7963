(** Specification vocabulary for the sweep tools, independent of the model. *)
From Coq Require Import List String Ascii Arith ZArith Bool.
From Verif Require Import Base SweepModel.
Import ListNotations.
Open Scope string_scope.

(** A combination picks, for each key in order, one of its values: given by
    positions.  [choices] are all position tuples in lexicographic order. *)
Fixpoint choices (lens : list nat) : list (list nat) :=
  match lens with
  | [] => [[]]
  | n :: r => flat_map (fun i => map (cons i) (choices r)) (seq 0 n)
  end.

(** The configuration selected by a tuple of positions. *)
Fixpoint pick (pars : pdict (list pyval)) (idx : list nat) : config :=
  match pars, idx with
  | (k, vs) :: r, i :: idx' => (k, nth i vs VNone) :: pick r idx'
  | _, _ => []
  end.

(** The Cartesian product of the value lists in lexicographic order. *)
Definition product (pars : pdict (list pyval)) : list config :=
  map (pick pars) (choices (map (fun kv => List.length (snd kv)) pars)).

(** A Python dictionary has each key once. *)
Definition dict_ok {A} (d : pdict A) : Prop := NoDup (map fst d).

(** [d.update(c)]: the entries of [c] written over [d]. *)
Definition updated (d c : config) : config :=
  fold_left (fun d' kv => pd_set (fst kv) (snd kv) d') c d.

(** No underscore in a string. *)
Definition plain (s : string) : Prop := ~ In "_"%char (list_ascii_of_string s).

(** The swept values print differently when they differ, and without an underscore. *)
Definition readable (vs : list pyval) : Prop :=
  (forall v, In v vs -> plain (py_str v)) /\
  (forall v w, In v vs -> In w vs -> py_str v = py_str w -> v = w).

(** What merging one swept value does to a key that currently holds [old]. *)
Definition merged_value (old swept_value : option pyval) : option pyval :=
  match swept_value with
  | None => old
  | Some (VBool true) => Some VNone
  | Some (VBool false) => old
  | Some v => Some v
  end.

(** Reading a command line back: an item starting with "--" opens an option,
    any other item is the value of the option just opened. *)
Definition is_option (s : string) : bool := String.prefix "--" s.

Fixpoint read_command_line (l : list string) : list (string * option string) :=
  match l with
  | [] => []
  | o :: rest =>
      match rest with
      | v :: rest' => if is_option v then (o, None) :: read_command_line rest
                      else (o, Some v) :: read_command_line rest'
      | [] => [(o, None)]
      end
  end.

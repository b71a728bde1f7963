(** What the command properties say about configuration strings and options. *)
From Coq Require Import List String Ascii.
From Verif Require Import Base SweepModel CommandModel ShellSpec.
Import ListNotations.
Open Scope string_scope.

(** The parts after the leading empty ones. *)
Fixpoint drop_empty (parts : list string) : list string :=
  match parts with "" :: r => drop_empty r | _ => parts end.

(** A log file name, if any, of plain characters. *)
Definition optional_plain (log : option string) : Prop :=
  match log with Some l => plain l | None => True end.

(** An option of a run and the text it is meant to give the script: the value
    printed as it is, or with its semicolons escaped. *)
Definition prints (kv : string * pyval) (o : string * option string) : Prop :=
  fst kv = fst o /\ plain (fst o) /\
  match snd o with
  | None => snd kv = VNone
  | Some t => snd kv <> VNone /\
      (plain t /\ py_str (snd kv) = t \/ plain_or_semicolon t /\ py_str (snd kv) = escape_semicolons t)
  end.

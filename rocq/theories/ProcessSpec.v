(** Specification for processes: lines and comments. *)
From Coq Require Import List String Ascii Arith.
Import ListNotations.
Open Scope string_scope.

(** Lines, each ended by a newline but the last. *)
Fixpoint unlines (ls : list string) : string :=
  match ls with
  | [] => ""
  | [l] => l
  | l :: r => l ++ String (ascii_of_nat 10) (unlines r)
  end.

(** A text without a newline. *)
Definition one_line (s : string) : Prop := ~ In (ascii_of_nat 10) (list_ascii_of_string s).

(** A comment. *)
Definition comment (l : string) : Prop := exists r, l = String "#"%char r.

(** The lines of a text which are no comments, in their order. *)
Inductive uncommented : list string -> list string -> Prop :=
| no_lines : uncommented [] []
| skip l ls rs : comment l -> uncommented ls rs -> uncommented (l :: ls) rs
| keep l ls rs : ~ comment l -> uncommented ls rs -> uncommented (l :: ls) (l :: rs).

(** Specification vocabulary for parameter counts. *)
From Coq Require Import List String Arith Bool.
From Verif Require Import Base UtilsModel.
Import ListNotations.

(** Number of elements of a tensor: the product of its extents. *)
Fixpoint elements (size : list nat) : nat :=
  match size with [] => 1 | n :: r => n * elements r end.

(** Elements of all parameters selected by [f]. *)
Definition total (f : string * par -> bool) (model : params) : nat :=
  list_sum (map (fun kv => elements (p_size (snd kv))) (filter f model)).

Definition mem (names : list string) (k : string) : bool := existsb (String.eqb k) names.

(** All parameters named in [names] get the value, nothing else changes. *)
Definition switched (v : bool) (names : list string) (m : params) : params :=
  map (fun kv => if mem names (fst kv) then (fst kv, mkPar (p_size (snd kv)) v) else kv) m.

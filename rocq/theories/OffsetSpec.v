(** Specification: the same times counted from another origin. *)
From Coq Require Import List QArith Qcanon.
Import ListNotations.

(** All times later by [c]. *)
Definition later (c : Qc) (t : list Qc) : list Qc := map (fun s => (s + c)%Qc) t.

(** A right-hand side which takes place later by [c]. *)
Definition delayed {X} (c : Qc) (f f' : Qc -> X -> X) : Prop := forall s y, f' (s + c)%Qc y = f s y.

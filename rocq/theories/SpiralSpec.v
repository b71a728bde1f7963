(** Specification vocabulary for chunking. *)
From Coq Require Import List.
Import ListNotations.

(** Consecutive chunks share exactly their end point: the last entry of a chunk is
    the first of the next. *)
Inductive linked {A} : list (list A) -> Prop :=
| linked_one c : linked [c]
| linked_cons c a b c' cs : c = a ++ [b] -> linked ((b :: c') :: cs) -> linked (c :: (b :: c') :: cs).

(** Chunks put together, counting the shared points once. *)
Definition glue {A} (chunks : list (list A)) : list A :=
  match chunks with
  | [] => []
  | c :: cs => c ++ concat (map (@tl A) cs)
  end.

(** Solving chunk after chunk, starting each from the last point of the one before. *)
Fixpoint chain {T X} (solve : list T -> X -> list X) (x : X) (chunks : list (list T)) : list X :=
  match chunks with
  | [] => []
  | [c] => solve c x
  | c :: cs => removelast (solve c x) ++ chain solve (last (solve c x) x) cs
  end.

(** The solver that follows a flow [phi] from the first time of the vector. *)
Definition flow_solve (T X : Type) (phi : T -> T -> X -> X) (ts : list T) (x : X) : list X :=
  match ts with [] => [] | t0 :: _ => map (fun s => phi t0 s x) ts end.

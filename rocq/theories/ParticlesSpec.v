(** Specification: choosing particles. *)
From Coq Require Import List String Reals Arith QArith Qcanon.
From Verif Require Import Base VecModel.
Import ListNotations.
Open Scope nat_scope.

(** [g] gives for each of [N'] new particles one of [N] old ones, each old one equally often. *)
Definition evenly (g : nat -> nat) (N N' : nat) : Prop :=
  (forall n, n < N' -> g n < N) /\
  exists m, 0 < m /\ forall j, j < N -> List.length (filter (fun n => g n =? j) (seq 0 N')) = m.

(** [x'] has the [N'] particles which [g] chooses among the [N] particles of [x]. *)
Definition chosen (g : nat -> nat) (N N' : nat) (x x' : t3) : Prop :=
  n0 x = N /\ n0 x' = N' /\ n1 x' = n1 x /\ n2 x' = n2 x /\
  forall n i k, n < N' -> v3 x' n i k = v3 x (g n) i k.

(** The same for all variables. *)
Definition all_chosen (g : nat -> nat) (N N' : nat) (s s' : states) : Prop :=
  Forall2 (fun a b => fst a = fst b /\ chosen g N N' (snd a) (snd b)) s s'.

(** Two systems: chosen particles, the same data. *)
Definition chosen_system (g : nat -> nat) (N N' : nat) (y y' : states * states * states) : Prop :=
  let '(s, c, z) := y in let '(s', c', z') := y' in
  all_chosen g N N' s s' /\ all_chosen g N N' c c' /\ z' = z.

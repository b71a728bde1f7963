(** Specification: particles without costates. *)
From Coq Require Import List String Reals.
From Verif Require Import Base VecModel ParticlesSpec.
Import ListNotations.

(** Of [B] particles those after the first [A] are zero. *)
Definition quiet (A B : nat) (x : t3) : Prop := n0 x = B /\ forall n i k, A <= n < B -> v3 x n i k = 0%R.

(** The same for all variables. *)
Definition all_quiet (A B : nat) (c : states) : Prop := Forall (fun kx => quiet A B (snd kx)) c.

(** The second system has the first [A] of [B] particles; the others have no costates in the first system. *)
Definition without (A B : nat) (y y' : states * states * states) : Prop :=
  let '(s, c, z) := y in let '(s', c', z') := y' in
  all_chosen (fun n => n) B A s s' /\ all_chosen (fun n => n) B A c c' /\ all_quiet A B c /\ z' = z.

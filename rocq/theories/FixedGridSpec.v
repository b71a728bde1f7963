(** Times and results of a fixed-step solver, without the solver's loops. *)
From Coq Require Import List String ZArith QArith Qcanon.
From Verif Require Import Base IntegratorModel.
Import ListNotations.
Open Scope string_scope.
Open Scope list_scope.
Open Scope nat_scope.

(** The number [n] as a time factor. *)
Definition times (n : nat) (h : Qc) : Qc := (Q2Qc (inject_Z (Z.of_nat n)) * h)%Qc.

(** [s] is a whole number of steps behind [t0]. *)
Definition on_grid (h t0 s : Qc) : Prop := exists k, s = (t0 + times k h)%Qc.

(** [k] whole steps of length [h] from time [t]. *)
Fixpoint whole_steps {X} (advance : Qc -> Qc -> X -> X) (h t : Qc) (k : nat) (x : X) : X :=
  match k with
  | O => x
  | S k => whole_steps advance h (t + h)%Qc k (advance t h x)
  end.

(** The checkpoints between [t0] and [tl] lie on the grid: [nr] checkpoints at equal distances, or one after
    every interval [dt]. *)
Definition aligned (h t0 tl : Qc) (nr : option Z) (dt : option Qc) : Prop :=
  match nr, dt with
  | Some n, None => (0 <= n)%Z /\ exists j, (tl - t0 = times (Z.to_nat (n + 1) * j) h)%Qc
  | None, Some d => (0 < d)%Qc /\ exists j, d = times j h
  | _, _ => False
  end.

(** Vectors: what Euler's method needs. *)
Definition vector_laws {X} (add : X -> X -> X) (mul : Qc -> X -> X) : Prop :=
  (forall y d, add (add y d) (mul (Q2Qc (-1)) y) = d) /\
  (forall a b v, mul a (mul b v) = mul (a * b)%Qc v) /\
  (forall v, mul 1%Qc v = v).

(** Vectors: multiplication is associative and distributes. *)
Definition linear_laws {X} (add : X -> X -> X) (mul : Qc -> X -> X) : Prop :=
  (forall a b v, mul a (mul b v) = mul (a * b)%Qc v) /\
  (forall a u v, mul a (add u v) = add (mul a u) (mul a v)).

(** The options ask for steps of length [h], written as a float or an integer. *)
Definition step_option (o : opts) (h : Qc) : Prop :=
  sd_get "step_size" o = Some (ONum h) \/ exists z, sd_get "step_size" o = Some (OInt z) /\ h = Q2Qc (inject_Z z).

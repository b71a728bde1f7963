(** Specification of the complexity measure. *)
From Coq Require Import List Reals.
From Verif Require Import ComplexityModel.
Import ListNotations.
Open Scope R_scope.

(** For each pair of consecutive recordings: the elapsed time, none when time
    goes back, times the binary logarithm of the mean of the two values. *)
Fixpoint complexity (t ss : list R) : R :=
  match t, ss with
  | t0 :: ((t1 :: _) as t'), s0 :: ((s1 :: _) as ss') =>
      Rmax 0 (t1 - t0) * (ln ((s0 + s1) / 2) / ln 2) + complexity t' ss'
  | _, _ => 0
  end.

(** All means of consecutive values are positive. *)
Fixpoint positive_means (ss : list R) : Prop :=
  match ss with
  | s0 :: ((s1 :: _) as ss') => 0 < s0 + s1 /\ positive_means ss'
  | _ => True
  end.

(** The mean of two consecutive values vanishes. *)
Definition zero_mean (ss : list R) (i : nat) : Prop :=
  exists a b, nth_error ss i = Some a /\ nth_error ss (S i) = Some b /\ a + b = 0.
(** Time does not advance between two consecutive recordings. *)
Definition stands (t : list R) (i : nat) : Prop :=
  exists a b, nth_error t i = Some a /\ nth_error t (S i) = Some b /\ b <= a.

(** What is expected of non-negative values: not a number if a mean vanishes where time does not advance, otherwise minus
    infinity if a mean vanishes, otherwise the sum. *)
Definition outcome (t ss : list R) (e : ext) : Prop :=
  match e with
  | ENaN => exists i, zero_mean ss i /\ stands t i
  | ENInf => (exists i, zero_mean ss i) /\ ~ (exists i, zero_mean ss i /\ stands t i)
  | EFin x => ~ (exists i, zero_mean ss i) /\ x = complexity t ss
  | EPInf => False
  end.

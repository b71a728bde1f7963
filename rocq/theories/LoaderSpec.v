(** Windows of a trajectory, without data sets and loaders. *)
From Coq Require Import List ZArith.
Import ListNotations.
Open Scope nat_scope.

(** The window of [n] points from number [s] on. *)
Definition window {X} (y : list X) (n s : nat) : list X := firstn n (skipn s y).

(** Start points and points per time of the windows starting at [starts]: the j-th start point is the first point of
    the j-th window, the j-th entry of the k-th row its k-th point. *)
Definition windows_at {X} (y : list X) (n : nat) (starts : list nat) (y0 : list X) (rows : list (list X)) : Prop :=
  Forall (fun s => s + n <= length y) starts /\
  map Some y0 = map (nth_error y) starts /\
  length rows = n /\
  forall k row, nth_error rows k = Some row -> map Some row = map (fun s => nth_error (window y n s) k) starts.

(** A batch of [m] windows of length [n], with the times of the first [n] points. *)
Definition batch_of_windows {T X} (t : list T) (y : list X) (n m : nat) (b : list X * list T * list (list X)) : Prop :=
  let '(y0, bt, rows) := b in
  bt = firstn n t /\ exists starts, length starts = m /\ windows_at y n starts y0 rows.

(** Model of the data of demos/neurips20/spiral.py (cited as spiral.py): the differential equation [DiffEqRHS], and
    [generate_data] with the integrator which the options ask for.

    Points are pairs of real numbers instead of float32 tensors of size 1 x 2; times are exact rational numbers.  The solvers
    with fixed steps are those of [FixedGridModel]; the others are external. *)
From Coq Require Import List String ZArith QArith Qcanon Qreals Reals Bool.
From Verif Require Import Base ArgparseModel ExperimentModel IntegratorModel SetupModel FixedGridModel SpiralModel.
Import ListNotations.
Open Scope string_scope.
Open Scope list_scope.
Open Scope R_scope.

(** A state, one row of a tensor (spiral.py:246). *)
Definition point : Type := (R * R)%type.

(** A time as a real number (spiral.py:247). *)
Definition to_real (q : Qc) : R := Q2R (this q).

(** Sums and multiples of states (generic_integrator.py:106-114). *)
Definition padd (a b : point) : point := (fst a + fst b, snd a + snd b).
Definition pmul (q : Qc) (a : point) : point := (to_real q * fst a, to_real q * snd a).

(** [torch.mm(y, A)] with the matrix of spiral.py:248 *)
Definition mm (y : point) : point :=
  (fst y * (- (1 / 10)) + snd y * (- 2), fst y * 2 + snd y * (- (1 / 10))).

(** spiral.py:206-222 [DiffEqRHS.forward] *)
Definition diff_eq_rhs (linear : bool) (y : point) : point :=
  if linear then mm y else mm (fst y ^ 3, snd y ^ 3).

(** spiral.py:227: the distance of two points *)
Definition distance (a b : point) : R := sqrt ((fst b - fst a) ^ 2 + (snd b - snd a) ^ 2).

(** spiral.py:227: the distances of consecutive points *)
Fixpoint distances (y : list point) : list R :=
  match y with
  | a :: ((b :: _) as r) => distance a b :: distances r
  | _ => []
  end.

Section Data.
(** Solvers which are not modelled, and the solver of anode, which this script never asks for (generic_integrator.py:106-142) *)
Variable other : bool -> string -> opts -> point -> list Qc -> result (list point).
Variable odesolver : opts -> point -> result point.
(** Division by the minimum, rounding and conversion to integers (spiral.py:233) *)
Variable scale : list R -> list Z.

(** spiral.py:478-486 with 113-124: the integrator of the options *)
Definition data_integrator (ns : pdict argval) : result (heap * IntegratorModel.integrator) :=
  interval <- num_of "checkpointing_time_interval" ns ;;
  number <- int_of "nr_of_checkpoints" ns ;;
  method <- text_of "method" ns ;; step <- num_of "stepsize" ns ;; adjoint <- flag_of "adjoint" ns ;;
  let '(h, i) :=
    setup_integrator method adjoint step (if (0 <? number)%Z then Some number else None)
      (if negb (Qle_bool interval 0) then Some (Q2Qc interval) else None) in
  i <- i ;; Ok (h, i).

(** spiral.py:242-257: times and points.  Without any interval the integrator returns None, on which line 227 raises
    TypeError. *)
Definition generate_points (ns : pdict argval) : result (list Qc * list point) :=
  hi <- data_integrator ns ;;
  data_size <- int_of "data_size" ns ;; linear <- flag_of "linear" ns ;;
  t <- linspace 0%Qc (Q2Qc 10) data_size ;;
  y <- snd (integrate (fixed_odeint padd pmul (fun _ => diff_eq_rhs linear) other) odesolver (fst hi) (snd hi) (2, 0) t) ;;
  match y with Some y => Ok (t, y) | None => Raise TypeError end.

(** spiral.py:242-261 [generate_data] with 225-240 (without the unused matrix and distances) *)
Definition generate_data (ns : pdict argval) : result (list Qc * list point * list nat) :=
  ty <- generate_points ns ;; batch_time <- int_of "batch_time" ns ;;
  indices <- create_uniform_distance_selection_array scale (distances (snd ty)) batch_time ;;
  Ok (ty, indices).
End Data.

(** The whole system which is integrated when the hand-written equations are used
    (neuro_shooting/shooting_integrands.py:624-685, cited as si.py): states and costates of one block of
    particles and the data, with the models of VecModel, integrated by a solver of fixed step size
    (FixedGridModel).

    Simplified: the vector which is integrated is kept as its three dictionaries, in the order in which they are
    assembled (C10); a right-hand side which raises is a vector without entries from then on. *)
From Coq Require Import List String Bool Reals QArith Qcanon Qreals.
From Verif Require Import Base VecModel.
Import ListNotations.
Open Scope string_scope.
Open Scope list_scope.
Open Scope R_scope.

(** States, costates, data. *)
Notation system := (states * states * states)%type.

(** A model with hand-written equations (shooting_models.py: rhs_advect_state,
    optional_rhs_advect_costate_analytic, optional_compute_parameters_analytic). *)
Record equations := mkEquations {
  eq_rhs : states -> pars -> result states;
  eq_costate : states -> states -> pars -> result states;
  eq_parameters : states -> states -> result pars
}.

(** si.py:638-640, 651-655, 676-685: parameters from the particles, then all derivatives with them. *)
Definition system_rhs (m : equations) (y : system) : result system :=
  let '(s, c, z) := y in
  th <- eq_parameters m s c ;;
  ds <- eq_rhs m s th ;; dz <- eq_rhs m z th ;; dc <- eq_costate m s c th ;;
  Ok (ds, dc, dz).

(** Addition of entries of one shape (the assembled vectors, si.py:690-760, have no broadcasting). *)
Definition plus3 (x y : t3) : result t3 :=
  if Nat.eqb (n0 x) (n0 y) && Nat.eqb (n1 x) (n1 y) && Nat.eqb (n2 x) (n2 y)
  then Ok (mkT3 (n0 x) (n1 x) (n2 x) (fun n i k => v3 x n i k + v3 y n i k)) else Raise RuntimeError.

(** Addition of dictionaries in the order of assembly (si.py:690-760). *)
Fixpoint plus_states (s d : states) : result states :=
  match s, d with
  | [], [] => Ok []
  | (k, x) :: s, (_, y) :: d => z <- plus3 x y ;; r <- plus_states s d ;; Ok ((k, z) :: r)
  | _, _ => Raise RuntimeError
  end.

(** Multiplication with a number (generic_integrator.py:106-114). *)
Definition times_states (a : R) (s : states) : states := map (fun kx => (fst kx, map3 (Rmult a) (snd kx))) s.

(** The vectors of the solver (generic_integrator.py:106-114). *)
Definition plus_system (y d : result system) : result system :=
  a <- y ;; b <- d ;;
  let '(s, c, z) := a in let '(ds, dc, dz) := b in
  s <- plus_states s ds ;; c <- plus_states c dc ;; z <- plus_states z dz ;; Ok (s, c, z).

(** Multiplication with a number (generic_integrator.py:106-114). *)
Definition times_system (a : Qc) (y : result system) : result system :=
  '(s, c, z) <- y ;; let a := Q2R (this a) in Ok (times_states a s, times_states a c, times_states a z).

(** The right-hand side for the solver (generic_integrator.py:106-114); it does not depend on the time. *)
Definition system_field (m : equations) (_ : Qc) (y : result system) : result system := y <- y ;; system_rhs m y.

(** The vector models which have hand-written equations, for a number of particles (shooting_models.py:268-278,
    318-407, 495-506, 546-644, 732-742, 782-923, 977-1110, 1168-1254, 1528-1647, 1702-1836, 1915-2066). *)
Section Families.
Variable nl dnl : R -> R.
Variable init : string -> (nat -> nat -> R) * (nat -> R).
Variable d e : nat.
Variable W : option R.
Variable optional_weight : R.

(** In the order of shooting_models.py:200-2066. *)
Definition vector_equations (nr_of_particles : nat) : list equations :=
  [mkEquations (updown_rhs nl) (updown_costate dnl) (updown_parameters nl init d e W);
   mkEquations (universal_rhs nl) (universal_costate dnl) (universal_parameters nl init d e W optional_weight);
   mkEquations (general_rhs nl) (general_costate dnl) (general_parameters nl init d e W);
   mkEquations (debug_rhs nl) (debug_costate nl dnl nr_of_particles) (debug_parameters nl init d W nr_of_particles);
   mkEquations (simple_rhs nl) (simple_costate nl dnl nr_of_particles) (simple_parameters nl init d W nr_of_particles);
   mkEquations (dampened_q2_rhs nl) (updown_costate dnl) (updown_parameters nl init d e W);
   mkEquations (symmetrized_rhs nl) (symmetrized_costate dnl) (symmetrized_parameters nl init d e W);
   mkEquations (periodic_rhs nl) (periodic_costate dnl) (periodic_parameters nl init d e W)].
End Families.

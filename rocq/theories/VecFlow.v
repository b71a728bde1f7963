(** Model of the integration of particles together with a batch of data, for the vector models.

    The integrator (torchdiffeq, external) is an explicit scheme without step size control: a program
    that evaluates the right-hand side at vectors computed before and forms linear combinations with
    fixed coefficients.  Euler, midpoint, rk4 and explicit_adams on a given time grid are such programs,
    with as many steps as wanted.  Not covered: dopri5, adams (step sizes depend on the solution) and
    fixed_adams (iterates until the whole vector converges).

    Simplified: the code joins all entries in one vector (modelled in ScdModel.v and IntegrandModel.v);
    here particles, costates and data stay dictionaries, and a derivative whose shapes differ from the
    shapes of the states raises RuntimeError. *)
From Coq Require Import List String Bool Reals Arith.
From Verif Require Import Base RealSum VecModel.
Import ListNotations.
Open Scope string_scope.
Open Scope list_scope.
Open Scope R_scope.

(** What is integrated: particles, their costates, and data (si.py:229-262). *)
Record system := mkSystem { sys_state : states; sys_costate : states; sys_data : states }.

(** One instruction of an integrator (external: torchdiffeq fixed_grid.py, rk_common.py). *)
Inductive instr : Type :=
  | Rhs (t : R) (j : nat)
  | Combine (first : R * nat) (others : list (R * nat)).

Section Flow.
(** rhs_advect_state of the model *)
Variable rhs : states -> pars -> result states.
(** The parameters at a time, found by differentiation, by hand-written formulas or given from outside
    (si.py:594-613, 637-655, 693-711): a function of the particles. *)
Variable parameters : R -> states -> states -> result pars.
(** The costate equations (si.py:516-527, 539-556, 834-855) *)
Variable costate : R -> states -> states -> pars -> result states.

(** Equality of sizes. *)
Definition shapes_agree (x y : t3) : bool := Nat.eqb (n0 x) (n0 y) && Nat.eqb (n1 x) (n1 y) && Nat.eqb (n2 x) (n2 y).

(** si.py:505-514, 781-816: the derivatives are put in the place of the states they belong to. *)
Fixpoint in_place_of (s r : states) : result states :=
  match s, r with
  | [], [] => Ok []
  | (q, x) :: s, (_, y) :: r =>
      if shapes_agree x y then l <- in_place_of s r ;; Ok ((q, y) :: l) else Raise RuntimeError
  | _, _ => Raise RuntimeError
  end.

(** si.py:624-739, 781-816 *)
Definition field (t : R) (y : system) : result system :=
  th <- parameters t (sys_state y) (sys_costate y) ;;
  ds <- rhs (sys_state y) th ;;
  dx <- rhs (sys_data y) th ;;
  dp <- costate t (sys_state y) (sys_costate y) th ;;
  ds <- in_place_of (sys_state y) ds ;;
  dp <- in_place_of (sys_costate y) dp ;;
  dx <- in_place_of (sys_data y) dx ;;
  Ok (mkSystem ds dp dx).

(** [a * x + y] of vectors (external) *)
Fixpoint axpy (a : R) (x y : states) : result states :=
  match x, y with
  | [], [] => Ok []
  | (_, u) :: x, (q, v) :: y =>
      if shapes_agree u v
      then l <- axpy a x y ;; Ok ((q, mkT3 (n0 v) (n1 v) (n2 v) (fun n i k => a * v3 u n i k + v3 v n i k)) :: l)
      else Raise RuntimeError
  | _, _ => Raise RuntimeError
  end.
(** [a * x] of vectors (external) *)
Definition scale (a : R) (x : states) : states := map (fun qu => (fst qu, map3 (Rmult a) (snd qu))) x.

(** [a * x + y] of the joint vector. *)
Definition sys_axpy (a : R) (x y : system) : result system :=
  s <- axpy a (sys_state x) (sys_state y) ;; c <- axpy a (sys_costate x) (sys_costate y) ;;
  d <- axpy a (sys_data x) (sys_data y) ;; Ok (mkSystem s c d).
(** [a * x] of the joint vector. *)
Definition sys_scale (a : R) (x : system) : system :=
  mkSystem (scale a (sys_state x)) (scale a (sys_costate x)) (scale a (sys_data x)).

(** A vector computed before. *)
Definition fetch (env : list system) (j : nat) : result system :=
  match nth_error env j with Some x => Ok x | None => Raise IndexError end.

(** One instruction. *)
Definition step (env : list system) (i : instr) : result (list system) :=
  match i with
  | Rhs t j => y <- fetch env j ;; f <- field t y ;; Ok (env ++ [f])
  | Combine (a, j) others =>
      x <- fetch env j ;;
      z <- foldM (fun acc bk => y <- fetch env (snd bk) ;; sys_axpy (fst bk) y acc) others (sys_scale a x) ;;
      Ok (env ++ [z])
  end.

(** All vectors computed, the initial one first. *)
Definition run (prog : list instr) (start : system) : result (list system) := foldM step prog [start].
End Flow.

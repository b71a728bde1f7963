(** The solvers with fixed steps which the package calls by default (shooting_blocks.py:92, generic_integrator.py:
    106-114, res_net.py:60-61): [odeint] of torchdiffeq with the methods euler, midpoint and rk4.  All of it is
    external (torchdiffeq 0.0.1: odeint.py, misc.py, solvers.py, fixed_grid.py, rk_common.py) and given
    here as it was at the time of the package; the lines cited are those of generic_integrator.py (gi.py)
    which rely on it.

    Times are exact rational numbers.  The vector which is integrated is an arbitrary type with addition and
    multiplication by numbers.  Not modelled: several vectors at once, type checks, explicit_adams,
    fixed_adams and the solvers with step size control. *)
From Coq Require Import List String ZArith QArith Qcanon Qround Bool.
From Verif Require Import Base IntegratorModel.
Import ListNotations.
Open Scope string_scope.
Open Scope list_scope.
Open Scope nat_scope.

(** [a <= b], [a < b] on times (solvers.py; gi.py:106-114) *)
Definition qle (a b : Qc) : bool := match Qccompare a b with Gt => false | _ => true end.
Definition qlt (a b : Qc) : bool := match Qccompare a b with Lt => true | _ => false end.

(** [(t[1:] > t[:-1]).all()] (misc.py; gi.py:106-114) *)
Fixpoint increasing (t : list Qc) : bool :=
  match t with
  | a :: ((b :: _) as r) => qlt a b && increasing r
  | _ => true
  end.

(** The grid for a step size (solvers.py [_grid_constructor_from_step_size]; gi.py:93-95, 106-114): a division
    by zero gives inf or nan, which [torch.arange] refuses. *)
Definition step_grid (h t0 tl : Qc) : result (list Qc) :=
  if Qc_eq_bool h 0 then Raise RuntimeError
  else
    let niters := Qceiling ((tl - t0) / h + 1)%Qc in
    if Z.ltb niters 0 then Raise RuntimeError
    else
      let g := map (fun i => (Q2Qc (inject_Z (Z.of_nat i)) * h + t0)%Qc) (seq 0 (Z.to_nat niters)) in
      l <- last_item g ;;
      if qlt tl l then set_last tl g else Ok g.

Section Solver.
Context {X : Type}.
Variable add : X -> X -> X.
Variable mul : Qc -> X -> X.

Section Steps.
(** The right-hand side (gi.py:103-104). *)
Variable f : Qc -> X -> X.

(** fixed_grid.py [Euler.step_func] (gi.py:106-114) *)
Definition euler_step (t dt : Qc) (y : X) : X := mul dt (f t y).

(** fixed_grid.py [Midpoint.step_func] (gi.py:106-114) *)
Definition midpoint_step (t dt : Qc) (y : X) : X :=
  let y_mid := add y (mul (dt / Q2Qc 2)%Qc (f t y)) in
  mul dt (f (t + dt / Q2Qc 2)%Qc y_mid).

(** rk_common.py [rk4_alt_step_func] (gi.py:106-114) *)
Definition rk4_step (t dt : Qc) (y : X) : X :=
  let third := (1 / Q2Qc 3)%Qc in
  let k1 := f t y in
  let k2 := f (t + dt * third)%Qc (add y (mul (dt * third)%Qc k1)) in
  let k3 := f (t + dt * (Q2Qc 2 * third))%Qc (add y (mul dt (add (mul (- third)%Qc k1) k2))) in
  let k4 := f (t + dt)%Qc (add y (mul dt (add (add k1 (mul (Q2Qc (-1)) k2)) k3))) in
  mul (dt / Q2Qc 8)%Qc (add (add (add k1 (mul (Q2Qc 3) k2)) (mul (Q2Qc 3) k3)) k4).
End Steps.

(** solvers.py [_linear_interp] (gi.py:106-114) *)
Definition linear_interp (t0 t1 : Qc) (y0 y1 : X) (t : Qc) : X :=
  if Qc_eq_bool t t0 then y0
  else if Qc_eq_bool t t1 then y1
  else add y0 (mul (t - t0)%Qc (mul (/ (t1 - t0))%Qc (add y1 (mul (Q2Qc (-1)) y0)))).

Section March.
(** The increment of one step: time, length, vector. *)
Variable step : Qc -> Qc -> X -> X.

(** The inner while loop (solvers.py; gi.py:106-114): values at the requested times up to [t1], and the
    times still to come. *)
Fixpoint emit (t0 t1 : Qc) (y0 y1 : X) (ts : list Qc) : list X * list Qc :=
  match ts with
  | [] => ([], [])
  | s :: r =>
      if qle s t1 then let '(o, r') := emit t0 t1 y0 y1 r in (linear_interp t0 t1 y0 y1 s :: o, r')
      else ([], s :: r)
  end.

(** The loop over the grid (solvers.py; gi.py:106-114). *)
Fixpoint march (t0 : Qc) (g : list Qc) (y0 : X) (ts : list Qc) : list X :=
  match g with
  | [] => []
  | t1 :: g =>
      let y1 := add y0 (step t0 (t1 - t0)%Qc y0) in
      let '(o, ts') := emit t0 t1 y0 y1 ts in
      o ++ march t1 g y1 ts'
  end.

(** [FixedGridODESolver.integrate] (solvers.py; gi.py:106-114); without a step size the grid is the list of
    times. *)
Definition fixed_grid (h : option Qc) (y0 : X) (t : list Qc) : result (list X) :=
  if negb (increasing t) then Raise AssertionError
  else
    match t with
    | [] => Raise IndexError
    | t0 :: ts =>
        tl <- last_item t ;;
        g <- match h with Some h => step_grid h t0 tl | None => Ok t end ;;
        gl <- last_item g ;;
        match g with
        | [] => Raise IndexError
        | g0 :: gs =>
            if Qc_eq_bool g0 t0 && Qc_eq_bool gl tl then Ok (y0 :: march g0 gs y0 ts) else Raise AssertionError
        end
    end.
End March.

(** The increment of a method by its name, for a right-hand side (odeint.py; gi.py:69, 106-114). *)
Definition method (f : Qc -> X -> X) (name : string) : option (Qc -> Qc -> X -> X) :=
  if String.eqb name "euler" then Some (euler_step f)
  else if String.eqb name "midpoint" then Some (midpoint_step f)
  else if String.eqb name "rk4" then Some (rk4_step f)
  else None.

(** The option [step_size] (gi.py:93-95, 110-112). *)
Definition option_step_size (o : opts) : option Qc :=
  match sd_get "step_size" o with
  | Some (ONum q) => Some q
  | Some (OInt z) => Some (Q2Qc (inject_Z z))
  | _ => None
  end.

(** [odeint(func, x0, t, method=..., options=...)] (odeint.py, misc.py [_check_inputs]; gi.py:106-114):
    decreasing times are turned around together with the right-hand side.  [other]: the solvers not
    modelled. *)
Definition fixed_odeint (f : Qc -> X -> X) (other : bool -> string -> opts -> X -> list Qc -> result (list X))
    (adjoint : bool) (name : string) (o : opts) (y0 : X) (t : list Qc) : result (list X) :=
  let turn := increasing (map Qcopp t) in
  let f' := if turn then (fun s y => mul (Q2Qc (-1)) (f (- s)%Qc y)) else f in
  match method f' name with
  | None => other adjoint name o y0 t
  | Some step => fixed_grid step (option_step_size o) y0 (if turn then map Qcopp t else t)
  end.
End Solver.

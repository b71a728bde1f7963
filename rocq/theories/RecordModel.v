(** The solvers with fixed steps when the right-hand side has effects: every evaluation calls the hooks of the
    integrand (shooting_integrands.py:758-762), which record into custom_hook_data or raise.  Otherwise as in
    [FixedGridModel]; citations as there (gi.py: generic_integrator.py; the solver itself is external).  Only
    increasing times. *)
From Coq Require Import List String ZArith QArith Qcanon Qreals Reals Bool.
From Verif Require Import Base Tensor IntegratorModel FixedGridModel HooksModel ComplexityModel.
Import ListNotations.
Open Scope string_scope.
Open Scope list_scope.
Open Scope nat_scope.

Section Effects.
Context {X H : Type}.
Variable add : X -> X -> X.
Variable mul : Qc -> X -> X.

(** A computation which can raise and changes the recorded data (gi.py:103-104). *)
Definition eff (A : Type) : Type := H -> result A * H.
(** Python's sequencing. *)
Definition then_ {A B} (m : eff A) (k : A -> eff B) : eff B := fun h =>
  match m h with
  | (Ok a, h) => k a h
  | (Raise e, h) => (Raise e, h)
  end.
(** A value without effect. *)
Definition give {A} (a : A) : eff A := fun h => (Ok a, h).

Section Steps.
(** The right-hand side (gi.py:103-104). *)
Variable f : Qc -> X -> eff X.

(** fixed_grid.py [Euler.step_func] (gi.py:106-114) *)
Definition euler_eff (t dt : Qc) (y : X) : eff X := then_ (f t y) (fun k => give (mul dt k)).

(** fixed_grid.py [Midpoint.step_func] (gi.py:106-114) *)
Definition midpoint_eff (t dt : Qc) (y : X) : eff X :=
  then_ (f t y) (fun k =>
  let y_mid := add y (mul (dt / Q2Qc 2)%Qc k) in
  then_ (f (t + dt / Q2Qc 2)%Qc y_mid) (fun k => give (mul dt k))).

(** rk_common.py [rk4_alt_step_func] (gi.py:106-114) *)
Definition rk4_eff (t dt : Qc) (y : X) : eff X :=
  let third := (1 / Q2Qc 3)%Qc in
  then_ (f t y) (fun k1 =>
  then_ (f (t + dt * third)%Qc (add y (mul (dt * third)%Qc k1))) (fun k2 =>
  then_ (f (t + dt * (Q2Qc 2 * third))%Qc (add y (mul dt (add (mul (- third)%Qc k1) k2)))) (fun k3 =>
  then_ (f (t + dt)%Qc (add y (mul dt (add (add k1 (mul (Q2Qc (-1)) k2)) k3)))) (fun k4 =>
  give (mul (dt / Q2Qc 8)%Qc (add (add (add k1 (mul (Q2Qc 3) k2)) (mul (Q2Qc 3) k3)) k4)))))).

(** The method by its name (odeint.py; gi.py:69, 106-114). *)
Definition method_eff (name : string) : option (Qc -> Qc -> X -> eff X) :=
  if String.eqb name "euler" then Some euler_eff
  else if String.eqb name "midpoint" then Some midpoint_eff
  else if String.eqb name "rk4" then Some rk4_eff
  else None.
End Steps.

Section March.
(** The increment of one step. *)
Variable step : Qc -> Qc -> X -> eff X.

(** The loop over the grid (solvers.py; gi.py:106-114). *)
Fixpoint march_eff (t0 : Qc) (g : list Qc) (y0 : X) (ts : list Qc) : eff (list X) :=
  match g with
  | [] => give []
  | t1 :: g =>
      then_ (step t0 (t1 - t0)%Qc y0) (fun dy =>
      let y1 := add y0 dy in
      let '(o, ts') := emit add mul t0 t1 y0 y1 ts in
      then_ (march_eff t1 g y1 ts') (fun r => give (o ++ r)))
  end.

(** [FixedGridODESolver.integrate] (solvers.py; gi.py:106-114). *)
Definition fixed_grid_eff (h : option Qc) (y0 : X) (t : list Qc) : eff (list X) := fun rec =>
  if negb (increasing t) then (Raise AssertionError, rec)
  else
    match t with
    | [] => (Raise IndexError, rec)
    | t0 :: ts =>
        match (tl <- last_item t ;;
               g <- match h with Some h => step_grid h t0 tl | None => Ok t end ;;
               gl <- last_item g ;; Ok (tl, g, gl)) with
        | Raise e => (Raise e, rec)
        | Ok (tl, [], gl) => (Raise IndexError, rec)
        | Ok (tl, g0 :: gs, gl) =>
            if Qc_eq_bool g0 t0 && Qc_eq_bool gl tl
            then then_ (march_eff g0 gs y0 ts) (fun r => give (y0 :: r)) rec
            else (Raise AssertionError, rec)
        end
    end.
End March.

(** One evaluation after the other, all recorded in the same data (spiral.py:418-427, 686-697: the loop over the
    chunks; the initial values of later chunks are given). *)
Fixpoint evaluations (solve : X -> list Qc -> eff (list X)) (runs : list (X * list Qc)) : eff (list (list X)) :=
  match runs with
  | [] => give []
  | (x, t) :: runs => then_ (solve x t) (fun v => then_ (evaluations solve runs) (fun vs => give (v :: vs)))
  end.
End Effects.

(** The integrand with the recording hook (shooting_integrands.py:740-764, shooting_hooks.py:51-92): the hook is
    called with the arguments belonging to time and state, after the derivative has been computed. *)
Definition hooked {X} (nuc spec : tensor R -> R) (f : Qc -> X -> X) (args : Qc -> X -> hook_args)
    (t : Qc) (y : X) : eff (H := hook_data) X := fun data =>
  match parameter_evolution_hook nuc spec (args t y) data with
  | (Ok _, data) => (Ok (f t y), data)
  | (Raise e, data) => (Raise e, data)
  end.

(** The numbers of a list of recorded values (vm.py:8, [np.array]); arrays are not converted. *)
Definition number (v : val) : list R := match v with VNum x => [x] | VTen _ => [] end.
(** The argument of [compute_complexity_measures] (vm.py:4-8; spiral.py:700). *)
Definition numeric (d : pdict (list val)) : sdict (list R) := map (fun kv => (fst kv, flat_map number (snd kv))) d.

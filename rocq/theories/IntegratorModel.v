(** Model of neuro_shooting/generic_integrator.py ("gi.py" below).

    Times are rational numbers with exact arithmetic (canonical rationals [Qc]):
    every finite float is one, but rounding and NaN are not modelled.  The ODE
    solvers (torchdiffeq's odeint/odeint_adjoint, the bundled anode odesolver) are
    section variables: arbitrary functions that may raise.  The right-hand side
    function is part of the solver variable.  torch.utils.checkpoint only changes
    how gradients are computed; its forward value is that of the wrapped call. *)
From Coq Require Import List String ZArith QArith Qcanon Qround Bool.
From Verif Require Import Base.
Import ListNotations.
Open Scope string_scope.
Open Scope list_scope.
Open Scope nat_scope.

(** * Option dictionaries live in a heap, since constructors may alias them *)

(** Values of an option dictionary. *)
Inductive optval : Type :=
| ONum (q : Qc)
| OInt (z : Z)
| OStr (s : string).

Notation opts := (pdict optval).
(** The heap of dictionaries; an address is a position. *)
Notation heap := (list (list (string * optval))).

(** The dictionary a reference points to (Python object model; gi.py:81-99). *)
Definition heap_get (h : heap) (a : nat) : opts := nth a h [].

(** Changing the dictionary a reference points to (gi.py:93-95). *)
Fixpoint heap_set (h : heap) (a : nat) (d : opts) : heap :=
  match h, a with
  | [], _ => []
  | _ :: r, O => d :: r
  | x :: r, S a' => x :: heap_set r a' d
  end.

(** gi.py:38-101: the fields of a GenericIntegrator. *)
Record integrator : Type := mkIntegrator {
  i_library : string;
  i_name : string;
  i_adjoint : bool;
  i_options : nat;                        (* address of integrator_options *)
  i_step_size : option Qc;
  i_nr_of_checkpoints : option Z;
  i_checkpointing_time_interval : option Qc }.

(** gi.py:58. *)
Definition available_libraries : list string := ["odeint"; "anode"].

(** gi.py:68-70. *)
Definition available_integrators (lib : string) : list string :=
  if String.eqb lib "odeint" then
    ["dopri5"; "adams"; "euler"; "midpoint"; "rk4"; "explicit_adams"; "fixed_adams"]
  else ["rk2"; "rk4"].

(** Python's [in] on a list of strings (gi.py:65, 77). *)
Definition str_in (s : string) (l : list string) : bool := existsb (String.eqb s) l.

(** gi.py:39-101 [GenericIntegrator.__init__].  [integrator_options] is the
    address of the caller's dictionary; when it is None a fresh dictionary is
    allocated (gi.py:82-83).  rtol, atol and kwargs are only stored and passed
    on; they are not modelled. *)
Definition new_integrator (h : heap) (integrator_library integrator_name : option string)
    (use_adjoint_integration : bool) (integrator_options : option nat) (step_size : option Qc)
    (nr_of_checkpoints : option Z) (checkpointing_time_interval : option Qc)
  : heap * result integrator :=
  let lib := match integrator_library with None => "odeint" | Some l => l end in
  if negb (str_in lib available_libraries) then (h, Raise ValueError)
  else
    let name := match integrator_name with
                | None => hd "" (available_integrators lib)
                | Some n => n
                end in
    if negb (str_in name (available_integrators lib)) then (h, Raise ValueError)
    else
      let '(h, addr) := match integrator_options with
                        | Some a => (h, a)
                        | None => (h ++ [[]], List.length h)
                        end in
      let h := match step_size with
               | Some s =>
                   if String.eqb lib "odeint" then
                     if negb (str_in name ["dopri5"; "adams"]) then
                       if negb (sd_mem "step_size" (heap_get h addr)) then
                         heap_set h addr (pd_set "step_size" (ONum s) (heap_get h addr))
                       else h
                     else h
                   else h
               | None => h
               end in
      (h, Ok (mkIntegrator lib name use_adjoint_integration addr step_size
                nr_of_checkpoints checkpointing_time_interval)).

(** * Checkpoint times *)

(** [torch.linspace(a, b, steps)] over exact numbers. *)
Definition linspace (a b : Qc) (steps : Z) : result (list Qc) :=
  if Z.ltb steps 0 then Raise RuntimeError
  else if Z.eqb steps 1 then Ok [a]
  else Ok (map (fun i => (a + Q2Qc (inject_Z (Z.of_nat i)) * ((b - a) / Q2Qc (inject_Z (steps - 1))))%Qc)
             (seq 0 (Z.to_nat steps))).

(** [torch.arange(a, b, step)] over exact numbers: ceil((b-a)/step) points. *)
Definition arange (a b step : Qc) : result (list Qc) :=
  if Qc_eq_bool step 0 then Raise RuntimeError
  else if (match (step ?= 0)%Qc, (b ?= a)%Qc with
           | Gt, Lt | Lt, Gt => true
           | _, _ => false
           end) then Raise RuntimeError
  else Ok (map (fun i => (a + Q2Qc (inject_Z (Z.of_nat i)) * step)%Qc)
             (seq 0 (Z.to_nat (Qceiling ((b - a) / step)%Qc)))).

(** [l[-1]] *)
Definition last_item {A} (l : list A) : result A :=
  match rev l with [] => Raise IndexError | x :: _ => Ok x end.

(** [l[-1] = v] *)
Definition set_last {A} (v : A) (l : list A) : result (list A) :=
  match l with [] => Raise IndexError | _ => Ok (removelast l ++ [v]) end.

(** gi.py:150-167: the checkpoint times for a time vector going from [t_from] to
    [t_to]. *)
Definition checkpoint_times (nr : option Z) (interval : option Qc) (t_from t_to : Qc)
  : result (list Qc) :=
  match nr, interval with
  | Some _, Some _ => Raise ValueError
  | Some n, None =>
      cp <- linspace t_from t_to (n + 2) ;;
      set_last t_to cp
  | None, Some dt =>
      cp <- arange t_from t_to dt ;;
      l <- last_item cp ;;
      set_last t_to (if Qc_eq_bool l t_to then cp else cp ++ [t_to])
  | None, None => Raise ValueError
  end.

(** * Intervals *)

Section Intervals.
Context {T : Type}.
Variable cmp : T -> T -> comparison.

(** gi.py:190-222: the while loop.  The arguments are the remaining requested
    times [t[idx_t:]], the remaining checkpoints, the current interval with its
    output flags, and the finished ones.  The loop stops when either list is
    used up (gi.py:221). *)
Fixpoint interval_loop (ts : list T) : list T -> list T -> list bool ->
    list (list T) -> list (list bool) -> list (list T) * list (list bool) :=
  fix inner (cps : list T) (cur_t : list T) (cur_o : list bool)
      (ints : list (list T)) (outs : list (list bool)) {struct cps} :=
    match ts, cps with
    | next_t :: ts', next_cp :: cps' =>
        match cmp next_cp next_t with
        | Gt => interval_loop ts' cps (cur_t ++ [next_t]) (cur_o ++ [true]) ints outs
        | Lt => inner cps' [next_cp] [false]
                  (ints ++ [cur_t ++ [next_cp]]) (outs ++ [cur_o ++ [false]])
        | Eq => interval_loop ts' cps' [next_cp] [false]
                  (ints ++ [cur_t ++ [next_cp]]) (outs ++ [cur_o ++ [true]])
        end
    | _, _ => (ints, outs)
    end.

(** gi.py:169-224: interval creation for given checkpoint times.  The first
    iteration reads t[1] and checkpointing_time_points[1] (gi.py:192-193), an
    IndexError if there is only one checkpoint time. *)
Definition intervals_for (t cp : list T) : result (list (list T) * list (list bool)) :=
  match t, cp with
  | t0 :: ts, cp0 :: cps =>
      match cmp t0 cp0 with
      | Eq =>
          match ts, cps with
          | [], _ | _, [] => Raise IndexError
          | _, _ => Ok (interval_loop ts cps [t0] [true] [] [])
          end
      | _ => Raise ValueError
      end
  | _, _ => Raise IndexError
  end.
End Intervals.

(** gi.py:145-224 [create_integration_time_intervals]. *)
Definition create_integration_time_intervals (nr : option Z) (interval : option Qc) (t : list Qc)
  : result (list (list Qc) * list (list bool)) :=
  match t with
  | [] | [_] => Raise ValueError
  | t0 :: _ =>
      t_to <- last_item t ;;
      cp <- checkpoint_times nr interval t0 t_to ;;
      intervals_for Qccompare t cp
  end.

(** * Integration *)

(** [res[mask, ...]] with a boolean mask: IndexError if the lengths differ. *)
Fixpoint mask_select {X} (res : list X) (mask : list bool) : result (list X) :=
  match res, mask with
  | [], [] => Ok []
  | x :: res', m :: mask' =>
      r <- mask_select res' mask' ;;
      Ok (if m : bool then x :: r else r)
  | _, _ => Raise IndexError
  end.

Section Integrate.
Context {X : Type}.
(** odeint / odeintadjoint of torchdiffeq (gi.py:106-114), including the
    right-hand side: adjoint flag, method, options, initial value, times. *)
Variable odeint : bool -> string -> opts -> X -> list Qc -> result (list X).
(** anode's odesolver (gi.py:138): options and initial value, one result. *)
Variable odesolver : opts -> X -> result X.

(** gi.py:116-142 [_integrate_anode]; [t] is always given here (gi.py:255).  The
    option dictionary, possibly the caller's, is updated in place.  [upper]
    (gi.py:136) is applied to "rk2" and "rk4" only. *)
Definition integrate_anode (h : heap) (i : integrator) (x0 : X) (t : list Qc)
  : heap * result (list X) :=
  let guard := match t with
               | [t0] => if Qc_eq_bool t0 1 then Ok tt else Raise ValueError
               | [] => Raise IndexError
               | [t0; t1] => if Qc_eq_bool (t1 - t0)%Qc 1 then Ok tt else Raise ValueError
               | _ => Raise ValueError
               end in
  match guard with
  | Raise e => (h, Raise e)
  | Ok _ =>
      let a := i_options i in
      let d := pd_set "Nt" (OInt 10) (heap_get h a) in
      let d := pd_set "method"
                 (OStr (if String.eqb (i_name i) "rk2" then "RK2" else "RK4")) d in
      (heap_set h a d, res <- odesolver d x0 ;; Ok [res])
  end.

(** gi.py:251-255 [_integrate_direct], with gi.py:106-114 [_integrate_odeint].
    (The constructor only admits the two libraries.) *)
Definition integrate_direct (h : heap) (i : integrator) (x0 : X) (t : list Qc)
  : heap * result (list X) :=
  if String.eqb (i_library i) "odeint" then
    (h, odeint (i_adjoint i) (i_name i) (heap_get h (i_options i)) x0 t)
  else integrate_anode h i x0 t.

(** gi.py:239-247: one iteration of the chunk loop. *)
Definition checkpoint_step (i : integrator) (acc : heap * (option (list X) * X))
    (chunk : list Qc * list bool) : heap * result (option (list X) * X) :=
  let '(h, (overall, x)) := acc in
  let '(h, r) := integrate_direct h i x (fst chunk) in
  (h, current_res <- r ;;
      x' <- last_item current_res ;;
      sel <- mask_select current_res (snd chunk) ;;
      Ok (match overall with None => Some sel | Some o => Some (o ++ sel) end, x')).

(** gi.py:239-249: the loop over zip(integration_times, output_time_points). *)
Fixpoint checkpoint_loop (h : heap) (i : integrator) (overall : option (list X)) (x : X)
    (chunks : list (list Qc * list bool)) : heap * result (option (list X)) :=
  match chunks with
  | [] => (h, Ok overall)
  | c :: r =>
      match checkpoint_step i (h, (overall, x)) c with
      | (h', Ok (o', x')) => checkpoint_loop h' i o' x' r
      | (h', Raise e) => (h', Raise e)
      end
  end.

(** gi.py:227-249 [_integrate_checkpointed]: returns None if there is no
    interval. *)
Definition integrate_checkpointed (h : heap) (i : integrator) (x0 : X) (t : list Qc)
  : heap * result (option (list X)) :=
  match create_integration_time_intervals (i_nr_of_checkpoints i)
          (i_checkpointing_time_interval i) t with
  | Raise e => (h, Raise e)
  | Ok (ints, outs) => checkpoint_loop h i None x0 (combine ints outs)
  end.

(** gi.py:257-263 [integrate]. *)
Definition integrate (h : heap) (i : integrator) (x0 : X) (t : list Qc)
  : heap * result (option (list X)) :=
  match i_nr_of_checkpoints i, i_checkpointing_time_interval i with
  | None, None =>
      let '(h', r) := integrate_direct h i x0 t in
      (h', res <- r ;; Ok (Some res))
  | _, _ => integrate_checkpointed h i x0 t
  end.
End Integrate.

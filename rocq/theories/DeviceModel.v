(** Where the tensors of a shooting block are: model of the moves between
    devices, neuro_shooting/shooting_blocks.py ("sb.py"), neuro_shooting/utils.py
    ("utils.py"), neuro_shooting/shooting_integrands.py ("si.py") and
    neuro_shooting/shooting_models.py ("sm.py"), on top of BlockModel.

    Only tensors with at least one dimension count: torch combines numbers
    (tensors without dimension, such as the times) across devices.  Values do
    not change when a tensor is moved. *)
From Coq Require Import List String Ascii Arith ZArith QArith Qcanon Bool.
From Verif Require Import Base Tensor ScdModel BlockModel.
Import ListNotations.
Open Scope string_scope.
Open Scope list_scope.
Open Scope nat_scope.

(** torch.device (external; utils.py:24,30). *)
Inductive device := Cpu | Cuda (n : nat).

(** Comparing devices (external; torch refuses to combine tensors of different devices). *)
Definition device_eqb (a b : device) : bool :=
  match a, b with
  | Cpu, Cpu => true
  | Cuda n, Cuda m => n =? m
  | _, _ => false
  end.

(** utils.py:20-35 [setup_device] on a machine with [gpus] GPUs: the device on
    which torch creates tensors from now on, and the device returned.  A GPU
    number which does not exist is refused by torch (RuntimeError). *)
Definition setup_device (gpus : nat) (desired : option Z) : result (device * device) :=
  match desired with
  | Some g =>
      if 0 <? gpus then
        if (g <? 0)%Z then Raise RuntimeError
        else if gpus <=? Z.to_nat g then Raise RuntimeError
        else Ok (Cuda (Z.to_nat g), Cuda (Z.to_nat g))
      else Ok (Cpu, Cpu)
  | None => Ok (Cpu, Cpu)
  end.

(** What the right-hand side is computed with, apart from the state vector. *)
Inductive evaluation :=
| FromStates                       (* the analytic parameters, products of particles, e.g. sm.py:376-405 *)
| WithNew                          (* tensors created in the evaluation: the layers differentiated in
                                      si.py:873-898,921-945, the zero matrix of sm.py:1079,1244 *)
| FromFree (objects : list pobj).  (* the particle-free parameters, sb.py:226-235, si.py:640-646 *)

Section Device.
Context {A : Type}.
Variable zero : A.
Variable ig : @integrand A.
Variable has_attr : string -> bool.
Variable rnd : nat -> nat -> A.
Variable solve : @block A -> list A -> list Qc -> result (tensor A).
(** The device on which torch creates tensors. *)
Variable default : device.
Variable ev : evaluation.
Notation block := (@block A).
Notation tdict := (sdict (tensor A)).
Notation tdicts := (sdict (sdict (tensor A))).
Notation "x <-- m ;;; k" := (mbind m (fun x => k))
  (at level 61, m at next level, right associativity).
Notation "' p <-- m ;;; k" := (mbind m (fun x => match x with p => k end))
  (at level 61, p pattern, m at next level, right associativity).

(** A block with the devices of its parameter objects (sb.py:91-247). *)
Record placed := mkPlaced {
  pl_block : block;
  pl_where : pobj -> device }.

(** sb.py:91-247: the parameters of a new block are created on the default
    device (parameter_initialization.py:25-182, as are later ones). *)
Definition place (b : block) : placed := mkPlaced b (fun _ => default).

(** Equality of parameter objects (external: identity of Python objects). *)
Definition pobj_eqb (a b : pobj) : bool :=
  match a, b with
  | OState k, OState l | OCostate k, OCostate l | OIntegrand k, OIntegrand l => String.eqb k l
  | OEnlarge i, OEnlarge j => i =? j
  | OFree i l k, OFree i' l' k' => (i =? i') && String.eqb l l' && String.eqb k k'
  | _, _ => false
  end.

(** sb.py:271-281: [to] and [_apply] reach the registered parameters and those of
    the integrand. *)
Definition reached (b : block) (o : pobj) : bool :=
  match o with
  | OIntegrand _ => true
  | _ => existsb (fun kv => pobj_eqb (snd kv) o) (b_registry b)
  end.

(** sb.py:271-281 [to]; without an integration time the AttributeError comes
    after the parameters have been moved (sb.py:272-274, 278). *)
Definition move (d : device) (p : placed) : placed * result unit :=
  (mkPlaced (pl_block p) (fun o => if reached (pl_block p) o then d else pl_where p o),
   snd (to_device (pl_block p))).

Section Call.
Variable wh : pobj -> device.
(** The device of everything passed to [forward]. *)
Variable dev : device.

(** An operation on the given parameters and the data: torch refuses tensors of
    different devices (e.g. sb.py:420-422). *)
Definition require (os : list pobj) : @M A unit :=
  fun b => (b, if forallb (fun o => device_eqb (wh o) dev) os then Ok tt else Raise RuntimeError).

(** sb.py:438-450: the enlargement parameters used for given dictionaries. *)
Definition entries_used (d : tdicts) (e : option (sdict (sdict (option (nat * list nat)))))
  : list pobj :=
  match e with
  | None => []
  | Some e =>
      flat_map (fun be =>
        flat_map (fun ke : (string * tensor A) * (string * option (nat * list nat)) =>
                    match snd (snd ke) with Some (p, _) => [OEnlarge p] | None => [] end)
                 (combine (snd (fst be)) (snd (snd be))))
        (combine d e)
  end.

(** sb.py:644-666, with the device of the enlargement parameters checked where they are concatenated. *)
Definition placed_pass_through (st co : option tdicts) : @M A (option tdicts * option tdicts) :=
  match st, co with
  | Some s, Some c =>
      fun b =>
        if b_enlarge b then
          ('(es, ec) <-- get_or_create_enlargement zero ig has_attr rnd s c ;;;
           _ <-- modify (set_enl es ec) ;;;
           _ <-- require (entries_used s es ++ entries_used c ec) ;;;
           '(s', c') <-- enlarge_pass_through s c ;;;
           ret (Some s', Some c')) b
        else (b, Ok (Some s, Some c))
  | _, _ => ret (None, None)
  end.

(** The parameters of the integrand, used for the initial conditions of the data (e.g. sm.py:280-311). *)
Definition integrand_objects (b : block) : list pobj :=
  filter (fun o => match o with OIntegrand _ => true | _ => false end) (map snd (b_registry b)).

(** The particles of a block, concatenated with the data in sb.py:493-495. *)
Definition particle_objects (b : block) : list pobj :=
  match b_state b with None => [] | Some d => map (fun kv => OState (fst kv)) d end
  ++ match b_costate b with None => [] | Some d => map (fun kv => OCostate (fst kv)) d end.

(** si.py:741-764: an evaluation of the right-hand side, as far as devices are concerned. *)
Definition require_evaluation : @M A unit :=
  match ev with
  | FromStates => ret tt
  | WithNew => fun b => (b, if device_eqb default dev then Ok tt else Raise RuntimeError)
  | FromFree os => require os
  end.

(** sb.py:694-699: a solver evaluates the right-hand side unless there is a single time only. *)
Definition evaluates (b : block) : bool :=
  match b_time_vec b with
  | Some ts => 2 <=? List.length ts
  | None => true
  end.

(** sb.py:631-737 [forward] as in BlockModel, with everything passed to it on
    [dev] and the devices checked.  The vector of initial conditions is formed in
    one go, so the devices of particles and data are checked after it. *)
Definition placed_forward (x : option (tensor A)) (st co data : option tdicts)
  : @M A (@outputs A) :=
  match x, st, co with
  | None, None, None => raise ValueError
  | _, None, Some _ | _, Some _, None => raise ValueError
  | _, _, _ =>
      '(st', co') <-- placed_pass_through st co ;;;
      _ <-- (match x, data with
             | Some _, None => fun b => require (integrand_objects b) b
             | _, _ => ret tt
             end) ;;;
      '(d, zero_pad) <-- effective_data ig x data ;;;
      '(x0, ps) <-- initial_conditions zero ig d st' co' zero_pad ;;;
      _ <-- (fun b => require (particle_objects b) b) ;;;
      _ <-- modify (set_plans (Some ps)) ;;;
      _ <-- (fun b => if evaluates b then require_evaluation b else (b, Ok tt)) ;;;
      r <-- integrate_and_disassemble ig solve x0 ;;;
      o <-- finish_outputs ig r ;;;
      _ <-- modify (set_fresh false) ;;;
      ret o
  end.
End Call.

(** Calls of the public methods (sb.py:249-281, 631-737), optimizer steps and moves. *)
Inductive pcall :=
| PForward (dev : device) (x : option (tensor A)) (st co data : option tdicts)
| PTo (dev : device)
| PParameters
| PSetTime (t : Qc)
| PSetVector (ts : list Qc)
| PTrain (f : nat -> nat -> A -> A).

(** The call without the device (sb.py:249-281, 631-737). *)
Definition call (o : pcall) : @op A :=
  match o with
  | PForward _ x st co data => OpForward x st co data
  | PTo _ => OpTo
  | PParameters => OpParameters
  | PSetTime t => OpSetTime t
  | PSetVector ts => OpSetVector ts
  | PTrain f => OpTrain f
  end.

(** One call (sb.py:249-281, 631-737). *)
Definition run_call (o : pcall) (p : placed) : placed * @observed A :=
  match o with
  | PForward dev x st co data =>
      let '(b', r) := placed_forward (pl_where p) dev x st co data (pl_block p) in
      (mkPlaced b' (pl_where p), ObsForward r)
  | PTo dev => let '(p', r) := move dev p in (p', ObsUnit r)
  | _ =>
      let '(b', v) := run_op zero ig has_attr rnd solve (call o) (pl_block p) in
      (mkPlaced b' (pl_where p), v)
  end.

(** A history of calls (sb.py:249-281, 631-737). *)
Fixpoint run_calls (os : list pcall) (p : placed) : placed * list (@observed A) :=
  match os with
  | [] => (p, [])
  | o :: r =>
      let '(p', v) := run_call o p in
      let '(p'', vs) := run_calls r p' in
      (p'', v :: vs)
  end.
End Device.

(** Property C139: blocks and devices. *)
From Coq Require Import List String Ascii Arith ZArith QArith Qcanon Lia Bool.
From Verif Require Import Base Tensor ScdModel BlockModel BlockSpec DeviceModel DeviceSpec DeviceProofs
  DeviceProofs2.
Import ListNotations.
Open Scope string_scope.
Open Scope list_scope.
Open Scope nat_scope.

(** ** A small block: one variable [q] of shape (2,1,1), zero dynamics. *)
Definition dx_ig (enlargement : bool) : @integrand nat :=
  mkIntegrand true 2 enlargement true true (fun x => Ok [("q", x)]) "q".
Definition dx_attr (_ : string) := false.
Definition dx_rnd (i j : nat) := 100 * i + j.
Definition dx_new (free : bool) : result (@block nat) :=
  new_block dx_attr "b" (Some [("q", mkT [2; 1; 1] [1; 2])]) (Some [("p_q", mkT [2; 1; 1] [3; 4])])
    true false free false [[("l1", ["weight"])]] ["w"] None 2.
Definition dx_x : tensor nat := mkT [1; 1; 1] [7].
Definition dx_run enlargement ev :=
  run_calls 0 (dx_ig enlargement) dx_attr dx_rnd constant_solution Cpu ev.
(** What is seen of a history which starts with a new block. *)
Definition dx_seen enlargement ev (free : bool) os : list (option exn) :=
  match dx_new free with
  | Ok b => map (fun v => match v with
                          | ObsForward (Raise e) => Some e | ObsParameters (Raise e) => Some e
                          | ObsUnit (Raise e) => Some e | _ => None end)
                (snd (dx_run enlargement ev os (place Cpu b)))
  | Raise e => [Some e]
  end.
Definition dx_fwd d := PForward d (Some dx_x) None None None.
Definition dx_pass d := PForward d (Some dx_x) (Some [("a", [("q", mkT [1; 1; 1] [5])])])
  (Some [("a", [("p_q", mkT [1; 1; 1] [6])])]) None.
(** Pass-through blocks of the size of the own variable. *)
Definition dx_same d := PForward d (Some dx_x) (Some [("a", [("q", mkT [2; 1; 1] [5; 6])])])
  (Some [("a", [("p_q", mkT [2; 1; 1] [6; 7])])]) None.

(** ** C139.  Once the device has been set up, everything is created there:
    whatever the model and the mode, calls with data on that device and moves to
    it have the results they have without devices. *)
Theorem C139_set_up :
  forall (A : Type) (zero : A) ig has_attr rnd solve ev gpus desired default dev (b : @block A) os,
  setup_device gpus desired = Ok (default, dev) ->
  Forall (only_on dev) os ->
  let r := run_calls zero ig has_attr rnd solve default ev os (place default b) in
  (pl_block (fst r), snd r) = run_ops zero ig has_attr rnd solve (map call os) b.
Proof.
  exact (fun A zero ig has_attr rnd solve ev gpus desired default dev b os E F =>
    one_device zero ig has_attr rnd solve default ev os (place default b) (fun _ => eq_refl)
      (eq_ind_r (fun d => Forall (only_on d) os) F (setup_same gpus desired default dev E))).
Qed.
Print Assumptions C139_set_up.

Example C139_set_up_case :
  setup_device 2 (Some 1%Z) = Ok (Cuda 1, Cuda 1) /\ setup_device 0 (Some 0%Z) = Ok (Cpu, Cpu) /\
  setup_device 1 (Some 1%Z) = Raise RuntimeError /\
  Forall (only_on Cpu) [dx_fwd Cpu; PTo Cpu; dx_pass Cpu] /\
  dx_seen true WithNew false [dx_pass Cpu; PTo Cpu; dx_fwd Cpu] = [None; None; None] /\
  dx_seen true (FromFree [OFree 0 "l1" "weight"]) true [dx_fwd Cpu; PTo Cpu; dx_fwd Cpu] = [None; None; None].
Proof. repeat split; repeat constructor. Qed.

(** A block moved to another device cannot always be used there: not when the
    parameters are computed with new layers (automatic differentiation, or the
    model 'simple'), not in the particle-free modes, and not when enlargement
    parameters are created after the move. *)
Theorem C139_moved_refuted :
  dx_seen false WithNew false [dx_fwd Cpu; PTo (Cuda 0); dx_fwd (Cuda 0)] = [None; None; Some RuntimeError] /\
  dx_seen false (FromFree [OFree 0 "l1" "weight"]) true [dx_fwd Cpu; PTo (Cuda 0); dx_fwd (Cuda 0)]
    = [None; None; Some RuntimeError] /\
  dx_seen true FromStates false [PTo (Cuda 0); dx_pass (Cuda 0)] = [None; Some RuntimeError] /\
  dx_seen true FromStates false [dx_pass Cpu; dx_pass Cpu] = [None; None].
Proof. repeat split. Qed.
Print Assumptions C139_moved_refuted.

(** True: a block of particles whose parameters are computed from the particles
    alone, by a model or with a setting without enlargement, can be moved at any
    time; afterwards calls with data on the new device give what they give
    without devices. *)
Theorem C139_moved_partial :
  forall (A : Type) (zero : A) ig has_attr rnd solve default name state costate enlarge keep free names
    max_time dim (b : @block A) os1 os2 d x st co data,
  NoDup (own_names state costate names) ->
  enlarge = false \/ ig_enlargement ig = false ->
  new_block has_attr name state costate enlarge keep false false free names max_time dim = Ok b ->
  Forall (no_other_move d) os2 ->
  let p := fst (run_calls zero ig has_attr rnd solve default FromStates (os1 ++ PTo d :: os2) (place default b)) in
  placed_forward zero ig has_attr rnd solve default FromStates (pl_where p) d x st co data (pl_block p)
  = forward zero ig has_attr rnd solve x st co data (pl_block p).
Proof.
  exact (fun A zero ig has_attr rnd solve default name state costate enlarge keep free names max_time dim b
    os1 os2 d x st co data => moved_block zero ig has_attr rnd solve default FromStates name state costate
      enlarge keep free names max_time dim b os1 os2 d x st co data eq_refl).
Qed.
Print Assumptions C139_moved_partial.

Example C139_moved_case :
  own_names (Some [("q", 1)]) (Some [("p_q", 2)]) ["w"] = ["q"; "p_q"; "w"] /\
  ig_enlargement (dx_ig false) = false /\
  dx_seen false FromStates false
    [dx_fwd Cpu; PTo (Cuda 1); dx_fwd (Cuda 1); dx_fwd Cpu; dx_same (Cuda 1); PTo Cpu; dx_fwd Cpu]
    = [None; None; None; Some RuntimeError; None; None; None].
Proof. repeat split. Qed.

(** What is left behind: with new layers in the evaluation no call on another
    device than the default one ever succeeds, ... *)
Theorem C139_new_tensors_partial :
  forall (A : Type) (zero : A) ig has_attr rnd solve default wh dev x st co data (b : @block A) o,
  default <> dev -> (forall ts, b_time_vec b = Some ts -> 2 <= List.length ts) ->
  snd (placed_forward zero ig has_attr rnd solve default WithNew wh dev x st co data b) <> Ok o.
Proof.
  exact (fun A zero ig has_attr rnd solve default wh dev x st co data b o =>
    new_tensors_never zero ig has_attr rnd solve default WithNew wh dev x st co data b o eq_refl).
Qed.
Print Assumptions C139_new_tensors_partial.

(** ... except at a single time, where nothing is evaluated and the way the
    parameters are computed makes no difference, ... *)
Theorem C139_single_time_partial :
  forall (A : Type) (zero : A) ig has_attr rnd solve default ev wh dev x st co data (b : @block A) t,
  b_time_vec b = Some [t] ->
  placed_forward zero ig has_attr rnd solve default ev wh dev x st co data b
  = placed_forward zero ig has_attr rnd solve default FromStates wh dev x st co data b.
Proof. exact @single_time_any. Qed.
Print Assumptions C139_single_time_partial.

Example C139_single_time_case :
  dx_seen false WithNew false [PTo (Cuda 0); PSetVector [0%Qc]; dx_fwd (Cuda 0)] = [None; None; None] /\
  dx_seen false WithNew false [PTo (Cuda 0); PSetVector [0%Qc; 1%Qc]; dx_fwd (Cuda 0)]
    = [None; None; Some RuntimeError].
Proof. split; reflexivity. Qed.

(** ... and neither does it for a block with particles in a particle-free mode,
    whatever was called before. *)
Theorem C139_particle_free_partial :
  forall (A : Type) (zero : A) ig has_attr rnd solve default ev name k t rest costate enlarge keep
    rnn_mode time_mode free names max_time dim (b : @block A) os dev x st co data o,
  rnn_mode || time_mode = true -> default <> dev ->
  new_block has_attr name (Some ((k, t) :: rest)) costate enlarge keep rnn_mode time_mode free names max_time dim
    = Ok b ->
  let p := fst (run_calls zero ig has_attr rnd solve default ev os (place default b)) in
  snd (placed_forward zero ig has_attr rnd solve default ev (pl_where p) dev x st co data (pl_block p)) <> Ok o.
Proof. exact @free_never. Qed.
Print Assumptions C139_particle_free_partial.

Example C139_left_behind_case :
  Cpu <> Cuda 0 /\
  (exists b, dx_new false = Ok b /\ b_time_vec b = None) /\
  (exists b, dx_new true = Ok b /\ keys (b_registry b) = ["pf_timestep0_l1_weight"; "w"]) /\
  dx_seen true (FromFree [OFree 0 "l1" "weight"]) true
    [PTo (Cuda 0); dx_fwd Cpu; dx_fwd (Cuda 0)] = [None; Some RuntimeError; Some RuntimeError].
Proof.
  split; [discriminate|]. split; [eexists; split; reflexivity|]. split; [eexists; split; reflexivity|].
  reflexivity.
Qed.

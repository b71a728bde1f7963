(** What a demo is expected to train, stated on the options: names, sizes and numbers of parameters. *)
From Coq Require Import List String ZArith QArith Bool.
From Verif Require Import Base ArgparseModel BlockModel TrainedModel.
Import ListNotations.
Open Scope string_scope.
Open Scope list_scope.
Open Scope nat_scope.

(** The states of the particles of a model: [n] particles of size [d], and of size [e] in the inflated space. *)
Definition model_states (model : string) (n d e : Z) : list (string * list Z) :=
  match model with
  | "simple" => [("q1", [n; 1; d])]
  | "2nd_order" => [("q1", [n; 1; d]); ("q2", [n; 1; d])]
  | "dampened_updown" => [("q1", [n; 1; d]); ("q2", [n; 1; e]); ("c1", [n; 1; 1]); ("c2", [n; 1; 1])]
  | _ => [("q1", [n; 1; d]); ("q2", [n; 1; e])]
  end%Z.

(** The layers of a model: name, outputs, inputs, with bias. *)
Definition model_layers (model : string) (d e : Z) : list (string * Z * Z * bool) :=
  match model with
  | "simple" => [("l1", d, d, true)]
  | "2nd_order" => [("l1", d, d, true); ("l2", d, d, true)]
  | "updown_universal" => [("l1", d, e, true); ("l2", e, d, true); ("l3", e, e, false)]
  | "periodic" => [("l1", d, e, true); ("l2", e, d, true); ("l3", d, d, false)]
  | "general_updown" => [("l11", d, e, true); ("l12", d, d, false); ("l13", d, d, false); ("l14", d, e, false);
                         ("l21", e, d, true); ("l22", e, e, false); ("l23", e, e, false); ("l24", e, d, false)]
  | _ => [("l1", d, e, true); ("l2", e, d, true)]
  end.

(** A parameter [x] of size [s] is the initial position or momentum of particles, *)
Definition particle_parameter (model : string) (n d e : Z) (x : string) (s : list Z) : Prop :=
  exists k, In (k, s) (model_states model n d e) /\ (x = k \/ x = ("p_" ++ k)%string).
(** the weight or bias of a layer for one of the time steps, *)
Definition layer_parameter (model : string) (d e sets : Z) (x : string) (s : list Z) : Prop :=
  exists step l o i b, (Z.of_nat step < sets)%Z /\ In (l, o, i, b) (model_layers model d e) /\
    (x = free_name step l "weight" /\ s = [o; i] \/ b = true /\ x = free_name step l "bias" /\ s = [o]).
(** or belongs to the map from data to their initial conditions. *)
Definition data_parameter (way : string) (d e : Z) (x : string) (s : list Z) : Prop :=
  match way with
  | "direct" => x = "data_q20" /\ s = [1; e]%Z
  | "linear" => x = "simple_init__weight" /\ s = [e; d] \/ x = "simple_init__bias" /\ s = [e]
  | "mini_nn" => x = "init_l1__weight" /\ s = [10; d]%Z \/ x = "init_l1__bias" /\ s = [10]%Z \/
                 x = "init_l2__weight" /\ s = [e; 10]%Z \/ x = "init_l2__bias" /\ s = [e]
  | _ => False
  end.

(** The models which can optimize over the initial conditions of data. *)
Definition data_models : list string := ["updown"; "updown_universal"; "general_updown"; "periodic"].

(** The number of sets of layers, if there are no particles. *)
Definition asked_sets (ns : pdict argval) : option Z :=
  match pd_get "use_particle_free_rnn_mode" ns, pd_get "use_particle_free_time_dependent_mode" ns,
        pd_get "nr_of_particle_free_time_dependent_steps" ns with
  | Some (AFlag true), _, _ => Some 1%Z
  | _, Some (AFlag true), Some (AInt k) => Some (Z.max 1 k)
  | _, _, _ => None
  end.

(** Numbers: of the particles, *)
Definition particle_numbers (model : string) (n d e : Z) : Z :=
  match model with
  | "simple" => 2 * n * d
  | "2nd_order" => 4 * n * d
  | "dampened_updown" => 2 * n * (d + e + 2)
  | _ => 2 * n * (d + e)
  end%Z.
(** of one set of layers, *)
Definition layer_numbers (model : string) (d e : Z) : Z :=
  match model with
  | "simple" => d * d + d
  | "2nd_order" => 2 * (d * d + d)
  | "updown_universal" => 2 * d * e + d + e + e * e
  | "periodic" => 2 * d * e + d + e + d * d
  | "general_updown" => 4 * d * e + 2 * d * d + 2 * e * e + d + e
  | _ => 2 * d * e + d + e
  end%Z.
(** and of the map for data. *)
Definition data_numbers (way : string) (d e : Z) : Z :=
  match way with "direct" => e | "linear" => d * e + e | "mini_nn" => 10 * d + 10 + 11 * e | _ => 0 end%Z.

(** The number of entries of parameters. *)
Definition entries (ps : list (string * list Z)) : Z :=
  fold_right (fun p a => fold_right Z.mul 1 (snd p) + a)%Z 0%Z ps.

(** The parameters of a block for data of dimension [d]: each once, with the sizes the options say. *)
Definition block_trained (ns : pdict argval) (d : Z) (ps : list (string * list Z)) : Prop :=
  NoDup (map fst ps) /\
  exists model n f opt way,
    pd_get "shooting_model" ns = Some (AText model) /\ pd_get "nr_of_particles" ns = Some (AInt n) /\
    pd_get "inflation_factor" ns = Some (AInt f) /\ pd_get "optimize_over_data_initial_conditions" ns = Some (AFlag opt) /\
    pd_get "optimize_over_data_initial_conditions_type" ns = Some (AText way) /\
    let e := (d * f)%Z in let with_data := opt = true /\ In model data_models in
    (forall x s, In (x, s) ps <->
       match asked_sets ns with
       | None => particle_parameter model n d e x s
       | Some sets => layer_parameter model d e sets x s
       end \/ with_data /\ data_parameter way d e x s) /\
    (with_data -> entries ps =
       match asked_sets ns with None => particle_numbers model n d e | Some sets => sets * layer_numbers model d e end +
       data_numbers way d e)%Z /\
    (~ with_data -> entries ps =
       match asked_sets ns with None => particle_numbers model n d e | Some sets => sets * layer_numbers model d e end)%Z.

(** All sizes asked for are positive. *)
Definition positive_sizes (ns : pdict argval) : Prop :=
  forall o z, In o ["nr_of_particles"; "inflation_factor"; "shooting_dim"] -> pd_get o ns = Some (AInt z) -> (1 <= z)%Z.

(** The positions of the particles are still frozen at the end: freezing was asked for, and no epoch of the run releases them. *)
Definition stays_frozen (ns : pdict argval) : Prop :=
  asked_sets ns = None /\ pd_get "custom_parameter_freezing" ns = Some (AFlag true) /\
  exists at_ n, pd_get "unfreeze_parameters_at_iter" ns = Some (AInt at_) /\ pd_get "niters" ns = Some (AInt n) /\ ~ (0 <= at_ <= n)%Z.

(** A training as described, unless the learning rate is negative, which is refused. *)
Definition trains_with (lr : Q) (t : training) (r : result training) : Prop :=
  ((0 <= lr)%Q -> r = Ok t) /\ ((lr < 0)%Q -> r = Raise ValueError).

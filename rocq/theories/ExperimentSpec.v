(** What a user of the experiment scripts expects. *)
From Coq Require Import List String Ascii Arith ZArith QArith Bool.
From Verif Require Import Base SweepModel SweepSpec ShellSpec ArgparseModel ExperimentModel.
Import ListNotations.
Open Scope string_scope.
Open Scope list_scope.
Open Scope nat_scope.

(** A value written into a dictionary of arguments and the value the started script reads: flags are
    written as None, integers may be read as decimal numbers. *)
Inductive means : pyval -> argval -> Prop :=
  | means_flag : means VNone (AFlag true)
  | means_int z : means (VInt z) (AInt z)
  | means_number z : means (VInt z) (ANum (inject_Z z))
  | means_text s : means (VStr s) (AText s).

(** The settings of a run: its directory and seed, the swept values, then the template. *)
Definition settings (s : sweep) (dir : string) (seed : nat) (c : config) (name : string) : option pyval :=
  if String.eqb name "seed" then Some (VInt (Z.of_nat seed))
  else if String.eqb name "output_directory" then Some (VStr dir)
  else match pd_get name c with Some v => Some v | None => pd_get name (sw_template s) end.

(** The command starts the script, whose parser accepts the words it gets; every setting has its value,
    everything else its default. *)
Definition told (target : parser) (script : string) (wanted : string -> option pyval) (command : string) : Prop :=
  exists words ns, delivered command = Some ("python" :: script :: words) /\ parse_args target words = Some ns /\
    (forall n v, wanted n = Some v -> exists a, pd_get n ns = Some a /\ means v a) /\
    (forall n, wanted n = None -> pd_get n ns = pd_get n (defaults target)).

(** The command starts the script, whose parser ends the program. *)
Definition refused (target : parser) (script : string) (command : string) : Prop :=
  exists words, delivered command = Some ("python" :: script :: words) /\ parse_args target words = None.

(** Arguments the shell leaves alone, and seeds which are natural numbers. *)
Definition plain_arguments (ns : pdict argval) : Prop :=
  (forall d, pd_get "output_base_directory" ns = Some (AText d) -> plain d) /\
  (forall d, pd_get "path_to_python" ns = Some (AText d) -> plain d) /\
  (forall z, pd_get "starting_seed_id" ns = Some (AInt z) -> (0 <= z)%Z).

(** The seeds of a script. *)
Definition seeds (ns : pdict argval) : list nat :=
  match pd_get "starting_seed_id" ns, pd_get "nr_of_seeds" ns with
  | Some (AInt z), Some (AInt n) => seq (Z.to_nat z) (Z.to_nat n)
  | _, _ => []
  end.

(** A run without its command. *)
Definition job : Type := (nat * nat * config)%type.
Definition job_of (r : run) : job := (r_sweep r, r_seed r, r_config r).

(** The runs a user wants: for every sweep, every seed and every combination of its values. *)
Definition numbered {A} (l : list A) : list (nat * A) := combine (seq 0 (List.length l)) l.
Definition wanted (sweeps : list sweep) (ns : pdict argval) : list job :=
  flat_map (fun ks => flat_map (fun seed => map (fun c => (fst ks, seed, c)) (product (sw_values (snd ks)))) (seeds ns))
    (numbered sweeps).

(** The directory of a run. *)
Definition directory (sweeps : list sweep) (args : sweep_args) (j : job) : option string :=
  match nth_error sweeps (fst (fst j)) with
  | Some s => Some (output_directory (sw_prefix s) args (sw_template s) (snd (fst j)) (snd j))
  | None => None
  end.

(** Its results are there already. *)
Definition present (sweeps : list sweep) (args : sweep_args) (files : list string) (j : job) : bool :=
  match directory sweeps args j with Some d => existsb (String.eqb d) files | None => false end.

(** The sweeps of the two scripts for each of the two tasks, with or without rnn. *)
Definition spiral_script (rnn : bool) (model : string) : list sweep := if rnn then spiral_rnn_sweeps model else spiral_sweeps model.
Definition mapping_script (rnn : bool) (model fcn : string) : list sweep := if rnn then mapping_rnn_sweeps model fcn else mapping_sweeps model fcn.

(** The models spiral.py knows. *)
Definition spiral_models : list string := ["updown_universal"; "simple"; "updown"; "periodic"].

(** A statement about the commands of all runs. *)
Definition all_runs (sweeps : list sweep) (args : sweep_args) (P : sweep -> string -> nat -> config -> string -> Prop) (runs : list run) : Prop :=
  forall r, In r runs -> exists s dir, nth_error sweeps (r_sweep r) = Some s /\ directory sweeps args (job_of r) = Some dir /\
    P s dir (r_seed r) (r_config r) (r_command r).

(** The seeds are natural numbers. *)
Definition natural_start (ns : pdict argval) : Prop := forall z, pd_get "starting_seed_id" ns = Some (AInt z) -> (0 <= z)%Z.

(** Results are to be computed again. *)
Definition forced (ns : pdict argval) : bool := match pd_get "force_recompute" ns with Some (AFlag b) => b | _ => false end.

(** The runs still to be done. *)
Definition missing (sweeps : list sweep) (args : sweep_args) (ns : pdict argval) (files : list string) (j : job) : bool :=
  forced ns || negb (present sweeps args files j).

(** The runs of a forced script: every sweep repeats the combinations of the earlier ones. *)
Definition accumulated (sweeps : list sweep) (ns : pdict argval) : list job :=
  flat_map (fun ks => flat_map (fun seed => map (fun c => (fst ks, seed, c))
      (flat_map (fun s => product (sw_values s)) (firstn (S (fst ks)) sweeps))) (seeds ns))
    (numbered sweeps).

(** Model of the experiment sweep tools:
    neuro_shooting/command_line_execution_tools.py (cited as ce.py) and
    neuro_shooting/experiment_utils.py (cited as eu.py). *)
From Coq Require Import List String Ascii Arith ZArith Bool Lia DecimalString.
From Verif Require Import Base.
Import ListNotations.
Open Scope string_scope.

(** The values found in argument dictionaries (simple_functional_mapping and
    spiral sweeps: strings, integers, floats, flags and None).  A float is
    represented by its [repr]; the code only ever prints it. *)
Inductive pyval : Type :=
| VStr (s : string) | VInt (z : Z) | VFloat (repr : string) | VBool (b : bool) | VNone.

(** Python's [str(n)] of a non-negative integer (as used by ce.py:45-47, eu.py:68). *)
Definition dec_nat (n : nat) : string := NilEmpty.string_of_uint (Nat.to_uint n).

(** Python's [str(v)], which is also what ['{}'.format(v)] prints (ce.py:47, eu.py:68). *)
Definition py_str (v : pyval) : string :=
  match v with
  | VStr s => s
  | VInt z => match z with
              | Z0 => "0"
              | Zpos p => dec_nat (Pos.to_nat p)
              | Zneg p => "-" ++ dec_nat (Pos.to_nat p)
              end
  | VFloat r => r
  | VBool true => "True"
  | VBool false => "False"
  | VNone => "None"
  end.

(** ** Sweeping (ce.py:6-28)

    [par_dict] and [swept_parameter_list] are mutable objects which the
    recursion shares; they are threaded through as state.  A sweep dictionary
    maps a key to its list of values. *)
Definition config : Type := pdict pyval.
(** The two shared objects (ce.py:6-9). *)
Definition sweep_state : Type := (config * list config)%type.

(** ce.py:11-26: the effect of a call on the two shared objects.  No key left
    (line 12): append a copy of [par_dict].  Otherwise take the first key
    (17-22) and recurse for each of its values (24-26). *)
Fixpoint sweep_rec (pars : pdict (list pyval)) (st : sweep_state) : sweep_state :=
  match pars with
  | [] => (fst st, snd st ++ [fst st])%list
  | (k, vs) :: rest =>
      fold_left (fun s v => sweep_rec rest (pd_set k v (fst s), snd s)) vs st
  end.

(** What a call hands back: the list object (ce.py:28) or, when there is no key
    to sweep over, the dictionary object (ce.py:15).  Python's iteration over
    a dictionary yields its keys. *)
Inductive swept : Type :=
| SweptList (l : list config)
| SweptDict (d : config).

(** ce.py:6-28 with explicit [par_dict] and [swept_parameter_list]. *)
Definition recursively_sweep (pars : pdict (list pyval)) (st : sweep_state)
    : swept * sweep_state :=
  let st' := sweep_rec pars st in
  (match pars with [] => SweptDict (fst st') | _ => SweptList (snd st') end, st').

(** ce.py:6: the default values of the two arguments are created once, when the
    function is defined, and live as long as the process.  A process state is
    their current content; initially both are empty. *)
Definition process0 : sweep_state := ([], []).

(** eu.py:86: the only call in the package leaves both arguments defaulted. *)
Definition sweep_default (pars : pdict (list pyval)) (process : sweep_state)
    : swept * sweep_state := recursively_sweep pars process.

(** A whole history of calls in one process (the calls of eu.py:86 made by
    successive [sweep_parameters]). *)
Fixpoint sweep_history (history : list (pdict (list pyval))) (process : sweep_state)
    : list swept * sweep_state :=
  match history with
  | [] => ([], process)
  | pars :: rest =>
      let (r, p1) := sweep_default pars process in
      let (rs, p2) := sweep_history rest p1 in
      (r :: rs, p2)
  end.

(** ** Merging arguments (eu.py:71-83)

    Dictionaries are objects on a heap; a reference is an index. *)
Definition heap : Type := list config.

(** The dictionary a reference points to (eu.py:73). *)
Definition deref (h : heap) (r : nat) : config := nth r h [].

(** Changing the dictionary a reference points to (eu.py:75-81). *)
Fixpoint heap_set (r : nat) (d : config) (h : heap) : heap :=
  match r, h with
  | _, [] => []
  | O, _ :: t => d :: t
  | S r', x :: t => x :: heap_set r' d t
  end.

(** eu.py:75-81: one turn of the loop, writing to the dictionary at [m]. *)
Definition merge_step (m : nat) (h : heap) (kv : string * pyval) : heap :=
  match snd kv with
  | VBool true => heap_set m (pd_set (fst kv) VNone (deref h m)) h
  | VBool false => h
  | v => heap_set m (pd_set (fst kv) v (deref h m)) h
  end.

(** eu.py:71-83: [copy.deepcopy] allocates a new dictionary (line 73), the loop
    fills it, and its reference is returned. *)
Definition merge_args (template add : nat) (h : heap) : nat * heap :=
  let m := List.length h in
  let h1 := (h ++ [deref h template])%list in
  (m, fold_left (merge_step m) (deref h1 add) h1).

(** ce.py:42-49 [_make_arg_list]. *)
Definition make_arg_list (args : config) : list string :=
  flat_map (fun kv => ("--" ++ fst kv) ::
                      match snd kv with VNone => [] | v => [py_str v] end) args.

(** ** Experiment names (eu.py:64-69) *)
Definition create_experiment_name (basename : string) (d : config) : string :=
  fold_left (fun name kv => name ++ "_" ++ fst kv ++ "_" ++ py_str (snd kv)) d basename.

(** eu.py:118: ['{:02d}'] of a non-negative integer. *)
Definition fmt02 (n : nat) : string :=
  if Nat.ltb n 10 then "0" ++ dec_nat n else dec_nat n.

(** The attributes of [args] read by eu.py:85-142 that decide which runs happen
    and where; seeds are non-negative integers here.  [a_fcn = None] is
    [not hasattr(args, 'fcn')]. *)
Record sweep_args := mkArgs {
  a_starting_seed_id : nat;
  a_nr_of_seeds : nat;
  a_output_base_directory : string;
  a_shooting_model : pyval;
  a_fcn : option pyval
}.

(** eu.py:101-106 *)
Definition current_shooting_model (args : sweep_args) (template d : config) : pyval :=
  match pd_get "shooting_model" d with
  | Some v => v
  | None => match pd_get "shooting_model" template with
            | Some v => v
            | None => a_shooting_model args
            end
  end.

(** eu.py:108-116 *)
Definition current_fcn (args : sweep_args) (template d : config) : pyval :=
  match pd_get "fcn" d with
  | Some v => v
  | None => match pd_get "fcn" template with
            | Some v => v
            | None => match a_fcn args with Some v => v | None => VStr "" end
            end
  end.

(** eu.py:118-119 *)
Definition experiment_name (args : sweep_args) (template : config) (seed : nat) (d : config)
    : string :=
  create_experiment_name
    ("run_" ++ fmt02 seed ++ "_" ++ py_str (current_fcn args template d)
       ++ "_" ++ py_str (current_shooting_model args template d)) d.

(** eu.py:92,120: the output directory ([os.path.join] of a non-empty base
    directory not ending in a separator; names starting with a separator
    do not occur as the name starts with "run_"). *)
Definition output_directory (prefix : string) (args : sweep_args) (template : config)
    (seed : nat) (d : config) : string :=
  prefix ++ a_output_base_directory args ++ "/" ++ experiment_name args template seed d.

(** eu.py:126-129: the arguments of one run. *)
Definition run_args (template : config) (dir : string) (seed : nat) (d : config) : config :=
  let '(m, h) := merge_args 0 1 [template; d] in
  pd_set "seed" (VInt (Z.of_nat seed)) (pd_set "output_directory" (VStr dir) (deref h m)).

(** eu.py:131-142 for one seed and one configuration.  The file system is the list
    of directories holding a pt file.  A run leaves a pt file in its directory
    (external script; here every run succeeds).  The
    [glob] of line 132 is an exact lookup here: wildcard characters in
    directory names are not modelled.  State: file system and the runs done. *)
Definition run_one (prefix : string) (args : sweep_args) (template : config)
    (do_not_recompute : bool) (st : list string * list config) (sd : nat * config)
    : list string * list config :=
  let dir := output_directory prefix args template (fst sd) (snd sd) in
  if existsb (String.eqb dir) (fst st) && do_not_recompute then st
  else (dir :: fst st, snd st ++ [run_args template dir (fst sd) (snd sd)])%list.

(** eu.py:85-142.  Line 86 asks for the sweep; line 99 iterates over it.  If
    the sweep returned a dictionary, iteration would yield its keys, which
    are strings: [in] on them is a substring test and [d[k]] is not defined
    on them, so a non-empty dictionary (of non-empty keys) raises TypeError at line 102,
    109 or 68; an empty
    one yields no run. *)
Definition sweep_parameters (prefix : string) (args : sweep_args)
    (to_sweep : pdict (list pyval)) (template : config) (do_not_recompute : bool)
    (process : sweep_state) (fs : list string)
    : result (list config * sweep_state * list string) :=
  let '(r, process') := sweep_default to_sweep process in
  let seeds := seq (a_starting_seed_id args) (a_nr_of_seeds args) in
  match r with
  | SweptList l =>
      let jobs := flat_map (fun s => map (fun d => (s, d)) l) seeds in
      let st := fold_left (run_one prefix args template do_not_recompute) jobs (fs, []) in
      Ok (snd st, process', fst st)
  | SweptDict [] => Ok ([], process', fs)
  | SweptDict (_ :: _) =>
      match seeds with [] => Ok ([], process', fs) | _ => Raise TypeError end
  end.

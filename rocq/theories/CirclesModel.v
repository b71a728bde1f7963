(** Model of the main program of demos/neurips20/cc.py (cc.py): the command line, the shooting block with the small
    classifier, training, testing, recording with the hook, and the files written at the end.

    Tensors and models are those of [VecModel] and [VecInit] (shooting_models.py: sm.py, shooting_integrands.py:
    si.py).  What is random or trained (particles, layers, batches) is given for every forward pass; the
    integrator is a program as in [VecFlow], also given for every forward pass, so that the steps which a solver
    with step size control has taken are covered.  Losses, the optimizer, the scheduler and devices are
    external and assumed not to raise (learning rates which Adam refuses are left out).  Not modelled: printing. *)
From Coq Require Import List String ZArith QArith Reals Bool.
From Verif Require Import Base Tensor VecModel VecInit VecFlow RecordModel ArgparseModel ExperimentModel.
Import ListNotations.
Open Scope string_scope.
Open Scope list_scope.
Open Scope nat_scope.

(** cc.py:165-260 *)
Definition cc_parser : parser :=
  [("method", Value (TText (Some ["dopri5"; "adams"; "rk4"])) (AText "rk4")); ("shooting_dim", Value TInt (AInt 20));
   ("cls_weight_decay", Value TFloat (ANum (1 # 10000))); ("evaluate_ahead", Value TInt (AInt 10));
   ("stepsize", Value TFloat (ANum (5 # 100))); ("niters", Value TInt (AInt 500)); ("lr", Value TFloat (ANum (1 # 100)));
   ("seed", Value TInt (AInt (-1))); ("batch_size", Value TInt (AInt 25));
   ("shooting_model", Value (TText (Some ["simple"; "updown"; "updown_universal"])) (AText "updown"));
   ("nr_of_particles", Value TInt (AInt 25)); ("pw", Value TFloat (ANum 1)); ("sim_weight", Value TFloat (ANum 100));
   ("norm_weight", Value TFloat (ANum (1 # 100)));
   ("nonlinearity", Value (TText (Some ["identity"; "relu"; "tanh"; "sigmoid"])) (AText "relu"));
   ("inflation_factor", Value TInt (AInt 5)); ("use_particle_rnn_mode", Flag); ("use_particle_free_rnn_mode", Flag);
   ("optimize_over_data_initial_conditions", Flag);
   ("optimize_over_data_initial_conditions_type", Value (TText (Some ["direct"; "linear"; "mini_nn"])) (AText "linear"));
   ("verbose", Flag); ("save_model", Value (TText None) (AText "model")); ("gpu", Value TInt (AInt 0))].

(** The models of cc.py:84-131 which the command line offers. *)
Inductive shooting := Simple | UpDown | Universal.

(** A shooting block (cc.py:71-146): model, sizes, modes, and how the initial [q2] of data is found if that is
    optimized. *)
Record block : Type := mkBlock {
  b_model : shooting; b_dim : nat; b_inflation : nat; b_particles : nat;
  b_rnn : bool; b_free : bool; b_optimize : option string }.

(** All entries which are random or trained, at one forward pass, and the steps of the integrator. *)
Record entries : Type := mkEntries {
  e_state : string -> nat -> nat -> nat -> R;
  e_costate : string -> nat -> nat -> nat -> R;
  e_layers : inits;
  e_data_init : inits;
  e_batch : nat -> nat -> nat -> R;
  e_prog : list instr }.

(** What the hook appends to the lists of [custom_hook_data] (cc.py:314-323). *)
Inductive noted := NTime (t : R) | NState (q : t3) | NPar (w : t2).
(** [defaultdict(list)] (cc.py:328) *)
Definition notes := sdict (list noted).

(** [custom_hook_data[key].append(v)] (cc.py:318-323) *)
Definition append_note (key : string) (v : noted) : eff (H := notes) unit := fun d =>
  (Ok tt, sd_set key ((match sd_get key d with Some l => l | None => [] end) ++ [v]) d).
(** A value computed without effect, which may raise. *)
Definition lift {H A} (r : result A) : eff (H := H) A := fun h => (r, h).

(** [parameter_objects[o]._parameter_dict['bias']] (cc.py:321, 323) *)
Definition bias_item (l : lin) : result t2 := match lin_bias l with Some b => Ok b | None => Raise KeyError end.

(** cc.py:314-323 [linear_transform_hook]; the state dictionary of the only block *)
Definition linear_transform_hook (t : R) (s : states) (th : pars) : eff (H := notes) unit :=
  then_ (append_note "t" (NTime t)) (fun _ =>
  then_ (lift (sd_item "q1" s)) (fun q => then_ (append_note "q1" (NState q)) (fun _ =>
  then_ (lift (sd_item "l1" th)) (fun l1 => then_ (append_note "l1_weight" (NPar (lin_weight l1))) (fun _ =>
  then_ (lift (bias_item l1)) (fun b1 => then_ (append_note "l1_bias" (NPar b1)) (fun _ =>
  then_ (lift (sd_item "l2" th)) (fun l2 => then_ (append_note "l2_weight" (NPar (lin_weight l2))) (fun _ =>
  then_ (lift (bias_item l2)) (fun b2 => append_note "l2_bias" (NPar b2))))))))))).

Section Run.
(** Nonlinearity and derivative (cc.py:87), parameter weight (cc.py:88). *)
Variables nl dnl : R -> R.
Variable pw : R.

Section Pass.
Variable b : block.
Variable e : entries.
(** Is the hook registered (cc.py:329)? *)
Variable hooked : bool.

(** cc.py:84-131 with sm.py:268-278, 495-506, 1168-1177 *)
Definition model_rhs : states -> pars -> result states :=
  match b_model b with Simple => simple_rhs nl | UpDown => updown_rhs nl | Universal => universal_rhs nl end.
(** Parameter objects with the entries given (sm.py:256-266, 480-493, 1154-1166). *)
Definition model_objects : pars :=
  match b_model b with
  | Simple => simple_objects (e_layers e) (b_dim b) (Some pw)
  | UpDown => updown_objects (e_layers e) (b_dim b) (b_inflation b) (Some pw)
  | Universal => universal_objects (e_layers e) (b_dim b) (b_inflation b) (Some pw) (1 / 10)%R
  end.
(** use_analytic_solution=True (cc.py:93): sm.py:362-407, 590-644, 1218-1254 *)
Definition model_parameters (s c : states) : result pars :=
  match b_model b with
  | Simple => simple_parameters nl (e_layers e) (b_dim b) (Some pw) (b_particles b) s c
  | UpDown => updown_parameters nl (e_layers e) (b_dim b) (b_inflation b) (Some pw) s c
  | Universal => universal_parameters nl (e_layers e) (b_dim b) (b_inflation b) (Some pw) (1 / 10)%R s c
  end.
(** sm.py:318-359, 546-587, 1179-1215 *)
Definition model_costate (s c : states) (th : pars) : result states :=
  match b_model b with
  | Simple => simple_costate nl dnl (b_particles b) s c th
  | UpDown => updown_costate dnl s c th
  | Universal => universal_costate dnl s c th
  end.
(** sm.py:239-254, 463-478, 1143-1152 with particle_dimension=1 and particle_size=in_features (cc.py:91-92) *)
Definition model_states (ini : string -> nat -> nat -> nat -> R) : states :=
  match b_model b with
  | Simple => simple_initial ini (b_particles b) 1 (b_dim b)
  | _ => updown_initial ini (b_particles b) 1 (b_dim b) (b_inflation b)
  end.
(** si.py:438-457: costates are named after the states *)
Definition model_costates : states := map (fun qx => ("p_" ++ fst qx, snd qx)%string) (model_states (e_costate e)).
(** sm.py:217-236: the layers which find [q2] *)
Definition model_data_mode : data_mode :=
  let d := b_dim b in let f := b_inflation b in
  match b_optimize b with
  | None => ZeroData
  | Some "direct" => Direct (mkT2 1 (d * f) (fst (e_data_init e "data_q20")))
  | Some "linear" => LinearInit (snn_linear (e_data_init e "simple_init") d (d * f) true None)
  | Some _ => MiniNN (snn_linear (e_data_init e "init_l1") d 10 true None)
                     (snn_linear (e_data_init e "init_l2") 10 (d * f) true None)
  end.
(** sm.py:280-312, 508-540, 1256-1261 *)
Definition model_data (x : t3) : result states :=
  match b_model b with
  | Simple => Ok (simple_data x)
  | _ => updown_data nl (b_inflation b) model_data_mode x
  end.

(** What changes during an integration: the parameters kept in particle RNN mode, and the recorded data. *)
Definition pass_state : Type := option pars * notes.

(** si.py:624-676, 740-764: the parameters, the three derivatives, the hook; then the derivatives are put in the
    place of the states. *)
Definition evaluate (t : R) (y : system) : eff (H := pass_state) system := fun '(kept, d) =>
  match (th <- (if b_free b then Ok model_objects
                else match b_rnn b, kept with
                     | true, Some th => Ok th
                     | _, _ => model_parameters (sys_state y) (sys_costate y)
                     end) ;;
         ds <- model_rhs (sys_state y) th ;; dx <- model_rhs (sys_data y) th ;;
         dp <- model_costate (sys_state y) (sys_costate y) th ;; Ok (th, ds, dx, dp)) with
  | Raise x => (Raise x, (kept, d))
  | Ok (th, ds, dx, dp) =>
      let (r, d) := if hooked then linear_transform_hook t (sys_state y) th d else (Ok tt, d) in
      (_ <- r ;; ds <- in_place_of (sys_state y) ds ;; dp <- in_place_of (sys_costate y) dp ;;
       dx <- in_place_of (sys_data y) dx ;; Ok (mkSystem ds dp dx), (Some th, d))
  end.

(** One instruction of the integrator (external, see [VecFlow.step]; cc.py:57). *)
Definition instruct (env : list system) (i : instr) : eff (H := pass_state) (list system) :=
  match i with
  | Rhs t j => then_ (lift (fetch env j)) (fun y => then_ (evaluate t y) (fun f => give (env ++ [f])))
  | Combine (a, j) others =>
      lift (x <- fetch env j ;;
            z <- foldM (fun acc bk => y <- fetch env (snd bk) ;; sys_axpy (fst bk) y acc) others (sys_scale a x) ;;
            Ok (env ++ [z]))
  end.
(** All instructions. *)
Fixpoint integrate (prog : list instr) (env : list system) : eff (H := pass_state) (list system) :=
  match prog with
  | [] => give env
  | i :: prog => then_ (instruct env i) (fun env => integrate prog env)
  end.

(** shooting_blocks.py:631-720: the block applied to the data; the final [q1] of the data (sm.py:314-316) *)
Definition block_forward (x : t3) : eff (H := pass_state) t3 :=
  then_ (lift (model_data x)) (fun data =>
  let start := mkSystem (model_states (e_state e)) model_costates data in
  then_ (integrate (e_prog e) [start]) (fun env => lift (sd_item "q1" (sys_data (List.last env start))))).

(** cc.py:41-43, 57-59: BatchNorm1d(2), then Linear(2,1); batches of one sample are refused in training mode,
    then numbers of features other than 2 (external).  The size of the output is returned. *)
Definition classify_points (training : bool) (z : t3) : result (nat * nat) :=
  if training && Nat.eqb (n0 z) 1 then Raise ValueError
  else if Nat.eqb (n1 z * n2 z) 2 then Ok (n0 z, 1) else Raise RuntimeError.

(** cc.py:56-59 for [B] points of the plane ([unsqueeze(1)], cc.py:288, 306, 334, 390) *)
Definition model_forward (training : bool) (B : nat) (d : notes) : result (nat * nat) * notes :=
  match block_forward (mkT3 B 1 2 (e_batch e)) (None, d) with
  | (Ok z, (_, d)) => (classify_points training z, d)
  | (Raise x, (_, d)) => (Raise x, d)
  end.
End Pass.

(** The sizes of the batches of a loader over [n] samples, nothing dropped (cc.py:354-355; external). *)
Definition batch_sizes (n bs : nat) : list nat :=
  repeat bs (n / bs) ++ (if Nat.eqb (n mod bs) 0 then [] else [n mod bs]).

(** The number of points of each data set (cc.py:263-277). *)
Definition num_points : nat := Z.to_nat 3000.

(** Everything random or trained, for all forward passes, the first one has number 0. *)
Variable all : nat -> entries.
Variable b : block.

(** cc.py:281-296 and 299-311: the passes with the batches of the given sizes, starting with number [k].  The
    loss compares outputs with targets of the sizes [B] and 1 (external). *)
Fixpoint passes (training : bool) (k : nat) (sizes : list nat) : result unit :=
  match sizes with
  | [] => Ok tt
  | B :: sizes =>
      out <- fst (model_forward b (all k) false training B []) ;;
      if Nat.eqb (fst out) B && Nat.eqb (snd out) 1 then passes training (S k) sizes else Raise ValueError
  end.

(** cc.py:326-337 [hook_in]: the first batch only *)
Definition hook_in (k : nat) (sizes : list nat) : result notes :=
  match sizes with
  | [] => Ok []
  | B :: _ => match model_forward b (all k) true false B [] with (r, d) => _ <- r ;; Ok d end
  end.

(** cc.py:398-419: one epoch after the other; what is recorded in each *)
Fixpoint epochs (n : nat) (k : nat) (sizes : list nat) : result (list notes) :=
  match n with
  | 0 => Ok []
  | S n =>
      _ <- passes true k sizes ;;
      let k := (k + List.length sizes)%nat in
      _ <- passes false k sizes ;;
      let k := (k + List.length sizes)%nat in
      d <- hook_in k sizes ;;
      ds <- epochs n (S k) sizes ;; Ok (d :: ds)
  end.
End Run.

(** cc.py:61-68: numpy refuses seeds outside of 0 <= seed < 2^32 (external). *)
Definition check_seed (seed : Z) : result unit :=
  if (seed =? -1)%Z then Ok tt
  else if ((0 <=? seed) && (seed <? 2 ^ 32))%Z then Ok tt else Raise ValueError.

(** The files written (cc.py:421-429). *)
Inductive content := CModel | CTracker (tracker : list notes) | CResults (epochs : nat).

(** cc.py:84-131; the branch for the name periodic, which the command line does not offer, is left out *)
Definition model_of_name (name : string) : result shooting :=
  if String.eqb name "updown" then Ok UpDown
  else if String.eqb name "updown_universal" then Ok Universal
  else if String.eqb name "simple" then Ok Simple
  else Raise UnboundLocalError.

Section Main.
Variable nonlinearity : string -> (R -> R) * (R -> R).
Variable all : nat -> entries.
(** Can a file of this name be opened for writing (cc.py:422-428)? *)
Variable writable : string -> bool.
(** Sizes below 1: what torch does then is left open. *)
Variable unusual : result unit * list (string * content).

(** Writing files one after the other (cc.py:422-429). *)
Fixpoint write_files (l : list (string * content)) : result unit * list (string * content) :=
  match l with
  | [] => (Ok tt, [])
  | f :: l => if writable (fst f) then let (r, w) := write_files l in (r, f :: w) else (Raise OSError, [])
  end.

(** cc.py:347-429: how the program ends, and the files it has written *)
Definition main (ns : pdict argval) : result unit * list (string * content) :=
  match (bs <- int_of "batch_size" ns ;;
         _ <- (if (bs <=? 0)%Z then Raise ValueError else Ok tt) ;;
         seed <- int_of "seed" ns ;; _ <- check_seed seed ;;
         d <- int_of "shooting_dim" ns ;; N <- int_of "nr_of_particles" ns ;; f <- int_of "inflation_factor" ns ;;
         name <- text_of "shooting_model" ns ;; m <- model_of_name name ;;
         rnn <- flag_of "use_particle_rnn_mode" ns ;; free <- flag_of "use_particle_free_rnn_mode" ns ;;
         opt <- flag_of "optimize_over_data_initial_conditions" ns ;;
         how <- text_of "optimize_over_data_initial_conditions_type" ns ;;
         nl <- text_of "nonlinearity" ns ;; n <- int_of "niters" ns ;; out <- text_of "save_model" ns ;;
         pw <- match pd_get "pw" ns with Some (ANum q) => Ok (Q2R q) | _ => Raise AttributeError end ;;
         Ok (Z.to_nat bs, (d, N, f), mkBlock m (Z.to_nat d) (Z.to_nat f) (Z.to_nat N) rnn free (if opt then Some how else None),
             nonlinearity nl, Z.to_nat n, out, pw)) with
  | Raise x => (Raise x, [])
  | Ok (bs, (d, N, f), b, (nl, dnl), n, out, pw) =>
      if ((d <? 1) || (N <? 1) || (f <? 1))%Z then unusual
      else
        let sizes := batch_sizes num_points bs in
        match (first <- list_item sizes 0 ;;
               _ <- fst (model_forward nl dnl pw b (all 0) false true first []) ;;
               epochs nl dnl pw all b n 1 sizes) with
        | Raise x => (Raise x, [])
        | Ok tracker =>
            write_files [((out ++ ".pt")%string, CModel); ((out ++ ".pkl")%string, CTracker tracker);
                         ((out ++ "_results_.pkl")%string, CResults n)]
        end
  end.
End Main.

(** The program started with a command line (cc.py:347-349); [None]: argparse ends it. *)
Definition cc (nonlinearity : string -> (R -> R) * (R -> R)) (all : nat -> entries) (writable : string -> bool)
    (unusual : result unit * list (string * content)) (words : list string) : option (result unit * list (string * content)) :=
  option_map (main nonlinearity all writable unusual) (parse_args cc_parser words).

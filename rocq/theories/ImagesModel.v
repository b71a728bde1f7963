(** Model of the main programs of demos/neurips20/rot.py and demos/neurips20/balls.py around the autoencoders of
    [AutoencoderModel]: command lines, data sets, epochs, [evaluate], the files written; with [load_data] of
    demos/neurips20/utils.py (du.py).

    Numbers are exact rationals, errors those of [SchedulerModel] (with NaN).  What is trained or random (layers, the
    shooting block, the shuffling of timepoints and samples) is given for every forward pass, the passes are
    counted from 0.  The integrator, losses, optimizer, scheduler and devices are external and assumed not to
    raise.  Not modelled: printing, plotting, the losses which are collected. *)
From Coq Require Import List String ZArith QArith Qcanon Bool.
From Verif Require Import Base Tensor SchedulerModel LoopModel ArgparseModel ExperimentModel DataModel AutoencoderModel.
From Verif Require CirclesModel.
Import ListNotations.
Open Scope string_scope.
Open Scope list_scope.
Open Scope nat_scope.

(** rot.py:37-131 *)
Definition rot_parser : parser :=
  [("method", Value (TText (Some ["dopri5"; "adams"; "rk4"])) (AText "rk4")); ("n_skip", Value TInt (AInt 4));
   ("i_eval", Value TInt (AInt 4)); ("shooting_dim", Value TInt (AInt 20)); ("stepsize", Value TFloat (ANum (5 # 100)));
   ("niters", Value TInt (AInt 500)); ("lr", Value TFloat (ANum (1 # 100))); ("seed", Value TInt (AInt (-1)));
   ("batch_size", Value TInt (AInt 25));
   ("shooting_model", Value (TText (Some ["simple"; "updown"; "updown_universal"])) (AText "updown"));
   ("nr_of_particles", Value TInt (AInt 25)); ("pw", Value TFloat (ANum 1)); ("sim_weight", Value TFloat (ANum 100));
   ("norm_weight", Value TFloat (ANum (1 # 100)));
   ("nonlinearity", Value (TText (Some ["identity"; "relu"; "tanh"; "sigmoid"])) (AText "relu"));
   ("inflation_factor", Value TInt (AInt 5)); ("use_particle_rnn_mode", Flag); ("use_particle_free_rnn_mode", Flag);
   ("optimize_over_data_initial_conditions", Flag);
   ("optimize_over_data_initial_conditions_type", Value (TText (Some ["direct"; "linear"; "mini_nn"])) (AText "linear"));
   ("verbose", Flag); ("save", Flag); ("gpu", Value TInt (AInt 0))].

(** balls.py:40-131 *)
Definition balls_parser : parser :=
  [("method", Value (TText (Some ["dopri5"; "adams"; "rk4"])) (AText "rk4")); ("shooting_dim", Value TInt (AInt 20));
   ("evaluate_ahead", Value TInt (AInt 10)); ("stepsize", Value TFloat (ANum (5 # 100)));
   ("niters", Value TInt (AInt 500)); ("lr", Value TFloat (ANum (1 # 100))); ("seed", Value TInt (AInt (-1)));
   ("batch_size", Value TInt (AInt 25));
   ("shooting_model", Value (TText (Some ["simple"; "updown"; "updown_universal"])) (AText "updown"));
   ("nr_of_particles", Value TInt (AInt 25)); ("pw", Value TFloat (ANum 1)); ("sim_weight", Value TFloat (ANum 100));
   ("norm_weight", Value TFloat (ANum (1 # 100)));
   ("nonlinearity", Value (TText (Some ["identity"; "relu"; "tanh"; "sigmoid"])) (AText "relu"));
   ("inflation_factor", Value TInt (AInt 5)); ("use_particle_rnn_mode", Flag); ("use_particle_free_rnn_mode", Flag);
   ("optimize_over_data_initial_conditions", Flag);
   ("optimize_over_data_initial_conditions_type", Value (TText (Some ["direct"; "linear"; "mini_nn"])) (AText "linear"));
   ("verbose", Flag); ("save_to", Value (TText None) (AText "runs/")); ("gpu", Value TInt (AInt 0))].

(** ** Array operations (torch and numpy, external) *)

(** The position of a slice bound on an axis with [n] entries: negative ones count from the end (balls.py:252-255). *)
Definition bound (n : nat) (z : Z) : nat :=
  Z.to_nat (if (z <? 0)%Z then Z.max 0 (Z.of_nat n + z) else Z.min z (Z.of_nat n)).

(** [t[:,lo:hi,...]] (balls.py:252-255, 374-375). *)
Definition slice1 {A} (lo hi : Z) (t : tensor A) : result (tensor A) :=
  match tshape t with
  | a :: n :: r =>
      Ok (tgather (a :: (bound n hi - bound n lo) :: r)
            (fun i => match i with x :: y :: z => tget t (x :: (y + bound n lo) :: z) | _ => None end))
  | _ => Raise IndexError
  end.

(** [t[n,...]] (balls.py:259). *)
Definition item0 {A} (n : nat) (t : tensor A) : result (tensor A) :=
  match tshape t with
  | m :: r => if n <? m then Ok (tgather r (fun i => tget t (n :: i))) else Raise IndexError
  | [] => Raise IndexError
  end.

(** [a - b] of arrays which may differ in the first extent; one of one is repeated, other broadcasting is left
    out (balls.py:259). *)
Definition np_sub (a b : tensor Qc) : result (tensor Qc) :=
  match tshape a, tshape b with
  | x :: r, y :: r' =>
      if eqb_list r r' && ((x =? y) || (x =? 1) || (y =? 1)) then
        Ok (tgather ((if x =? 1 then y else x) :: r)
              (fun i => match i with
                        | k :: j => match tget a ((if x =? 1 then 0 else k) :: j), tget b ((if y =? 1 then 0 else k) :: j) with
                                    | Some p, Some q => Some (p - q)%Qc
                                    | _, _ => None
                                    end
                        | [] => None
                        end))
      else Raise ValueError
  | _, _ => Raise ValueError
  end.

(** [np.mean(np.power(l, 2.0))] (rot.py:243, balls.py:259). *)
Definition mean_square (l : list Qc) : num := np_mean (map (fun x => Fin (x * x)%Qc) l).

(** [np.mean(np.power(t, 2.0), axis=(1,2))] (balls.py:259); numpy's AxisError is an IndexError. *)
Definition axis_errors (t : tensor Qc) : result (list num) :=
  match tshape t with
  | [m; h; w] => mapM (fun k => f <- item0 k t ;; Ok (mean_square (tdata f))) (seq 0 m)
  | _ => Raise IndexError
  end.

(** [t[n,i,:,:]] for an integer [i] (rot.py:243). *)
Definition item01 {A} (n : nat) (i : Z) (t : tensor A) : result (tensor A) :=
  match tshape t with
  | [a; b; h; w] =>
      if (n <? a) && (- Z.of_nat b <=? i)%Z && (i <? Z.of_nat b)%Z then
        let j := Z.to_nat (if (i <? 0)%Z then Z.of_nat b + i else i) in
        Ok (tgather [h; w] (fun k => tget t (n :: j :: k)))
      else Raise IndexError
  | _ => Raise IndexError
  end.

(** The samples with the given numbers, as a batch ([DataLoader], external; rot.py:303-306, balls.py:335-337). *)
Definition batch_at (X : tensor Qc) (idx : list nat) : tensor Qc :=
  tgather (List.length idx :: tl (tshape X))
    (fun i => match i with n :: r => match nth_error idx n with Some m => tget X (m :: r) | None => None end | [] => None end).

(** A loader with batches of 25 over samples in a given order, iterated once (rot.py:304-306, balls.py:335-337). *)
Definition batches25 (X : tensor Qc) (order : list nat) : list (tensor Qc) :=
  map (batch_at X) (batches_of (List.length order) 25 false order).

(** The number of samples ([len(X)]). *)
Definition samples (X : tensor Qc) : nat := hd 0 (tshape X).

(** One pass after the other, [k] is the number of the first one. *)
Definition passes {B : Type} (f : nat -> tensor Qc -> result B) (k : nat) (bs : list (tensor Qc)) : result (list B) :=
  mapM (fun p => f (fst p) (snd p)) (combine (seq k (List.length bs)) bs).

Section Images.
Variable value : nat -> nat -> tensor Qc -> list nat -> Qc.
Variable blk : nat -> tensor Qc -> result (tensor Qc).
Variable shuffle : nat -> nat -> list Z -> list Z.
(** The order of the training samples in each epoch ([shuffle=True]: rot.py:304, balls.py:335). *)
Variable order : nat -> list nat.
Variable d : nat.

(** ** rot.py *)
Variables n_skip i_eval : Z.

(** du.py:23-28: the first 500 sequences are for training; [view] with an open extent refuses an empty array *)
Definition load_data (X : tensor Qc) : result (tensor Qc * tensor Qc) :=
  match tshape X with
  | [] => Raise IndexError
  | M :: r =>
      a <- tslice 0 0 500 X ;;
      Xtr <- tview (tdata a) [500; 16; 1; 28; 28] ;;
      b <- tslice 0 500 M X ;;
      if List.length (tdata b) =? 0 then Raise RuntimeError
      else Xtest <- tview (tdata b) [List.length (tdata b) / prod [16; 1; 28; 28]; 16; 1; 28; 28] ;; Ok (Xtr, Xtest)
  end.

(** rot.py:332-358: a training pass *)
Definition rot_train (k : nat) (inp : tensor Qc) : result (tensor Qc) :=
  train_differences (value k) Qcminus (blk k) (shuffle k) 8 d 16 n_skip i_eval inp.

(** rot.py:237-241, 394-398: a pass in evaluation mode, with [R] and [V] *)
Definition rot_pass (k : nat) (inp : tensor Qc) : result (tensor Qc * tensor Qc) :=
  x <- first_frame inp ;;
  r <- forward_masked (value k) (blk k) (shuffle k) 8 d 16 n_skip i_eval x false ;;
  Ok (squeeze (snd r), squeeze inp).

(** rot.py:237-244: the errors of a batch *)
Definition rot_errors (k : nat) (inp : tensor Qc) : result (list num) :=
  '(R, V) <- rot_pass k inp ;;
  mapM (fun n => a <- item01 n i_eval R ;; b <- item01 n i_eval V ;; e <- np_sub a b ;; Ok (mean_square (tdata e)))
    (seq 0 (samples inp)).

(** An entry of the tracker: the epoch, the mean error and the errors (rot.py:381-388). *)
Definition rot_entry : Type := (nat * num * list num)%type.

(** rot.py:328-388: [n] epochs, the first of them has number [e] *)
Fixpoint rot_epochs (train test : tensor Qc) (n e k : nat) : result (list rot_entry * nat) :=
  match n with
  | 0 => Ok ([], k)
  | S n =>
      let bs := batches25 train (order e) in
      _ <- passes rot_train k bs ;;
      let k := k + List.length bs in
      let ts := batches25 test (seq 0 (samples test)) in
      errs <- passes rot_errors k ts ;;
      let k := k + List.length ts in
      '(rest, k) <- rot_epochs train test n (S e) k ;;
      Ok ((e, np_mean (List.concat errs), List.concat errs) :: rest, k)
  end.

(** The files of a run (rot.py:406-413). *)
Inductive rot_file := RModel | RTracker (tracker : list rot_entry) | RArgs (ns : pdict argval)
  | RImages (images : list (tensor Qc * tensor Qc)).

(** rot.py:300-413 after the setup; [directory] is runs/ with a fresh name, [None] if it cannot be made *)
Definition rot_run (X : tensor Qc) (n : nat) (save : bool) (ns : pdict argval) (directory : option string) :
    result (list (string * rot_file)) :=
  '(train, test) <- load_data X ;;
  '(tracker, k) <- rot_epochs train test n 0 0 ;;
  images <- passes rot_pass k (batches25 test (seq 0 (samples test))) ;;
  if save then
    match directory with
    | None => Raise OSError
    | Some p => Ok [((p ++ "/model.pt")%string, RModel); ((p ++ "/tracker.pkl")%string, RTracker tracker);
                    ((p ++ "/args.pkl")%string, RArgs ns); ((p ++ "/images.pkl")%string, RImages images)]
    end
  else Ok [].

(** ** balls.py *)
Variable ahead : Z.

(** balls.py:371-377: a training pass *)
Definition balls_train (k : nat) (inp : tensor Qc) : result (tensor Qc) :=
  inp <- slice1 0 20 inp ;;
  x <- slice1 0 3 inp ;;
  r <- forward (value k) (blk k) 16 d 20 (squeeze x) ;;
  tsub Qcminus (squeeze (snd r)) (squeeze inp).

(** balls.py:250-260: the errors of a batch, a list for each sample *)
Definition balls_errors (k : nat) (inp : tensor Qc) : result (list (list num)) :=
  inp <- slice1 0 20 inp ;;
  x <- slice1 0 3 inp ;;
  r <- forward (value k) (blk k) 16 d 20 (squeeze x) ;;
  R <- slice1 3 (3 + ahead) (squeeze (snd r)) ;;
  V <- slice1 3 (3 + ahead) (squeeze inp) ;;
  if samples R =? samples V then
    mapM (fun n => a <- item0 n R ;; b <- item0 n V ;; e <- np_sub a b ;; axis_errors e) (seq 0 (samples R))
  else Raise AssertionError.

(** balls.py:245-264 [evaluate]: the errors of all samples; [torch.cat] of nothing raises *)
Definition balls_evaluate (k : nat) (bs : list (tensor Qc)) : result (list (list num)) :=
  errs <- passes balls_errors k bs ;;
  match List.concat errs with [] => Raise RuntimeError | rows => Ok rows end.

(** What the files bball_model.pt and bball_stats.pkl are about: the epoch and its errors (balls.py:407-417). *)
Definition balls_file : Type := (nat * (num * list (list num)) * (num * list (list num)))%type.

(** balls.py:362-425: [n] epochs, the first of them has number [e]; [best] is the smallest error so far, [file] what is
    on disk *)
Fixpoint balls_epochs (train test val : tensor Qc) (n e k : nat) (best : option num) (file : option balls_file) :
    result unit * option balls_file :=
  match n with
  | 0 => (Ok tt, file)
  | S n =>
      let bs := batches25 train (order e) in
      let ts := batches25 test (seq 0 (samples test)) in
      let vs := batches25 val (seq 0 (samples val)) in
      match (_ <- passes balls_train k bs ;;
             test_errors <- balls_evaluate (k + List.length bs) ts ;;
             val_errors <- balls_evaluate (k + List.length bs + List.length ts) vs ;;
             Ok (test_errors, val_errors)) with
      | Raise x => (Raise x, file)
      | Ok (test_errors, val_errors) =>
          let val_error := np_mean (List.concat val_errors) in
          let b := match best with None => val_error | Some b => b end in
          let '(b, file) := if num_leb val_error b
                            then (val_error, Some (e, (val_error, val_errors), (np_mean (List.concat test_errors), test_errors)))
                            else (b, file) in
          match bs with
          | [] => (Raise ZeroDivisionError, file)
          | _ => balls_epochs train test val n (S e) (k + List.length bs + List.length ts + List.length vs) (Some b) file
          end
      end
  end.
End Images.

Section Main.
Variable value : nat -> nat -> tensor Qc -> list nat -> Qc.
(** The shooting block made from the options (rot.py:287-301, balls.py:309-321), for every pass. *)
Variable blocks : pdict argval -> nat -> tensor Qc -> result (tensor Qc).
Variable shuffle : nat -> nat -> list Z -> list Z.
Variable order : nat -> list nat.

(** The sizes which the shooting block needs (rot.py:287-301, balls.py:309-321). *)
Definition sizes (ns : pdict argval) : result (Z * Z * Z) :=
  d <- int_of "shooting_dim" ns ;; N <- int_of "nr_of_particles" ns ;; f <- int_of "inflation_factor" ns ;; Ok (d, N, f).

(** Sizes below 1: what torch does then is left open. *)
Variable rot_unusual : result (list (string * rot_file)).
(** rot.py:266-413 *)
Definition rot_main (X : tensor Qc) (directory : option string) (ns : pdict argval) : result (list (string * rot_file)) :=
  seed <- int_of "seed" ns ;; _ <- CirclesModel.check_seed seed ;;
  '(d, N, f) <- sizes ns ;;
  n_skip <- int_of "n_skip" ns ;; i_eval <- int_of "i_eval" ns ;; n <- int_of "niters" ns ;; save <- flag_of "save" ns ;;
  if ((d <? 1) || (N <? 1) || (f <? 1))%Z then rot_unusual
  else rot_run value (blocks ns) shuffle order (Z.to_nat d) n_skip i_eval X (Z.to_nat n) save ns directory.

(** The program with a command line; [None]: argparse ends it (rot.py:269). *)
Definition rot (X : tensor Qc) (directory : option string) (words : list string) : option (result (list (string * rot_file))) :=
  option_map (rot_main X directory) (parse_args rot_parser words).

(** Sizes below 1: what torch does then is left open. *)
Variable balls_unusual : result unit * option balls_file.
(** balls.py:286-425; [exists_] tells which paths exist already, [os.makedirs] refuses these (line 324) *)
Definition balls_main (Xtr Xtest Xval : tensor Qc) (exists_ : string -> bool) (ns : pdict argval) : result unit * option balls_file :=
  match (seed <- int_of "seed" ns ;; _ <- CirclesModel.check_seed seed ;; s <- sizes ns ;;
         ahead <- int_of "evaluate_ahead" ns ;; n <- int_of "niters" ns ;; out <- text_of "save_to" ns ;;
         Ok (s, ahead, n, out)) with
  | Raise x => (Raise x, None)
  | Ok ((d, N, f), ahead, n, out) =>
      if ((d <? 1) || (N <? 1) || (f <? 1))%Z then balls_unusual
      else if exists_ out then (Raise OSError, None)
      else if samples Xtr =? 0 then (Raise ValueError, None)
      else balls_epochs value (blocks ns) order (Z.to_nat d) ahead Xtr Xtest Xval (Z.to_nat n) 0 0 None None
  end.

(** The program with a command line; [None]: argparse ends it (balls.py:289). *)
Definition balls (Xtr Xtest Xval : tensor Qc) (exists_ : string -> bool) (words : list string) :
    option (result unit * option balls_file) :=
  option_map (balls_main Xtr Xtest Xval exists_) (parse_args balls_parser words).
End Main.

(** Model of [FunctionDataset] and [get_function_data_loaders] in demos/neurips20/spiral.py (spiral.py), and of the
    batches which its main program takes from the loaders.

    Simplifications: a point of the trajectory is one value; numpy's generator is a state from which positions are
    drawn; the order in which a loader visits the samples is given (shuffled by torch, or the natural one); loaders
    work in one process (num_workers=0, the default). *)
From Coq Require Import List ZArith Bool.
From Verif Require Import Base SpiralModel.
Import ListNotations.
Open Scope list_scope.
Open Scope nat_scope.

Section Loaders.
(** Times, points, and the state of numpy's generator. *)
Variables T X G : Type.
(** [np.random.choice(a, size=n)] with replacement (spiral.py:269-271): [n] positions, see [choice]. *)
Variable draw : nat -> G -> list nat * G.

(** The data (spiral.py:244-261). *)
Record data_dict : Type := mkData {
  d_y0 : X;
  d_t : list T;
  d_y : list X;
  d_uniform_sample_indices : list nat
}.

(** [generate_data] (spiral.py:242-261): [solve] integrates the true equation; [dist] is the distance of two points
    and [scale] the scaling of distances, see [create_uniform_distance_selection_array]. *)
Definition generate_data {D} (dist : X -> X -> D) (scale : list D -> list Z) (solve : X -> list T -> list X)
    (y0 : X) (t : list T) (batch_time : Z) : result data_dict :=
  let y := solve y0 t in
  idx <- create_uniform_distance_selection_array scale (map (fun pq => dist (snd pq) (fst pq)) (combine y (tl y))) batch_time ;;
  Ok (mkData y0 t y idx).

(** [get_batch] with the generator (spiral.py:264-277); start points, times, and points for each offset. *)
Definition get_batch_g (d : data_dict) (batch_size : nat) (batch_time : Z) (distance_based : bool) (g : G) :
    result (list X * list T * list (list X)) * G :=
  let (draws, g) := draw batch_size g in
  (r <- get_batch (d_y d) (List.length (d_t d)) (d_uniform_sample_indices d) batch_time distance_based draws ;;
   let '(_, y0, y) := r in Ok (y0, slice_to batch_time (d_t d), y), g).

(** [FunctionDataset] (spiral.py:287-300); [None] are the attributes [y0], [t], [y] in online mode. *)
Record dataset : Type := mkDataset {
  s_data : data_dict;
  s_validation : bool;
  s_long_range : bool;
  s_online : bool;
  s_distance_based : bool;
  s_batch_time : Z;
  s_nr : nat;
  s_y0 : option (list X);
  s_t : option (list T);
  s_y : option (list (list X))
}.

(** spiral.py:302-315 *)
Definition create_data (d : data_dict) (validation long_range distance_based : bool) (batch_time : Z) (nr : nat) (g : G) :
    result (list X * list T * list (list X)) * G :=
  if validation && long_range
  then (Ok ([d_y0 d], d_t d, map (fun p => [p]) (d_y d)), g)
  else get_batch_g d nr batch_time distance_based g.

(** spiral.py:280-300 *)
Definition function_dataset (long_range : bool) (d : data_dict) (nr : nat) (batch_time : Z)
    (distance_based validation online : bool) (g : G) : result dataset * G :=
  if negb online then
    match create_data d validation long_range distance_based batch_time nr g with
    | (Ok (y0, t, y), g) => (Ok (mkDataset d validation long_range online distance_based batch_time nr (Some y0) (Some t) (Some y)), g)
    | (Raise e, g) => (Raise e, g)
    end
  else (Ok (mkDataset d validation long_range online distance_based batch_time nr None None None), g).

(** spiral.py:317-318 *)
Definition len_dataset (s : dataset) : nat := s_nr s.

(** Indexing an attribute which is [None] (spiral.py:325). *)
Definition attribute {A} (a : option A) : result A := match a with Some x => Ok x | None => Raise TypeError end.

(** An index: a number, or a list of numbers (tensors are converted, spiral.py:321-322), or a slice. *)
Inductive index : Type := IInt (i : nat) | IList (l : list nat) | ISlice (a b : nat).

(** A sample: one window, or several (spiral.py:325, 338). *)
Inductive sample : Type := SOne (y0 : X) (y : list X) | SMany (y0 : list X) (y : list (list X)).

(** [y0[idx,...]] and [y[:,idx,...]] (spiral.py:325, 338). *)
Definition pick (y0 : list X) (y : list (list X)) (idx : index) : result sample :=
  match idx with
  | IInt i => a <- list_item y0 i ;; b <- mapM (fun row => list_item row i) y ;; Ok (SOne a b)
  | IList l => a <- mapM (list_item y0) l ;; b <- mapM (fun row => mapM (list_item row) l) y ;; Ok (SMany a b)
  | ISlice a b => Ok (SMany (slice a b y0) (map (slice a b) y))
  end.

(** spiral.py:320-340 [__getitem__]; the data set is changed in online mode. *)
Definition getitem (s : dataset) (idx : index) (g : G) : result (sample * dataset) * G :=
  if negb (s_online s) then
    (y0 <- attribute (s_y0 s) ;; y <- attribute (s_y s) ;; x <- pick y0 y idx ;; Ok (x, s), g)
  else
    match (match idx with
           | IInt _ => Ok (1, IInt 0)
           | IList l => Ok (List.length l, IList (seq 0 (List.length l)))
           | ISlice _ _ => Raise ValueError
           end) with
    | Raise e => (Raise e, g)
    | Ok (batch_size, eff_idx) =>
        match get_batch_g (s_data s) batch_size (s_batch_time s) (s_distance_based s) g with
        | (Raise e, g) => (Raise e, g)
        | (Ok (y0, t, y), g) =>
            let s := mkDataset (s_data s) (s_validation s) (s_long_range s) (s_online s) (s_distance_based s)
                       (s_batch_time s) (s_nr s) (s_y0 s) (Some t) (s_y s) in
            (x <- pick y0 y eff_idx ;; Ok (x, s), g)
        end
    end.

(** The samples of a batch (torch's loader asks for one after the other; spiral.py:556, 581). *)
Fixpoint fetch (s : dataset) (l : list nat) (g : G) : result (list (X * list X) * dataset) * G :=
  match l with
  | [] => (Ok ([], s), g)
  | i :: l =>
      match getitem s (IInt i) g with
      | (Raise e, g) => (Raise e, g)
      | (Ok (SMany _ _, s), g) => (Raise RuntimeError, g)
      | (Ok (SOne a b, s), g) =>
          match fetch s l g with
          | (Raise e, g) => (Raise e, g)
          | (Ok (r, s), g) => (Ok ((a, b) :: r, s), g)
          end
      end
  end.

(** torch's [default_collate] stacks samples along a new first axis; then [transpose(0,1)] (spiral.py:559, 584, 611):
    rows of equal length become columns. *)
Definition transpose_rows (ys : list (list X)) : result (list (list X)) :=
  match ys with
  | [] => Raise RuntimeError
  | y :: _ =>
      if forallb (fun z => Nat.eqb (List.length z) (List.length y)) ys
      then mapM (fun k => mapM (fun z => list_item z k) ys) (seq 0 (List.length y))
      else Raise RuntimeError
  end.

(** One batch as the main program uses it: [batch_y0], [batch_t], [batch_y] (spiral.py:558-559, 583-584). *)
Definition one_batch (s : dataset) (l : list nat) (g : G) : result (list X * list T * list (list X) * dataset) * G :=
  match fetch s l g with
  | (Raise e, g) => (Raise e, g)
  | (Ok (r, s), g) => (y <- transpose_rows (map snd r) ;; t <- attribute (s_t s) ;; Ok (map fst r, t, y, s), g)
  end.

(** A loader: data set, batch size, shuffling (spiral.py:353-377); always [drop_last]. *)
Record loader : Type := mkLoader { l_dataset : dataset; l_batch_size : Z; l_shuffle : bool }.

(** torch's [DataLoader(...)]: batch sizes below one are refused (spiral.py:353-377). *)
Definition data_loader (s : dataset) (batch_size : Z) (shuffle : bool) : result loader :=
  if (batch_size <=? 0)%Z then Raise ValueError else Ok (mkLoader s batch_size shuffle).

(** The index lists of the batches, the last incomplete one dropped (spiral.py:356). *)
Definition index_batches (b : nat) (order : list nat) : list (list nat) :=
  map (fun i => firstn b (skipn (i * b) order)) (seq 0 (List.length order / b)).

(** Iterating over a loader (spiral.py:556-559, 580-584); [order] is the order of the samples. *)
Fixpoint batches (s : dataset) (ls : list (list nat)) (g : G) : result (list (list X * list T * list (list X)) * dataset) * G :=
  match ls with
  | [] => (Ok ([], s), g)
  | l :: ls =>
      match one_batch s l g with
      | (Raise e, g) => (Raise e, g)
      | (Ok (y0, t, y, s), g) =>
          match batches s ls g with
          | (Raise e, g) => (Raise e, g)
          | (Ok (r, s), g) => (Ok ((y0, t, y) :: r, s), g)
          end
      end
  end.

(** [for batch in loader] (spiral.py:556-559). *)
Definition iterate (l : loader) (order : list nat) (g : G) : result (list (list X * list T * list (list X)) * dataset) * G :=
  batches (l_dataset l) (index_batches (Z.to_nat (l_batch_size l)) (if l_shuffle l then order else seq 0 (len_dataset (l_dataset l)))) g.

(** spiral.py:342-379 *)
Definition get_function_data_loaders (batch_time batch_size : Z) (disable_distance_based long_range : bool) (d : data_dict)
    (training_samples training_evaluation_samples short_range_testing_samples testing_samples : nat) (g : G) :
    result (loader * loader * loader * loader) * G :=
  let distance_based := negb disable_distance_based in
  let testing_samples := if long_range then 1 else testing_samples in
  let load nr validation online size shuffle g :=
    match function_dataset long_range d nr batch_time distance_based validation online g with
    | (Ok s, g) => (data_loader s size shuffle, g)
    | (Raise e, g) => (Raise e, g)
    end in
  match load training_samples false true batch_size true g with
  | (Raise e, g) => (Raise e, g)
  | (Ok train, g) =>
  match load training_evaluation_samples false false (Z.of_nat training_evaluation_samples) false g with
  | (Raise e, g) => (Raise e, g)
  | (Ok train_eval, g) =>
  match load short_range_testing_samples false false (Z.of_nat short_range_testing_samples) false g with
  | (Raise e, g) => (Raise e, g)
  | (Ok short_range, g) =>
  match load testing_samples true false (Z.of_nat testing_samples) false g with
  | (Raise e, g) => (Raise e, g)
  | (Ok test, g) => (Ok (train, train_eval, short_range, test), g)
  end end end end.
End Loaders.

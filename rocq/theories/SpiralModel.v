(** Model of the sampling and chunking functions of demos/neurips20/spiral.py
    (cited as spiral.py). *)
From Coq Require Import List ZArith Bool Lia.
From Verif Require Import Base.
Import ListNotations.

Section Spiral.
(** Times and trajectory points; the code only moves them around here. *)
Variables T X : Type.

(** Python's [l[a:b]] for [0 <= a <= b]. *)
Definition slice {A} (a b : nat) (l : list A) : list A := firstn (b - a) (skipn a l).

(** spiral.py:391-404: the loop.  [None]: the fuel ran out before the loop ended. *)
Fixpoint chunk_loop (fuel : nat) (t : list T) (chunk_time : nat) (from_zero : bool) (cur_idx : nat)
    : option (list (list T)) :=
  match fuel with
  | O => None
  | S fuel' =>
      let last_t := List.length t in
      let stop := Nat.leb last_t (cur_idx + chunk_time) in
      let desired_idx := if stop then last_t else cur_idx + chunk_time in
      let current_chunk := if from_zero then slice 0 (desired_idx - cur_idx) t
                           else slice cur_idx desired_idx t in
      if stop then Some [current_chunk]
      else match chunk_loop fuel' t chunk_time from_zero (desired_idx - 1) with
           | Some cs => Some (current_chunk :: cs)
           | None => None
           end
  end.

(** spiral.py:381-406 *)
Definition get_time_chunks (fuel : nat) (t : list T) (chunk_time : Z) (from_zero : bool)
    : option (list (list T)) :=
  if (chunk_time <=? 0)%Z then Some [t]
  else chunk_loop fuel t (Z.to_nat chunk_time) from_zero 0.

(** A forward pass of the shooting block for a time vector (C22-C28, external
    integrator): a point for each time. *)
Variable solve : list T -> X -> list X.
(** A zero of the size of the data (spiral.py:413). *)
Variable zero : X.

(** spiral.py:426: assigning the rows [a] to [b-1] (a size mismatch is an error;
    broadcasting of a single row is not modelled). *)
Definition write (a n : nat) (rows : list X) (v : list X) : result (list X) :=
  if Nat.eqb (List.length rows) (Nat.min n (List.length v - a))
  then Ok (firstn a v ++ rows ++ skipn (a + List.length rows) v)
  else Raise RuntimeError.

(** spiral.py:418-427: the loop over the chunks; [first] tells the first turn. *)
Fixpoint validate_loop (chunks : list (list T)) (y0 : X) (first : bool) (cur_idx : nat) (v : list X)
    : result (list X) :=
  match chunks with
  | [] => Ok v
  | c :: rest =>
      x <- (if first then Ok y0 else list_item v cur_idx) ;;
      v' <- write cur_idx (List.length c) (solve c x) v ;;
      validate_loop rest y0 false (cur_idx + List.length c - 1) v'
  end.

(** spiral.py:408-434, the predictions (the norm penalty is left out).  [None]: chunking does
    not end within the fuel. *)
Definition compute_validation_data (fuel : nat) (t : list T) (y0 : X) (with_long_range : bool)
    (chunk_time : Z) (from_zero : bool) : option (result (list X)) :=
  if with_long_range then
    match get_time_chunks fuel t chunk_time from_zero with
    | None => None
    | Some chunks => Some (validate_loop chunks y0 true 0 (repeat zero (List.length t)))
    end
  else Some (Ok (solve t y0)).

(** Python's [l[0:stop]] for any integer [stop]: negative counts from the end. *)
Definition slice_to {A} (stop : Z) (l : list A) : list A :=
  firstn (Z.to_nat (if (stop <? 0)%Z then Z.of_nat (List.length l) + stop else stop)) l.

(** spiral.py:225-240.  [dists] are the distances of consecutive points (one
    fewer than points); [scale] is the scaling, rounding and integer
    conversion of line 233, whose [min()] raises RuntimeError when nothing is left.
    [-(batch_time-1)] is zero for [batch_time=1], and [dists[0:0]] is empty. *)
Definition create_uniform_distance_selection_array {D} (scale : list D -> list Z)
    (dists : list D) (batch_time : Z) : result (list nat) :=
  let kept := slice_to (- (batch_time - 1)) dists in
  match kept with
  | [] => Raise RuntimeError
  | _ => Ok (flat_map (fun i_sd => repeat (fst i_sd) (Z.to_nat (snd i_sd)))
                      (combine (seq 0 (List.length (scale kept))) (scale kept)))
  end.

(** numpy's [random.choice] with replacement: [draws] are the random positions, one per sample.
    An empty array raises ValueError. *)
Definition choice (a : list nat) (draws : list nat) : result (list nat) :=
  match a with
  | [] => Raise ValueError
  | _ => Ok (map (fun d => nth (d mod List.length a) a 0) draws)
  end.

(** spiral.py:264-277.  [y] is the trajectory, [uniform_sample_indices] the array built above;
    returned are the start points and, for each offset, the points ([torch.stack] of
    nothing raises RuntimeError). *)
Definition get_batch (y : list X) (t_len : nat) (uniform_sample_indices : list nat)
    (batch_time : Z) (distance_based : bool) (draws : list nat)
    : result (list nat * list X * list (list X)) :=
  s <- choice (if distance_based then uniform_sample_indices
               else seq 0 (Z.to_nat (Z.of_nat t_len - batch_time))) draws ;;
  batch_y0 <- mapM (list_item y) s ;;
  batch_y <- mapM (fun i => mapM (fun k => list_item y (k + i)) s) (seq 0 (Z.to_nat batch_time)) ;;
  match batch_y with
  | [] => Raise RuntimeError
  | _ => Ok (s, batch_y0, batch_y)
  end.
End Spiral.
Arguments slice {A}.
Arguments get_time_chunks {T}.
Arguments chunk_loop {T}.
Arguments validate_loop {T X}.
Arguments compute_validation_data {T X}.
Arguments write {X}.
Arguments get_batch {X}.
Arguments slice_to {A}.

(** Model of [random_point_in_sphere] and [ConcentricSphere] in
    demos/neurips20/utils.py ([utils.py]), and of the metrics of
    demos/neurips20/cc.py ([cc.py]).

    Simplifications: floats are real numbers; the random generators are streams
    of values given as arguments, the i-th use taking the i-th value; a zero
    direction, which torch would turn into NaN, is an error value. *)
From Coq Require Import List Reals ZArith Arith.
From Verif Require Import Base.
Import ListNotations.
Open Scope R_scope.

(** [torch.norm(v, 2)] (utils.py:38). *)
Definition norm2 (v : list R) : R := sqrt (fold_right (fun x s => x * x + s) 0 v).

(** [u ** (1. / dim)] for [u] in [0, 1) (utils.py:36). *)
Definition root (dim : nat) (u : R) : result R :=
  match dim with
  | O => Raise ZeroDivisionError
  | _ => Ok (if Req_EM_T u 0 then 0 else Rpower u (1 / INR dim))
  end.

(** utils.py:34-39 [random_point_in_sphere]; [u] is the value of [random()], [dir]
    that of [torch.randn(dim)]. *)
Definition random_point_in_sphere (u : R) (dir : list R) (dim : nat) (min_radius max_radius : R) :
    result (list R) :=
  r <- root dim u ;;
  let distance := (max_radius - min_radius) * r + min_radius in
  if Req_EM_T (norm2 dir) 0 then Raise RuntimeError
  else Ok (map (fun x => distance * (x / norm2 dir)) dir).

(** utils.py:54-58 and 61-65: the loop generating [num] points of one sphere with
    one label, using the random values from number [from] on. *)
Definition sphere (us : nat -> R) (dirs : nat -> list R) (dim : nat) (range : R * R) (label : R) (from num : nat) :
    result (list (list R * R)) :=
  mapM (fun i => p <- random_point_in_sphere (us i) (dirs i) dim (fst range) (snd range) ;; Ok (p, label))
       (seq from num).

(** utils.py:42-66 [ConcentricSphere.__init__]; [__getitem__] and [__len__]
    (utils.py:68-72) are those of the list returned. *)
Definition concentric_sphere (us : nat -> R) (dirs : nat -> list R) (dim : nat) (inner_range outer_range : R * R)
    (num_points_inner num_points_outer : nat) : result (list (list R * R)) :=
  inner <- sphere us dirs dim inner_range 0 0%nat num_points_inner ;;
  outer <- sphere us dirs dim outer_range 1 num_points_inner num_points_outer ;;
  Ok (inner ++ outer).

(** [F.binary_cross_entropy_with_logits] of one output (external, the formula used
    by torch; cc.py:289, 307). *)
Definition bce_with_logits (x y : R) : R := Rmax x 0 - x * y + ln (1 + exp (- Rabs x)).

(** [torch.round]: half to even (external; cc.py:308). *)
Definition round_even (x : R) : R :=
  let n := Int_part x in
  if Rlt_dec (x - IZR n) (1 / 2) then IZR n
  else if Rlt_dec (1 / 2) (x - IZR n) then IZR (n + 1)
  else if Z.even n then IZR n else IZR (n + 1).

(** [torch.sigmoid] (external; cc.py:308). *)
Definition sigmoid (x : R) : R := 1 / (1 + exp (- x)).

(** A Python float divided by a length (cc.py:296, 311). *)
Definition rdiv (x : R) (n : nat) : result R :=
  match n with O => Raise ZeroDivisionError | _ => Ok (x / INR n) end.

Section Test.
  Context {X : Type}.
  (** The outputs of the model in evaluation mode for a batch (cc.py:306). *)
  Variable forward : list X -> list R.

  (** cc.py:304-309, one batch: adding to the loss and to the number of correct
      predictions. *)
  Definition test_batch (acc : R * nat) (batch : list (X * R)) : R * nat :=
    let output := forward (map fst batch) in
    let target := map snd batch in
    let pairs := combine output target in
    (fst acc + fold_right Rplus 0 (map (fun p => bce_with_logits (fst p) (snd p)) pairs),
     (snd acc + length (filter (fun p => if Req_EM_T (round_even (sigmoid (fst p))) (snd p) then true else false) pairs))%nat).

  (** cc.py:299-311 [test]; [n] is [len(test_loader.dataset)]. *)
  Definition test (batches : list (list (X * R))) (n : nat) : result (R * R) :=
    let (test_loss, correct) := fold_left test_batch batches (0, 0%nat) in
    a <- rdiv test_loss n ;;
    b <- rdiv (100 * INR correct) n ;;
    Ok (a, b).
End Test.

(** The mean of a list (external: the default reduction of the loss, cc.py:289);
    torch gives NaN for no values, here an error value. *)
Definition rmean (l : list R) : result R :=
  match l with [] => Raise RuntimeError | _ => Ok (fold_right Rplus 0 l / INR (length l)) end.

(** cc.py:284-296, the loss returned by [train], from the losses of the single
    samples at the time their batch is used. *)
Definition train_loss (sim_weight : R) (sample_losses : list (list R)) : result R :=
  total <- foldM (fun t l => m <- rmean l ;; Ok (t + sim_weight * m)) sample_losses 0 ;;
  rdiv total (length sample_losses).

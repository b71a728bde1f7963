(** Model of the data, the losses, the saved values and the plotted range of
    demos/neurips20/simple_functional_mapping_example.py ([sfm.py]), and of the losses
    and saved values of demos/neurips20/spiral.py ([spiral.py]).

    Simplifications: floats are real numbers; a tensor of shape [n,1,1] is the list of
    its entries; [torch.rand] is a stream of values given as an argument; the
    predictions of a network and the norm penalty of a block are arguments. *)
From Coq Require Import String.
From Coq Require Import List Reals ZArith Bool.
From Verif Require Import Base DataModel.
Import ListNotations.
Open Scope list_scope.
Open Scope R_scope.

(** sfm.py:124-130 [fcn]: the function chosen by name. *)
Definition fcn (fcn_type : string) : result (R -> R) :=
  if String.eqb fcn_type "cubic" then Ok (fun x => x ^ 3)
  else if String.eqb fcn_type "quadratic" then Ok (fun x => x ^ 2 + 3 / (1 + x ^ 2))
  else Raise ValueError.

(** [torch.linspace(a, b, n)] (external; sfm.py:149). *)
Definition linspace (a b : R) (n : nat) : list R :=
  match n with
  | 1%nat => [a]
  | _ => map (fun i => a + INR i * ((b - a) / (INR n - 1))) (seq 0 n)
  end.

(** sfm.py:141-145; [u] are the values of [torch.rand]. *)
Definition get_sample_batch (u : nat -> R) (n : nat) (max_x : R) (fcn_type : string) :
    result (list R * list R) :=
  let input := map (fun i => (2 * max_x) * u i - max_x) (seq 0 n) in
  f <- fcn fcn_type ;; Ok (input, map f input).

(** sfm.py:147-152 *)
Definition get_uniform_sample_batch (n : nat) (max_x : R) (fcn_type : string) : result (list R * list R) :=
  let input := linspace (- max_x) max_x n in
  f <- fcn fcn_type ;; Ok (input, map f input).

(** sfm.py:154-178 [FunctionDataset], as the list of its samples. *)
Definition function_dataset (u : nat -> R) (n : nat) (uniform_sample : bool) (max_x : R) (fcn_type : string) :
    result (list (R * R)) :=
  d <- (if uniform_sample then get_uniform_sample_batch n max_x fcn_type
        else get_sample_batch u n max_x fcn_type) ;;
  Ok (combine (fst d) (snd d)).

(** sfm.py:180-202 [get_function_data_loaders], with the numbers of samples given:
    training, test, training evaluation and visualisation loader; [u] and [v] are the
    values of [torch.rand] for the first and the second data set. *)
Definition get_function_data_loaders (u v : nat -> R) (order : list (R * R) -> list (R * R))
    (training_samples training_evaluation_samples testing_samples visualization_samples : nat)
    (batch_size : Z) (max_x : R) (fcn_type : string) :
    result (list (list (R * R)) * list (list (R * R)) * list (list (R * R)) * list (list (R * R))) :=
  d <- function_dataset u training_samples false max_x fcn_type ;;
  train <- loader batch_size true true order d ;;
  d <- function_dataset v training_evaluation_samples false max_x fcn_type ;;
  train_eval <- loader (Z.of_nat training_evaluation_samples) false true order d ;;
  d <- function_dataset v testing_samples true max_x fcn_type ;;
  test <- loader (Z.of_nat testing_samples) false true order d ;;
  d <- function_dataset v visualization_samples true max_x fcn_type ;;
  vis <- loader (Z.of_nat visualization_samples) false true order d ;;
  Ok (train, test, train_eval, vis).

(** [torch.mean] of a non-empty tensor. *)
Definition t_mean (l : list R) : R := fold_right Rplus 0 l / INR (length l).

(** The options for the losses (sfm.py:70, 71, 78; spiral.py:66, 67). *)
Record weights : Type := mkWeights { sim_weight : R; norm_weight : R; no_penalty : bool }.

(** The values returned by [compute_loss], without the predictions. *)
Record losses : Type := mkLosses { l_loss : R; l_sim : R; l_norm : R; l_penalty : R }.

(** sfm.py:334-373 [compute_loss], from the predictions on (sfm.py:355-373); [penalty]
    is [sblock.get_norm_penalty()]. *)
Definition sfm_compute_loss (w : weights) (use_shooting : bool) (penalty : R) (pred out : list R) : losses :=
  let sim := sim_weight w * t_mean (map (fun p => (fst p - snd p) ^ 2) (combine pred out)) in
  if use_shooting then
    let norm := if no_penalty w then 0 else norm_weight w * penalty in
    mkLosses (sim + norm) sim norm penalty
  else mkLosses sim sim (norm_weight w * 0) 0.

(** Euclidean norm of the difference of two points (spiral.py:451). *)
Definition dist2 (p q : list R) : R :=
  sqrt (fold_right Rplus 0 (map (fun x => (fst x - snd x) ^ 2) (combine p q))).

(** spiral.py:437-462 [compute_loss], from the predictions on (spiral.py:448-462); the
    tensors are lists of points. *)
Definition spiral_compute_loss (w : weights) (sim_norm : string) (penalty : R) (pred y : list (list R)) :
    result losses :=
  sim <- (if String.eqb sim_norm "l1" then
            Ok (sim_weight w * t_mean (map (fun x => Rabs (fst x - snd x)) (combine (concat pred) (concat y))))
          else if String.eqb sim_norm "l2" then
            Ok (sim_weight w * t_mean (map (fun x => dist2 (fst x) (snd x)) (combine pred y)))
          else Raise ValueError) ;;
  let norm := if no_penalty w then 0 else norm_weight w * penalty in
  Ok (mkLosses (sim + norm) sim norm penalty).

(** sfm.py:692-695, spiral.py:649-652: the entries of [values_to_save], and with the
    prefix [short_range_] spiral.py:673-676. *)
Definition saved_values (prefix : string) (l : losses) : list (string * R) :=
  [(append prefix "test_loss", l_loss l); (append prefix "sim_loss", l_sim l);
   (append prefix "norm_loss", l_norm l); (append prefix "norm_penalty", l_norm l)]%string.

(** sfm.py:375-396 [_show_figure]: the range plotted in direction y, and the height of
    the figure before rounding (sfm.py:390). *)
Definition y_range (xrange : R) (fcn_type : string) : result (R * R) :=
  f <- fcn fcn_type ;;
  let max_y := Rmax (Rabs (f (- xrange))) (Rabs (f xrange)) in
  min_y <- (if String.eqb fcn_type "cubic" then Ok (- max_y)
            else if String.eqb fcn_type "quadratic" then Ok (225 / 100)
            else Raise ValueError) ;;
  if Req_EM_T (2 * xrange) 0 then Raise ZeroDivisionError else Ok (min_y, max_y).

(** Properties C93, C96, C97: data, losses and figures of
    simple_functional_mapping_example.py (sfm.py) and spiral.py. *)
From Coq Require Import String.
From Coq Require Import List Reals ZArith Lia Lra Permutation.
From Verif Require Import Base DataModel FunctionalDataModel FunctionalDataSpec FunctionalDataProofs.
Import ListNotations.
Open Scope list_scope.
Open Scope R_scope.

(** C93, as expected by a user, asks that the value saved as [norm_penalty] is the norm
    penalty of the block.  False, with the default weights of spiral.py (100 for the
    similarity, 0.01 for the penalty): a penalty of 100 is saved as 1. *)
Theorem C93_saved_penalty_refuted : exists pred y l,
  spiral_compute_loss (mkWeights 100 (1 / 100) false) "l2" 100 pred y = Ok l /\
  l_penalty l = 100 /\ saved_under "norm_penalty" (saved_values "" l) 1.
Proof.
  exists [[0; 0]], [[0; 0]]. eexists. split; [reflexivity|]. split; [reflexivity|].
  right. split; [discriminate|]. right. split; [discriminate|]. right. split; [discriminate|].
  left. split; [reflexivity|]. cbn. field.
Qed.
Print Assumptions C93_saved_penalty_refuted.

(** C93 for sfm.py: the saved similarity loss is the weighted mean square error, the
    saved norm loss the weighted penalty (or zero when switched off), the saved test
    loss their sum; the saved norm penalty is right exactly when the penalty is zero,
    or used with weight one.  Missing from the full statement: other weights. *)
Theorem C93_sfm_partial : forall w penalty pred out, pred <> [] -> length pred = length out ->
  let l := sfm_compute_loss w true penalty pred out in
  let d := saved_values "" l in
  exists sim norm,
    sim = sim_weight w * (square_error pred out / INR (length pred)) /\
    norm = (if no_penalty w then 0 else norm_weight w * penalty) /\
    saved_under "test_loss" d (sim + norm) /\ saved_under "sim_loss" d sim /\ saved_under "norm_loss" d norm /\
    (saved_under "norm_penalty" d penalty <-> penalty = 0 \/ (no_penalty w = false /\ norm_weight w = 1)).
Proof. exact sfm_saved. Qed.
Print Assumptions C93_sfm_partial.

(** C93 for spiral.py, for both sets of saved values (prefix empty or [short_range_]):
    the similarity loss is the weighted mean deviation by the norm asked for; norms
    other than l1 and l2 are refused. *)
Theorem C93_spiral_partial : forall prefix w sim_norm penalty pred y l, concat pred <> [] ->
  Forall2 (fun a b => length a = length b) pred y ->
  spiral_compute_loss w sim_norm penalty pred y = Ok l ->
  let d := saved_values prefix l in
  exists m sim norm,
    mean_deviation sim_norm pred y m /\ sim = sim_weight w * m /\
    norm = (if no_penalty w then 0 else norm_weight w * penalty) /\
    saved_under (append prefix "test_loss") d (sim + norm) /\ saved_under (append prefix "sim_loss") d sim /\
    saved_under (append prefix "norm_loss") d norm /\
    (saved_under (append prefix "norm_penalty") d penalty <-> penalty = 0 \/ (no_penalty w = false /\ norm_weight w = 1)).
Proof. exact spiral_saved. Qed.
Print Assumptions C93_spiral_partial.

Theorem C93_spiral_norms : forall w sim_norm penalty pred y,
  (sim_norm = "l1" \/ sim_norm = "l2")%string <-> exists l, spiral_compute_loss w sim_norm penalty pred y = Ok l.
Proof. exact spiral_accepts. Qed.
Print Assumptions C93_spiral_norms.

(** Two predictions, off by 1 and 3: the mean square error is 5. *)
Example C93_case :
  square_error [1; 4] [0; 1] / INR (length [1; 4]) = 5 /\
  l_loss (sfm_compute_loss (mkWeights 2 3 false) true 7 [1; 4] [0; 1]) = 31 /\
  (exists l, spiral_compute_loss (mkWeights 2 3 true) "l1" 7 [[1; 4]] [[0; 1]] = Ok l /\ l_loss l = 4) /\
  spiral_compute_loss (mkWeights 2 3 true) "l3" 7 [[1; 4]] [[0; 1]] = Raise ValueError.
Proof.
  split; [cbn; field|]. split; [cbn; unfold t_mean; cbn; field|]. split; [|reflexivity].
  eexists. split; [reflexivity|]. cbn. unfold t_mean. cbn.
  rewrite (Rabs_pos_eq (1 - 0)), (Rabs_pos_eq (4 - 1)) by lra. field.
Qed.

(** C96: the loaders present samples of the asked function with inputs in the asked
    range; the test, training evaluation and visualisation loaders consist of one
    batch with all their samples, the training loader of full batches without
    repetition. *)
Theorem C96_function_data : forall u v order n1 n2 n3 n4 b m t,
  0 <= m -> (forall i, 0 <= u i < 1) -> (forall i, 0 <= v i < 1) -> (forall l, Permutation (order l) l) ->
  (t = "cubic" \/ t = "quadratic")%string -> (0 < b)%Z -> (n1 <> 0 /\ n2 <> 0 /\ n3 <> 0 /\ n4 <> 0)%nat ->
  exists train test train_eval vis,
    get_function_data_loaders u v order n1 n2 n3 n4 b m t = Ok (train, [test], [train_eval], [vis]) /\
    length train_eval = n2 /\ length test = n3 /\ length vis = n4 /\
    Forall (fun c => Z.of_nat (length c) = b) train /\ length train = (n1 / Z.to_nat b)%nat /\
    (exists ds, length ds = n1 /\ exists rest, Permutation (concat train ++ rest) ds) /\
    forall s, In s (concat train ++ test ++ train_eval ++ vis) -> - m <= fst s <= m /\ target t (fst s) (snd s).
Proof. exact get_loaders_ok. Qed.
Print Assumptions C96_function_data.

(** C96: the inputs of the uniform data sets are equidistant, from one end of the range
    to the other. *)
Theorem C96_uniform : forall u n m t ds, function_dataset u n true m t = Ok ds -> (2 <= n)%nat ->
  forall i, (i < n)%nat -> exists y, nth_error ds i = Some (- m + 2 * m * INR i / INR (n - 1), y).
Proof. exact uniform_dataset_points. Qed.
Print Assumptions C96_uniform.

(** C96: every input of the range can be drawn by the random data sets, at every place. *)
Theorem C96_random_inputs : forall n m t i x, 0 < m -> (t = "cubic" \/ t = "quadratic")%string ->
  (i < n)%nat -> - m <= x < m ->
  exists u ds y, (forall j, 0 <= u j < 1) /\ function_dataset u n false m t = Ok ds /\ nth_error ds i = Some (x, y).
Proof. exact random_covers. Qed.
Print Assumptions C96_random_inputs.

(** C96: other functions are refused. *)
Theorem C96_unknown : forall t, t <> "cubic"%string -> t <> "quadratic"%string -> fcn t = Raise ValueError.
Proof. exact fcn_unknown. Qed.
Print Assumptions C96_unknown.

(** Three uniform samples of the cube on [-2,2]; a function that does not exist. *)
Example C96_case :
  (exists y0 y1 y2 x0 x1 x2, function_dataset (fun _ => 0) 3 true 2 "cubic" = Ok [(x0, y0); (x1, y1); (x2, y2)] /\
     x0 = -2 /\ x1 = 0 /\ x2 = 2 /\ y0 = -8 /\ y1 = 0 /\ y2 = 8) /\
  function_dataset (fun _ => 0) 3 true 2 "sine" = Raise ValueError.
Proof.
  split; [|reflexivity]. do 6 eexists. split; [reflexivity|]. cbn. repeat split; field.
Qed.

(** C97, as expected by a user, asks that the figures show all data points.  False: for
    the quadratic function on [-1,1] the point (0,3) lies above the plotted range. *)
Theorem C97_plot_range_refuted : exists lo hi,
  y_range 1 "quadratic" = Ok (lo, hi) /\ target "quadratic" 0 3 /\ hi < 3.
Proof.
  unfold y_range. cbn [fcn String.eqb Ascii.eqb Bool.eqb bind]. destruct (Req_EM_T (2 * 1) 0); [lra|].
  do 2 eexists. split; [reflexivity|]. split; [right; split; [reflexivity|ring]|].
  replace ((- (1)) ^ 2 + 3 / (1 + (- (1)) ^ 2)) with (5 / 2) by field. replace (1 ^ 2 + 3 / (1 + 1 ^ 2)) with (5 / 2) by field.
  rewrite Rabs_pos_eq by lra. rewrite Rmax_left by lra. lra.
Qed.
Print Assumptions C97_plot_range_refuted.

(** C97 for the cubic function: all points of the function on the range are shown. *)
Theorem C97_cubic : forall r, 0 < r -> exists lo hi, y_range r "cubic" = Ok (lo, hi) /\
  forall x y, - r <= x <= r -> target "cubic" x y -> lo <= y <= hi.
Proof. exact y_range_cubic. Qed.
Print Assumptions C97_cubic.

(** C97 for the quadratic function: no point is below the plotted range, and none is
    above it if and only if the square of the range is at least 2 (as it is for the
    default 1.5).  Missing from the full statement: smaller ranges. *)
Theorem C97_quadratic_partial : forall r, 0 < r -> exists lo hi, y_range r "quadratic" = Ok (lo, hi) /\
  lo < hi /\
  (forall x y, target "quadratic" x y -> lo < y) /\
  ((forall x y, - r <= x <= r -> target "quadratic" x y -> y <= hi) <-> 2 <= r * r).
Proof. exact y_range_quadratic. Qed.
Print Assumptions C97_quadratic_partial.

Example C97_case : 0 < 3 / 2 /\ 2 <= 3 / 2 * (3 / 2) /\ target "cubic" 2 8 /\ target "quadratic" 1 (5 / 2) /\
  y_range 0 "cubic" = Raise ZeroDivisionError.
Proof.
  split; [lra|]. split; [lra|]. split; [left; split; [reflexivity|ring]|]. split; [right; split; [reflexivity|field]|].
  unfold y_range. cbn [fcn String.eqb Ascii.eqb Bool.eqb bind]. destruct (Req_EM_T (2 * 0) 0); [reflexivity|lra].
Qed.

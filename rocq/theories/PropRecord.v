(** C121, C122: recordings of fixed-step integrations and their complexity measure. *)
From Coq Require Import List String Arith ZArith QArith Qcanon Reals Lra Lia Sorting.Sorted.
From Verif Require Import Base Tensor EnergyModel FixedGridModel FixedGridSpec HooksModel HooksSpec HooksProofs ComplexityModel ComplexitySpec.
From Verif Require Import RecordModel RecordSpec RecordProofs RecordProofs2 RecordProofs3 RecordProofs4 RecordProofs5 RecordProofs6 RecordExamples SpiralModel.
Import ListNotations.
Open Scope string_scope.
Open Scope list_scope.
Open Scope nat_scope.

(** ** C121.  Integrations with the hook return what those without it return, and the times recorded are, step by
    step, the ones at which the method evaluates: at the start (euler), at start and middle (midpoint), at start,
    both thirds and end (rk4). *)
Theorem C121_recorded_times :
  forall (X : Type) (add : X -> X -> X) (mul : Qc -> X -> X) (nuc spec : tensor R -> R) f args,
  usual_arguments args -> forall name step se,
  method_eff add mul (hooked nuc spec f args) name = Some se -> method add mul f name = Some step ->
  forall h, (0 < h)%Qc -> forall runs, good_times (map snd runs) ->
  exists grids values d,
    Forall2 (fun r g => grid h (first (snd r)) (final_time (snd r)) g) runs grids /\
    Forall2 (fun r v => fixed_grid add mul step (Some h) (fst r) (snd r) = Ok v) runs values /\
    evaluations (fixed_grid_eff add mul se (Some h)) runs (HRecord []) = (Ok values, HRecord d) /\
    series d "t" = map (fun t => VNum (qr t)) (flat_map (run_times name) grids).
Proof. exact @recorded_times. Qed.
Print Assumptions C121_recorded_times.

Example C121_case :
  usual_arguments ex_args /\
  good_times [[0%Qc; 1%Qc]; [0%Qc; Q2Qc (1 # 2); Q2Qc 2]] /\
  run_times "rk4" [0%Qc; Q2Qc (3 # 4); 1%Qc] =
    [0%Qc; Q2Qc (1 # 4); Q2Qc (1 # 2); Q2Qc (3 # 4); Q2Qc (3 # 4); Q2Qc (5 # 6); Q2Qc (11 # 12); 1%Qc] /\
  grid (Q2Qc (3 # 4)) 0%Qc 1%Qc [0%Qc; Q2Qc (3 # 4); 1%Qc].
Proof.
  split; [exact ex_usual|]. split; [|split].
  - repeat constructor.
  - cbn [run_times steps flat_map combine tl stage_times String.eqb Ascii.eqb Bool.eqb app].
    repeat (apply f_equal2; [apply Qc_is_canon; reflexivity|]). reflexivity.
  - exists 1. split; [|split; [reflexivity|discriminate]]. cbn [seq map app]. repeat (apply f_equal2; [apply Qc_is_canon; reflexivity|]). reflexivity.
Qed.

(** If an evaluation raises (the integrand or a hook), the exception ends the runs and everything recorded up to then,
    including this evaluation's, stays recorded. *)
Theorem C121_recorded_before_exceptions :
  forall (X : Type) (add : X -> X -> X) (mul : Qc -> X -> X) (g : Qc -> X -> result X) name se h runs,
  method_eff add mul (fun t y times => (g t y, times ++ [t])) name = Some se -> (0 < h)%Qc -> good_times (map snd runs) ->
  exists grids, Forall2 (fun r gr => grid h (first (snd r)) (final_time (snd r)) gr) runs grids /\
    match evaluations (fixed_grid_eff add mul se (Some h)) runs [] with
    | (Ok _, times) => times = flat_map (run_times name) grids
    | (Raise e, times) => exists before t later, flat_map (run_times name) grids = before ++ t :: later /\
        times = before ++ [t] /\ exists y, g t y = Raise e
    end.
Proof. exact @failing_recordings. Qed.
Print Assumptions C121_recorded_before_exceptions.

(** Steps of 1/2 by the midpoint rule; the evaluation at 3/4 raises. *)
Example C121_exceptions_case : exists se,
  method_eff Qcplus Qcmult (fun t y times => (if Qc_eq_bool t (Q2Qc (3 # 4)) then Raise KeyError else Ok y, times ++ [t])) "midpoint" = Some se /\
  evaluations (fixed_grid_eff Qcplus Qcmult se (Some (Q2Qc (1 # 2)))) [(1%Qc, [0%Qc; Q2Qc 2])] [] =
    (Raise KeyError, [0%Qc; Q2Qc (1 # 4); Q2Qc (1 # 2); Q2Qc (3 # 4)]).
Proof.
  eexists. split; [reflexivity|]. vm_compute. apply f_equal2; [reflexivity|].
  repeat (apply f_equal2; [apply Qc_is_canon; reflexivity|]). reflexivity.
Qed.

(** ** C122.  False for euler and midpoint: nothing is recorded after the last evaluation, so the last step, or half
    of it, is missing.  The weight is constant, the measure should be 1 * log2 4. *)
Theorem C122_whole_time_refuted :
  forall name, In name ["euler"; "midpoint"] ->
  exists values d m,
    ex_run name (Q2Qc (1 # 2)) [0%Qc; 1%Qc] = (Ok values, HRecord d) /\
    compute_complexity_measures (numeric d) = Ok (EFin m, EFin m, EFin m) /\
    (forall t y, sum_of_norms sum_squares (h_pars (ex_args t y)) = 4)%R /\
    (m < total_time [[0%Qc; 1%Qc]] * (ln 4 / ln 2))%R.
Proof. exact example_missing. Qed.
Print Assumptions C122_whole_time_refuted.

(** What holds for rk4, the default: the measure is the sum over all steps of all runs of the measure of the four
    recordings of the step, which span the step; restarting, or going on, between the runs adds nothing.  Missing: the
    other methods, vanishing norms. *)
Theorem C122_rk4_sum_partial :
  forall (X : Type) (add : X -> X -> X) (mul : Qc -> X -> X) (nuc spec : tensor R -> R) f args,
  usual_arguments args -> forall h, (0 < h)%Qc -> forall se step runs,
  method_eff add mul (hooked nuc spec f args) "rk4" = Some se -> method add mul f "rk4" = Some step ->
  good_times (map snd runs) -> restarts (map snd runs) -> runs <> [] ->
  (forall t y, 0 < sum_of_norms sum_squares (h_pars (args t y)))%R ->
  (forall t y, 0 < sum_of_norms (fun t => nuc t ^ 2) (h_pars (args t y)))%R ->
  (forall t y, 0 < sum_of_norms (fun t => spec t ^ 2) (h_pars (args t y)))%R ->
  exists grids bs values d,
    Forall2 (fun r g => grid h (first (snd r)) (final_time (snd r)) g) runs grids /\
    map (map fst) bs = map (stage_times "rk4") (flat_map steps grids) /\
    evaluations (fixed_grid_eff add mul se (Some h)) runs (HRecord []) = (Ok values, HRecord d) /\
    let m n2 := EFin (fold_right Rplus 0%R (map (fun b => complexity (map (fun c => qr (fst c)) b)
                   (map (fun c => sum_of_norms n2 (h_pars (args (fst c) (snd c)))) b)) bs)) in
    compute_complexity_measures (numeric d) = Ok (m sum_squares, m (fun t => nuc t ^ 2)%R, m (fun t => spec t ^ 2)%R).
Proof. exact @rk4_sum. Qed.
Print Assumptions C122_rk4_sum_partial.

(** For constant norms: the time of all runs times the logarithm. *)
Theorem C122_rk4_constant_partial :
  forall (X : Type) (add : X -> X -> X) (mul : Qc -> X -> X) (nuc spec : tensor R -> R) f args,
  usual_arguments args -> forall h, (0 < h)%Qc -> forall se step runs c1 c2 c3,
  method_eff add mul (hooked nuc spec f args) "rk4" = Some se -> method add mul f "rk4" = Some step ->
  good_times (map snd runs) -> restarts (map snd runs) -> runs <> [] ->
  (0 < c1)%R -> (0 < c2)%R -> (0 < c3)%R ->
  (forall t y, sum_of_norms sum_squares (h_pars (args t y)) = c1) ->
  (forall t y, sum_of_norms (fun t => nuc t ^ 2)%R (h_pars (args t y)) = c2) ->
  (forall t y, sum_of_norms (fun t => spec t ^ 2)%R (h_pars (args t y)) = c3) ->
  exists values d,
    evaluations (fixed_grid_eff add mul se (Some h)) runs (HRecord []) = (Ok values, HRecord d) /\
    let m c := EFin (total_time (map snd runs) * (ln c / ln 2))%R in
    compute_complexity_measures (numeric d) = Ok (m c1, m c2, m c3).
Proof. exact @rk4_constant. Qed.
Print Assumptions C122_rk4_constant_partial.

(** For all methods, one run: exactly the time up to the last evaluation in the last step counts. *)
Theorem C122_last_evaluation_partial :
  forall (X : Type) (add : X -> X -> X) (mul : Qc -> X -> X) (nuc spec : tensor R -> R) f args,
  usual_arguments args -> forall h, (0 < h)%Qc -> forall name se step x t c1 c2 c3,
  method_eff add mul (hooked nuc spec f args) name = Some se -> method add mul f name = Some step ->
  good_times [t] ->
  (0 < c1)%R -> (0 < c2)%R -> (0 < c3)%R ->
  (forall t y, sum_of_norms sum_squares (h_pars (args t y)) = c1) ->
  (forall t y, sum_of_norms (fun t => nuc t ^ 2)%R (h_pars (args t y)) = c2) ->
  (forall t y, sum_of_norms (fun t => spec t ^ 2)%R (h_pars (args t y)) = c3) ->
  exists values d n,
    evaluations (fixed_grid_eff add mul se (Some h)) [(x, t)] (HRecord []) = (Ok values, HRecord d) /\
    let s := (first t + times n h)%Qc in
    (s < final_time t)%Qc /\ (final_time t <= first t + times (S n) h)%Qc /\
    let e := last (stage_times name (s, final_time t)) 0%Qc in
    let m c := EFin ((qr e - qr (first t)) * (ln c / ln 2))%R in
    compute_complexity_measures (numeric d) = Ok (m c1, m c2, m c3).
Proof. exact @single_constant. Qed.
Print Assumptions C122_last_evaluation_partial.

(** The chunks of a long-range validation, restarted from zero or not, meet the hypotheses on runs, and their times add
    up to the whole time. *)
Theorem C122_chunks_partial :
  forall d t chunk_time from_zero fuel,
  uniform d t -> 2 <= List.length t -> (2 <= chunk_time \/ chunk_time <= 0)%Z -> List.length t <= fuel ->
  exists chunks, get_time_chunks fuel t chunk_time from_zero = Some chunks /\ chunks <> [] /\
    good_times chunks /\ restarts chunks /\ total_time chunks = (qr (final_time t) - qr (first t))%R.
Proof. exact chunk_facts. Qed.
Print Assumptions C122_chunks_partial.

(** Two runs which restart, and one which goes on. *)
Example C122_case :
  let ts := [[0%Qc; 1%Qc]; [0%Qc; Q2Qc (1 # 2); Q2Qc 2]; [Q2Qc 2; Q2Qc 3]] in
  good_times ts /\ restarts ts /\ total_time ts = 4%R /\
  (forall t y, sum_of_norms sum_squares (h_pars (ex_args t y)) = 4)%R /\
  uniform 1%Qc [0%Qc; 1%Qc; Q2Qc 2] /\
  get_time_chunks 3 [0%Qc; 1%Qc; Q2Qc 2] 2 true = Some [[0%Qc; 1%Qc]; [0%Qc; 1%Qc]] /\
  exists values d, ex_run "rk4" (Q2Qc (1 # 2)) [0%Qc; 1%Qc] = (Ok values, HRecord d) /\
    compute_complexity_measures (numeric d) = Ok (EFin (1 * (ln 4 / ln 2)), EFin (1 * (ln 4 / ln 2)), EFin (1 * (ln 4 / ln 2)))%R.
Proof. exact example_runs. Qed.

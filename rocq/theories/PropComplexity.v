(** Property C60: the complexity measure. *)
From Coq Require Import List String Reals Bool Lra.
From Verif Require Import Base ComplexityModel ComplexitySpec ComplexityProofs ComplexityProofs2.
Import ListNotations.
Open Scope R_scope.

(** C60 is false when a recorded value vanishes around a restart: the step back in time should
    contribute nothing, but zero times minus infinity makes the measure NaN. *)
Theorem C60_restart_refuted :
  exists t ss, List.length t = List.length ss /\ Forall (fun s => 0 <= s) ss /\
    log_measure t ss = Ok ENaN /\ complexity (firstn 2 t) (firstn 2 ss) = -1 /\
    nth 2 t 0 < nth 1 t 0 /\ List.length t = 3%nat.
Proof.
  exists [0; 1; 0], [1; 0; 0]. split; [reflexivity|]. split; [repeat constructor; lra|].
  split; [exact restart_nan|]. split; [|split; [simpl; lra|reflexivity]].
  cbn [firstn complexity]. rewrite Rmax_right by lra.
  replace ((1 + 0) / 2) with (/ 2) by lra. rewrite ln_Rinv by lra.
  assert (0 < ln 2) by (rewrite <- ln_1; apply ln_increasing; lra). field. lra.
Qed.
Print Assumptions C60_restart_refuted.

(** C60 when the means of consecutive values are positive: all three measures are the
    specified sums, in which steps back in time contribute nothing.
    Missing: vanishing means, see [C60_exactly_partial]. *)
Theorem C60_measures_partial : forall data t fro nuc spe,
  sd_get "t"%string data = Some t ->
  sd_get "sum_sqr_frobenius_norm"%string data = Some fro ->
  sd_get "sum_sqr_nuclear_norm"%string data = Some nuc ->
  sd_get "sum_sqr_spectral_norm"%string data = Some spe ->
  List.length fro = List.length t -> List.length nuc = List.length t -> List.length spe = List.length t ->
  positive_means fro -> positive_means nuc -> positive_means spe ->
  compute_complexity_measures data =
  Ok (EFin (complexity t fro), EFin (complexity t nuc), EFin (complexity t spe)).
Proof. exact complexity_spec. Qed.
Print Assumptions C60_measures_partial.

Example C60_case :
  let t := [0; 1; 0; 2] in let ss := [3; 5; 7; 1] in
  positive_means ss /\ complexity t ss = ln 4 / ln 2 + 2 * (ln 4 / ln 2).
Proof.
  cbv zeta. split; [cbn; lra|]. cbn [complexity].
  rewrite (Rmax_right 0 (1 - 0)), (Rmax_left 0 (0 - 1)), (Rmax_right 0 (2 - 0)) by lra.
  replace ((3 + 5) / 2) with 4 by lra. replace ((7 + 1) / 2) with 4 by lra. lra.
Qed.

(** For all non-negative values, as the hook records them: which of the measures are numbers, minus infinity or NaN. *)
Theorem C60_exactly_partial : forall data t fro nuc spe,
  sd_get "t"%string data = Some t ->
  sd_get "sum_sqr_frobenius_norm"%string data = Some fro ->
  sd_get "sum_sqr_nuclear_norm"%string data = Some nuc ->
  sd_get "sum_sqr_spectral_norm"%string data = Some spe ->
  List.length fro = List.length t -> List.length nuc = List.length t -> List.length spe = List.length t ->
  Forall (fun s => 0 <= s) fro -> Forall (fun s => 0 <= s) nuc -> Forall (fun s => 0 <= s) spe ->
  exists f n s, compute_complexity_measures data = Ok (f, n, s) /\ outcome t fro f /\ outcome t nuc n /\ outcome t spe s.
Proof. exact measures_outcome. Qed.
Print Assumptions C60_exactly_partial.

(** The three outcomes, for the same times with one restart. *)
Example C60_exactly_case : let t := [0; 1; 0; 2] in
  outcome t [3; 5; 7; 1] (EFin (ln 4 / ln 2 + 2 * (ln 4 / ln 2))) /\ outcome t [0; 0; 7; 1] ENInf /\ outcome t [1; 0; 0; 1] ENaN.
Proof.
  cbv zeta. split; [|split].
  - split; [|symmetry; apply C60_case]. intros (i & a & b & H1 & H2 & H3).
    destruct i as [|[|[|[|i]]]]; cbn in H1, H2; try discriminate; injection H1 as <-; injection H2 as <-; lra.
  - split; [exists 0%nat, 0, 0; cbn; repeat split; lra|]. intros (i & (a & b & H1 & H2 & H3) & (c & d & G1 & G2 & G3)).
    destruct i as [|[|[|[|i]]]]; cbn in H1, H2, G1, G2; try discriminate; injection H1 as <-; injection H2 as <-; injection G1 as <-; injection G2 as <-; lra.
  - exists 1%nat. split; [exists 0, 0; cbn; repeat split; lra|]. exists 1, 0. cbn. repeat split. lra.
Qed.

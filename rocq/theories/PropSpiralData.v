(** C137: the linear data of spiral.py and the spiral. *)
From Coq Require Import List String Arith ZArith QArith Qcanon Qreals Reals Lra Lia Bool.
From Verif Require Import Base ArgparseModel ExperimentModel IntegratorModel FixedGridSpec CirclesSpec SpiralDataModel SpiralDataSpec
  SpiralCurveProofs SpiralStepProofs SpiralDataProofs.
Import ListNotations.
Open Scope string_scope.
Open Scope list_scope.
Open Scope nat_scope.
Open Scope R_scope.

(** The equation which '--linear' asks for has one solution through (2, 0): the spiral. *)
Theorem C137_curve :
  (moves (diff_eq_rhs true) curve /\ curve 0 = (2, 0)) /\
  forall y, moves (diff_eq_rhs true) y -> y 0 = (2, 0) -> forall t, 0 <= t <= 10 -> y t = curve t.
Proof. exact (conj curve_moves curve_only). Qed.
Print Assumptions C137_curve.

Example C137_curve_case : curve (PI / 2) = (- (2 * exp (- (PI / 20))), 0).
Proof.
  unfold curve. replace (2 * (PI / 2)) with PI by field. replace (PI / 2 / 10) with (PI / 20) by field. rewrite cos_PI, sin_PI.
  apply f_equal2; ring.
Qed.

(** The equation without '--linear' is another one: a motion which has its velocity at some time loses x^4 + y^4 at the
    rate of 2/5 (x^6 + y^6) then. *)
Theorem C137_other_equation : forall (x y : R -> R) t,
  derivable_pt_lim x t (fst (diff_eq_rhs false (x t, y t))) -> derivable_pt_lim y t (snd (diff_eq_rhs false (x t, y t))) ->
  derivable_pt_lim (fun s => x s ^ 4 + y s ^ 4) t (- (2 / 5) * (x t ^ 6 + y t ^ 6)).
Proof. exact cubic_energy. Qed.
Print Assumptions C137_other_equation.

(** Through (2, 0) with the velocity (-4/5, 16). *)
Example C137_other_case : let x := fun s => 2 + s * (- (4 / 5)) in let y := fun s => s * 16 in
  derivable_pt_lim x 0 (fst (diff_eq_rhs false (x 0, y 0))) /\ derivable_pt_lim y 0 (snd (diff_eq_rhs false (x 0, y 0))) /\
  - (2 / 5) * (x 0 ^ 6 + y 0 ^ 6) = - (128 / 5).
Proof.
  cbv zeta beta. unfold diff_eq_rhs, mm. cbn [fst snd]. split; [|split; [|field]].
  - intros eps E. exists (mkposreal 1 Rlt_0_1). intros h H _. replace (_ - _) with 0 by (field; exact H). rewrite Rabs_R0. exact E.
  - intros eps E. exists (mkposreal 1 Rlt_0_1). intros h H _. replace (_ - _) with 0 by (field; exact H). rewrite Rabs_R0. exact E.
Qed.

(** Expected: the data lie on the spiral.  With steps of length 2 the last of six points is more than 1000 away from the origin,
    where the spiral never leaves the disk of radius 2. *)
Theorem C137_data_refuted : exists words ns, parse_args spiral_parser words = Some ns /\ option_is ns "linear" (AFlag true) /\
  forall other odesolver, exists t y p, generate_points other odesolver ns = Ok (t, y) /\ nth_error y 5 = Some p /\
    point_time (List.length y) 5 = 10 /\ 1000 < radius p /\ radius (curve 10) <= 2.
Proof. exact data_explodes. Qed.
Print Assumptions C137_data_refuted.

(** With rk4 and steps up to 1 all points are near the spiral, at whatever times they are asked for: the first
    term is for reading off between two steps, the second for the steps.  Missing from the full statement: longer steps, the
    solvers with step size control, checkpoints between steps. *)
Theorem C137_data_partial : forall other odesolver words ns n q,
  parse_args spiral_parser words = Some ns -> asks_rk4 ns n q -> (2 <= n)%nat -> (0 < q <= 1)%Q ->
  exists t y, generate_points other odesolver ns = Ok (t, y) /\ List.length y = n /\
    forall i p, nth_error y i = Some p -> apart p (curve (point_time n i)) <= 401 / 400 * Q2R q ^ 2 + point_time n i * Q2R q ^ 4.
Proof. exact data_close. Qed.
Print Assumptions C137_data_partial.

(** With the default step all 200 points are within 0.0026 of the spiral, with four checkpoints as well. *)
Example C137_data_case : forall words, In words [["--linear"]; ["--linear"; "--nr_of_checkpoints"; "4"]] ->
  exists ns, parse_args spiral_parser words = Some ns /\ asks_rk4 ns 200 (5 # 100) /\
  forall other odesolver, exists t y, generate_points other odesolver ns = Ok (t, y) /\ List.length y = 200%nat /\
    forall i p, nth_error y i = Some p -> apart p (curve (10 * INR i / 199)) <= 26 / 10000.
Proof.
  intros words W.
  assert (X : exists ns, parse_args spiral_parser words = Some ns /\ asks_rk4 ns 200 (5 # 100)).
  { destruct W as [<-|[<-|[]]]; (eexists; split; [vm_compute; reflexivity|]); repeat split; try reflexivity.
    - exists 0%Z, 0%Q. repeat split. left. split; reflexivity.
    - exists 4%Z, 0%Q. split; [reflexivity|]. split; [reflexivity|]. right. cbn. split; [lia|]. exists 40%nat. apply Qc_is_canon. reflexivity. }
  destruct X as (ns & P & A). exists ns. split; [exact P|]. split; [exact A|]. intros other odesolver.
  assert (N : (2 <= 200)%nat) by lia. assert (Q : (0 < 5 # 100 <= 1)%Q) by (split; [reflexivity|discriminate]).
  destruct (C137_data_partial other odesolver words ns 200 (5 # 100) P A N Q) as (t & y & G & L & B).
  exists t, y. split; [exact G|]. split; [exact L|]. intros i p I. assert (B' := B i p I).
  assert (T : point_time 200 i = 10 * INR i / 199).
  { unfold point_time. replace (INR (200 - 1)) with 199; [reflexivity|]. rewrite INR_IZR_INZ. reflexivity. }
  rewrite T in B'. replace (Q2R (5 # 100)) with (1 / 20) in B' by (unfold Q2R; cbn; lra).
  assert (U : INR i <= 199).
  { replace 199 with (INR 199) by (rewrite INR_IZR_INZ; reflexivity). apply le_INR.
    assert (i < List.length y)%nat by (apply nth_error_Some; congruence). lia. }
  lra.
Qed.

(** At the times which are whole numbers of steps, the points come closer to the origin if steps are no longer than 1, and move
    away from it if they are 3/2 or longer. *)
Theorem C137_inwards_partial : forall other odesolver words ns n q,
  parse_args spiral_parser words = Some ns -> asks_rk4 ns n q -> (2 <= n)%nat -> (0 < q <= 1)%Q ->
  exists t y, generate_points other odesolver ns = Ok (t, y) /\
    forall i j k l a b, (i < j)%nat -> nth_error y i = Some a -> nth_error y j = Some b ->
      point_time n i = INR k * Q2R q -> point_time n j = INR l * Q2R q -> 0 < radius b < radius a.
Proof. exact data_inwards. Qed.
Print Assumptions C137_inwards_partial.

Theorem C137_outwards_partial : forall other odesolver words ns n q,
  parse_args spiral_parser words = Some ns -> asks_rk4 ns n q -> (2 <= n)%nat -> (3 # 2 <= q)%Q ->
  exists t y, generate_points other odesolver ns = Ok (t, y) /\
    forall i j k l a b, (i < j)%nat -> nth_error y i = Some a -> nth_error y j = Some b ->
      point_time n i = INR k * Q2R q -> point_time n j = INR l * Q2R q -> radius a < radius b.
Proof. exact data_outwards. Qed.
Print Assumptions C137_outwards_partial.

(** 201 points with the default step: each time is a whole number of steps. *)
Example C137_inwards_case : exists ns, parse_args spiral_parser ["--linear"; "--data_size"; "201"] = Some ns /\
  asks_rk4 ns 201 (5 # 100) /\ forall i, point_time 201 i = INR i * Q2R (5 # 100).
Proof.
  eexists. split; [vm_compute; reflexivity|]. split.
  - repeat split; try reflexivity. exists 0%Z, 0%Q. repeat split. left. split; reflexivity.
  - intros i. unfold point_time. replace (INR (201 - 1)) with 200 by (rewrite INR_IZR_INZ; reflexivity).
    replace (Q2R (5 # 100)) with (1 / 20) by (unfold Q2R; cbn; lra). field.
Qed.

(** Six points with steps of 2. *)
Example C137_outwards_case : exists ns, parse_args spiral_parser ["--linear"; "--stepsize"; "2"; "--data_size"; "6"] = Some ns /\
  asks_rk4 ns 6 2 /\ forall i, point_time 6 i = INR i * Q2R 2.
Proof.
  eexists. split; [vm_compute; reflexivity|]. split.
  - repeat split; try reflexivity. exists 0%Z, 0%Q. repeat split. left. split; reflexivity.
  - intros i. unfold point_time. replace (INR (6 - 1)) with 5 by (rewrite INR_IZR_INZ; reflexivity).
    replace (Q2R 2) with 2 by (unfold Q2R; cbn; lra). field.
Qed.

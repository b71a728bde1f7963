(** C138: the distance based sampling of spiral.py. *)
From Coq Require Import List String Arith ZArith QArith Qcanon Qreals Reals Lra Lia Bool.
From Verif Require Import Base ArgparseModel ExperimentModel IntegratorModel CirclesSpec SpiralModel SpiralDataModel SpiralDataSpec
  SelectionSpec SelectionProofs.
Import ListNotations.
Open Scope string_scope.
Open Scope list_scope.
Open Scope nat_scope.
Open Scope R_scope.

(** Expected: starting points are offered in proportion to their distances.  Two of the six points of this run have different distances
    to the next one and are offered equally often. *)
Theorem C138_proportional_refuted : exists words ns, parse_args spiral_parser words = Some ns /\
  forall other odesolver scale, rounds scale -> exists t y idx i j a b c d,
    generate_data other odesolver scale ns = Ok (t, y, idx) /\
    nth_error y i = Some a /\ nth_error y (S i) = Some b /\ nth_error y j = Some c /\ nth_error y (S j) = Some d /\
    distance a b <> distance c d /\ offered i idx = offered j idx /\ (0 < offered i idx)%nat.
Proof. exact selection_uneven. Qed.
Print Assumptions C138_proportional_refuted.

Example C138_rounding : rounds some_scale.
Proof. exact some_scale_rounds. Qed.

(** What holds for any points with positive distances: up to rounding the numbers are proportional, each starting point with a full
    window and one more point behind it is offered, no other is.  Missing from the full statement: exact proportions. *)
Theorem C138_counts_partial : forall scale (dists : list R) batch_time, rounds scale -> (2 <= batch_time)%Z ->
  (batch_time <= Z.of_nat (List.length dists))%Z -> (forall d, In d dists -> 0 < d) ->
  exists idx m, create_uniform_distance_selection_array scale dists batch_time = Ok idx /\
    let kept := firstn (Z.to_nat (Z.of_nat (List.length dists) - batch_time + 1)) dists in
    In m kept /\ (forall d, In d kept -> m <= d) /\
    (forall i, (i < List.length kept)%nat ->
       (1 <= offered i idx)%nat /\ Rabs (INR (offered i idx) - nth i dists 0 / m) <= 1 / 2) /\
    (forall i, (List.length kept <= i)%nat -> offered i idx = 0%nat).
Proof. exact selection_counts. Qed.
Print Assumptions C138_counts_partial.

(** The distances 3, 1, 2, 9 with windows of two points: the last does not count. *)
Example C138_counts_case : forall scale, rounds scale -> exists idx,
  create_uniform_distance_selection_array scale [3; 1; 2; 9] 2 = Ok idx /\
  offered 0 idx = 3%nat /\ offered 1 idx = 1%nat /\ offered 2 idx = 2%nat /\ offered 3 idx = 0%nat.
Proof.
  intros scale SC.
  destruct (C138_counts_partial scale [3; 1; 2; 9] 2 SC ltac:(lia) ltac:(cbn; lia)) as (idx & m & C & MI & MB & CNT & NONE).
  { intros d I. repeat destruct I as [<-|I]; try lra. destruct I. }
  cbn [List.length Z.of_nat Pos.of_succ_nat Pos.succ] in *. change (Z.to_nat (4 - 2 + 1)) with 3%nat in *. cbn [firstn List.length In] in *.
  assert (m = 1) as ->.
  { assert (X := MB 1 ltac:(auto)). repeat destruct MI as [<-|MI]; try lra. }
  exists idx. split; [exact C|].
  assert (R : forall i z, (i < 3)%nat -> nth i [3; 1; 2; 9] 0 = IZR (Z.of_nat z) -> offered i idx = z).
  { intros i z I E. destruct (CNT i I) as (_ & B). rewrite E in B. rewrite INR_IZR_INZ in B. replace (IZR (Z.of_nat z) / 1) with (IZR (Z.of_nat z)) in B by field.
    apply abs_bounds in B. rewrite <- minus_IZR in B. assert (L1 : IZR (-1) < IZR (Z.of_nat (offered i idx) - Z.of_nat z)) by lra.
    assert (L2 : IZR (Z.of_nat (offered i idx) - Z.of_nat z) < IZR 1) by lra. apply lt_IZR in L1, L2. lia. }
  repeat split; [apply R; [lia|reflexivity]..|]. apply NONE. lia.
Qed.

(** On the linear data with steps up to 1/5, if the times of the points are whole numbers of steps: distances get shorter all the way, and
    each starting point is offered once, twice or three times. *)
Theorem C138_linear_partial : forall other odesolver scale words ns n q k bt, parse_args spiral_parser words = Some ns -> asks_rk4 ns n q ->
  option_is ns "batch_time" (AInt bt) -> rounds scale -> (2 <= bt)%Z -> (bt < Z.of_nat n)%Z -> (0 < q <= 1 # 5)%Q ->
  point_time n 1 = INR k * Q2R q ->
  exists t y idx, generate_data other odesolver scale ns = Ok (t, y, idx) /\ List.length y = n /\
    (forall i, (Z.of_nat i < Z.of_nat n - bt)%Z -> (1 <= offered i idx <= 3)%nat) /\
    (forall i, (Z.of_nat n - bt <= Z.of_nat i)%Z -> offered i idx = 0%nat) /\
    (forall i j a b c d, (i < j)%nat -> nth_error y i = Some a -> nth_error y (S i) = Some b -> nth_error y j = Some c -> nth_error y (S j) = Some d ->
       0 < distance c d < distance a b).
Proof. exact data_selection. Qed.
Print Assumptions C138_linear_partial.

(** 201 points with the default step and window. *)
Example C138_linear_case : exists ns, parse_args spiral_parser ["--linear"; "--data_size"; "201"] = Some ns /\
  asks_rk4 ns 201 (5 # 100) /\ option_is ns "batch_time" (AInt 5) /\ point_time 201 1 = INR 1 * Q2R (5 # 100).
Proof.
  eexists. split; [vm_compute; reflexivity|]. split; [|split; [reflexivity|]].
  - repeat split; try reflexivity. exists 0%Z, 0%Q. repeat split. left. split; reflexivity.
  - unfold point_time. replace (INR (201 - 1)) with 200 by (rewrite INR_IZR_INZ; reflexivity).
    replace (Q2R (5 # 100)) with (1 / 20) by (unfold Q2R; cbn; lra). cbn [INR]. field.
Qed.

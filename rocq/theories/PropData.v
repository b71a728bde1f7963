(** Properties C86-C90: data sets, loaders and metrics of the demos. *)
From Coq Require Import String.
From Coq Require Import List Reals ZArith Arith Lia Lra Permutation.
From Verif Require Import Base SphereModel SphereSpec SphereProofs DataModel DataProofs.
Import ListNotations.
Open Scope list_scope.
Open Scope R_scope.

(** C86: whatever the batching, the test loss is the average cross entropy over
    the samples and the accuracy the percentage of right predictions. *)
Theorem C86_test_metrics : forall (X : Type) (forward : list X -> list R) (f : X -> R),
  (forall b, forward b = map f b) ->
  forall batches ds, concat batches = ds -> ds <> [] ->
  exists acc correct, test forward batches (length ds)
    = Ok (average (map (fun s => cross_entropy (f (fst s)) (snd s)) ds), acc) /\
    counts (fun s => hit (f (fst s)) (snd s)) ds correct /\
    acc = 100 * INR correct / INR (length ds) /\ 0 <= acc <= 100.
Proof. exact @test_ok. Qed.
Print Assumptions C86_test_metrics.

(** An empty test set raises. *)
Theorem C86_empty : forall (X : Type) (forward : list X -> list R) (f : X -> R),
  (forall b, forward b = map f b) -> forall batches, test forward batches 0 = Raise ZeroDivisionError.
Proof. exact @test_empty. Qed.
Print Assumptions C86_empty.

Example C86_case :
  concat [[(2, 1); (-1, 1)]; [(0, 0)]] = [(2, 1); (-1, 1); (0, 0)] /\
  counts (fun s : R * R => hit (fst s) (snd s)) [(2, 1); (-1, 1); (0, 0)] 2.
Proof.
  split; [reflexivity|]. apply counts_yes; [left; cbn; lra|]. apply counts_no; [unfold hit; cbn; lra|].
  apply counts_yes; [right; cbn; lra|constructor].
Qed.

(** C87, as expected by a user, asks that the reported training loss is the
    weighted average over the samples.  False when the last batch is smaller: its
    samples count more. *)
Theorem C87_train_loss_refuted : exists sw ll, ll <> [] /\ Forall (fun l => l <> []) ll /\
  train_loss sw ll <> Ok (sw * average (concat ll)).
Proof.
  exists 1, [[0; 0]; [3]]. split; [discriminate|]. split; [repeat constructor; discriminate|].
  rewrite train_loss_eq; [|discriminate|repeat constructor; discriminate].
  intros H. injection H as H. unfold average in H. cbn in H. lra.
Qed.
Print Assumptions C87_train_loss_refuted.

(** What it is: the average over the batches of their averages. *)
Theorem C87_train_loss_batches : forall sw ll, ll <> [] -> Forall (fun l => l <> []) ll ->
  train_loss sw ll = Ok (sw * average (map average ll)).
Proof. exact train_loss_eq. Qed.
Print Assumptions C87_train_loss_batches.

(** C87 when all batches have the same size.  Missing from the full statement: an
    incomplete last batch. *)
Theorem C87_train_loss_partial : forall sw ll b, (0 < b)%nat -> ll <> [] -> Forall (fun l => length l = b) ll ->
  train_loss sw ll = Ok (sw * average (concat ll)).
Proof. exact train_loss_even. Qed.
Print Assumptions C87_train_loss_partial.

Example C87_case : (0 < 2)%nat /\ Forall (fun l => length l = 2%nat) [[1; 2]; [3; 6]] /\
  average (concat [[1; 2]; [3; 6]]) = 3.
Proof. split; [lia|]. split; [repeat constructor|]. unfold average. cbn. lra. Qed.

(** C88: the concentric sphere data set has the inner points first, labelled 0,
    then the outer ones, labelled 1, all within their radii. *)
Theorem C88_concentric : forall us dirs dim inner outer ni no,
  (0 < dim)%nat -> (forall i, 0 <= us i < 1) ->
  (forall i, length (dirs i) = dim /\ square_radius (dirs i) <> 0) ->
  0 <= fst inner -> fst inner < snd inner -> 0 <= fst outer -> fst outer < snd outer ->
  exists ds, concentric_sphere us dirs dim inner outer ni no = Ok ds /\ length ds = (ni + no)%nat /\
    forall i p y, nth_error ds i = Some (p, y) -> length p = dim /\
      ((i < ni)%nat -> y = 0 /\ fst inner <= sqrt (square_radius p) < snd inner) /\
      ((ni <= i)%nat -> y = 1 /\ fst outer <= sqrt (square_radius p) < snd outer).
Proof. exact concentric_ok. Qed.
Print Assumptions C88_concentric.

Example C88_case : (0 < 2)%nat /\ (forall i : nat, 0 <= 1 / 2 < 1) /\
  (forall i, length [3; - INR i] = 2%nat /\ square_radius [3; - INR i] <> 0) /\
  0 <= fst (0, 1 / 2) /\ fst (0, 1 / 2) < snd (0, 1 / 2) /\ 0 <= fst (1, 3 / 2) /\ fst (1, 3 / 2) < snd (1, 3 / 2).
Proof.
  split; [lia|]. split; [intros; lra|]. split; [|cbn; repeat split; lra].
  intros i. split; [reflexivity|]. unfold square_radius. cbn. nra.
Qed.

(** C89, as expected by a user, asks that the points are spread evenly over the
    shell: the share of random numbers giving a radius of at most r is the share of
    the volume.  False for a shell with a hole (the outer class of the demo). *)
Theorem C89_uniform_refuted : exists u dir dim a b ra p,
  0 <= u < 1 /\ square_radius dir <> 0 /\ 0 <= a /\ a < b /\ a <= ra <= b /\
  random_point_in_sphere u dir dim a b = Ok p /\
  ~ (sqrt (square_radius p) <= ra <-> u <= volume_share dim a b ra).
Proof.
  assert (ND : square_radius [1; 0] <> 0) by (unfold square_radius; cbn; lra).
  destruct (radius_law (2 / 5) [1; 0] 2 1 (3 / 2) (5 / 4)) as (p & E & H); try lia; try lra; try exact ND.
  exists (2 / 5), [1; 0], 2%nat, 1, (3 / 2), (5 / 4), p.
  split; [lra|]. split; [exact ND|]. do 3 (split; [lra|]). split; [exact E|].
  rewrite H. unfold volume_share. intros [_ C]. cbn in C. lra.
Qed.
Print Assumptions C89_uniform_refuted.

(** What the share is: the relative radius to the power of the dimension. *)
Theorem C89_radius_law : forall u dir dim a b ra, (0 < dim)%nat -> 0 <= u < 1 -> square_radius dir <> 0 ->
  0 <= a -> a < b -> a <= ra -> exists p, random_point_in_sphere u dir dim a b = Ok p /\
    (sqrt (square_radius p) <= ra <-> u <= ((ra - a) / (b - a)) ^ dim).
Proof. exact radius_law. Qed.
Print Assumptions C89_radius_law.

(** C89 for a full ball.  Missing from the full statement: shells with a hole. *)
Theorem C89_uniform_partial : forall u dir dim b ra, (0 < dim)%nat -> 0 <= u < 1 -> square_radius dir <> 0 ->
  0 < b -> 0 <= ra -> exists p, random_point_in_sphere u dir dim 0 b = Ok p /\
    (sqrt (square_radius p) <= ra <-> u <= volume_share dim 0 b ra).
Proof. exact radius_law_ball. Qed.
Print Assumptions C89_uniform_partial.

Example C89_case : (0 < 3)%nat /\ 0 <= 1 / 8 < 1 /\ square_radius [1; 2; 2] <> 0 /\ 0 < 2 /\
  volume_share 3 0 2 1 = 1 / 8.
Proof.
  split; [lia|]. split; [lra|]. split; [unfold square_radius; cbn; lra|]. split; [lra|].
  unfold volume_share. cbn. lra.
Qed.

Open Scope nat_scope.

(** C90, as expected by a user, asks that evaluation loaders present every sample
    of their data set, and images of the size used for training.  False: samples
    left over after the last full batch are dropped. *)
Theorem C90_all_tested_refuted : exists (fetch : string -> bool -> list nat) tr ts te n,
  get_data_loaders fetch (fun l => l) "MNIST" false 1 2 = Ok (tr, ts, te, n) /\
  fetch "MNIST"%string false = [7; 8; 9] /\ map fst (concat ts) = [7; 8].
Proof.
  exists (fun (_ : string) (train : bool) => if train then [1; 2] else [7; 8; 9]). do 4 eexists.
  split; [reflexivity|]. split; reflexivity.
Qed.
Print Assumptions C90_all_tested_refuted.

(** Also false: with augmentation CIFAR images are cropped to 28 for training but
    tested with 32. *)
Theorem C90_same_size_refuted : exists (fetch : string -> bool -> list nat) tr ts te n,
  get_data_loaders fetch (fun l => l) "CIFAR10" true 1 1 = Ok (tr, ts, te, n) /\
  map snd (concat tr) = [28] /\ map snd (concat ts) = [32].
Proof.
  exists (fun (_ : string) (train : bool) => [5]). do 4 eexists. split; [reflexivity|]. split; reflexivity.
Qed.
Print Assumptions C90_same_size_refuted.

(** C90, the true part, for all sizes and shufflings: all batches are full; fewer
    than one batch of training samples is left out per epoch and none is used
    twice; an evaluation loader presents exactly its data set, in order, if and
    only if the batch size divides the number of samples; the sizes are as stated,
    so they agree for MNIST and without augmentation.  Missing from the full
    statement: other batch sizes, and augmented CIFAR data. *)
Theorem C90_loaders_partial : forall X (fetch : string -> bool -> list X) order d aug b tb,
  In d ["MNIST"; "CIFAR10"; "CIFAR100"]%string -> (0 < b)%Z -> (0 < tb)%Z -> fetch d true <> [] ->
  (forall l, Permutation (order l) l) ->
  let side := if String.eqb d "MNIST" then 28 else 32 in
  exists tr ts te, get_data_loaders fetch order d aug b tb
      = Ok (tr, ts, te, if String.eqb d "CIFAR100" then 100 else 10) /\
    Forall (fun c => Z.of_nat (length c) = b) tr /\
    Forall (fun c => Z.of_nat (length c) = tb) ts /\
    Forall (fun c => Z.of_nat (length c) = tb) te /\
    (exists rest, Permutation (map fst (concat tr) ++ rest) (fetch d true) /\ (Z.of_nat (length rest) < b)%Z) /\
    (map fst (concat ts) = fetch d false <-> (tb | Z.of_nat (length (fetch d false)))%Z) /\
    (map fst (concat te) = fetch d true <-> (tb | Z.of_nat (length (fetch d true)))%Z) /\
    Forall (fun x => snd x = if aug then 28 else side) (concat tr) /\
    Forall (fun x => snd x = side) (concat ts) /\ Forall (fun x => snd x = side) (concat te).
Proof. exact get_data_loaders_ok. Qed.
Print Assumptions C90_loaders_partial.

(** Other data sets are rejected. *)
Theorem C90_unsupported : forall X (fetch : string -> bool -> list X) order d aug b tb,
  ~ In d ["MNIST"; "CIFAR10"; "CIFAR100"]%string -> get_data_loaders fetch order d aug b tb = Raise ValueError.
Proof. exact unsupported. Qed.
Print Assumptions C90_unsupported.

Example C90_case : In "CIFAR100"%string ["MNIST"; "CIFAR10"; "CIFAR100"]%string /\ (0 < 2)%Z /\
  (forall l : list nat, Permutation (rev l) l) /\
  ~ In "FashionMNIST"%string ["MNIST"; "CIFAR10"; "CIFAR100"]%string /\
  get_data_loaders (fun (_ : string) (train : bool) => if train then [1; 2; 3] else [4; 5]) (@rev _) "CIFAR100" false 2 1
  = Ok ([[(3, 32); (2, 32)]], [[(4, 32)]; [(5, 32)]], [[(1, 32)]; [(2, 32)]; [(3, 32)]], 100).
Proof.
  split; [cbn; tauto|]. split; [lia|]. split; [intros; symmetry; apply Permutation_rev|].
  split; [cbn; intuition discriminate|reflexivity].
Qed.

(** C91: drawing a balanced subset gives N samples with label 1 followed by N with
    label 0, whatever the random numbers. *)
Theorem C91_sample : forall draw1 draw2 targets N,
  N <= length targets -> (forall x, In x targets -> x = 0%Z \/ x = 1%Z) -> In 0%Z targets -> In 1%Z targets ->
  exists i1 i0, sample draw1 draw2 targets N = Ok (i1 ++ i0) /\ length i1 = N /\ length i0 = N /\
    Forall (fun i => nth_error targets i = Some 1%Z) i1 /\
    Forall (fun i => nth_error targets i = Some 0%Z) i0.
Proof. exact sample_ok. Qed.
Print Assumptions C91_sample.

(** Asking for more than the data set has, or only one class, raises. *)
Theorem C91_too_many : forall draw1 draw2 targets N, length targets < N ->
  sample draw1 draw2 targets N = Raise AssertionError.
Proof. exact sample_too_many. Qed.
Print Assumptions C91_too_many.

Theorem C91_one_class : forall draw1 draw2 targets N v, (forall x, In x targets -> x = v) ->
  sample draw1 draw2 targets N = Raise AssertionError.
Proof. exact sample_one_class. Qed.
Print Assumptions C91_one_class.

(** Collecting a loader into arrays gives the data set in order. *)
Theorem C91_to_numpy : forall (X Y : Type) b order (l : list (X * Y)), (0 < b)%Z -> l <> [] ->
  exists bs, loader b false false order l = Ok bs /\ dataset_to_numpy bs = Ok (map fst l, map snd l).
Proof. exact to_numpy_loader. Qed.
Print Assumptions C91_to_numpy.

Example C91_case :
  3 <= length [0; 1; 0]%Z /\ (forall x, In x [0; 1; 0]%Z -> x = 0%Z \/ x = 1%Z) /\
  sample (fun i => i) (fun i => i + 1) [0; 1; 0]%Z 3 = Ok [1; 1; 1; 2; 0; 2] /\
  sample (fun i => i) (fun i => i) [0; 1; 0]%Z 4 = Raise AssertionError /\
  loader 2 false false (fun l => l) [(1, 4); (2, 5); (3, 6)] = Ok [[(1, 4); (2, 5)]; [(3, 6)]].
Proof.
  split; [cbn; lia|]. split; [cbn; intuition|]. split; [reflexivity|]. split; reflexivity.
Qed.

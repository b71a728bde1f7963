(** Properties C113, C114: the parameters of the residual network (rn.py), and the report of
    tests/striding_and_upsampling.py (su.py). *)
From Coq Require Import List String Arith ZArith QArith Qcanon Lia Bool.
From Verif Require Import Base Tensor TensorFacts BlockModel BlockSpec NetworkModel NetworkSpec NetworkProofs5 NetworkProofs6.
Import ListNotations.
Open Scope string_scope.
Open Scope list_scope.
Open Scope nat_scope.

(** The configuration of the script with smaller numbers: 2 and 3 channels, particles of 5x5 and 3x3, stride 2,
    two blocks per layer; a batch of 3 images of 11x11 and one of 2 images of 12x9. *)
Example C113_case :
  layers_fit 2 (mkLayer 2 5 5) [mkLayer 3 3 3] /\ positive_sizes [mkLayer 2 5 5; mkLayer 3 3 3] /\
  convolves (fun _ => @constant_solution nat) /\
  Forall (acceptable example_stem example_head 2 1 2 3 1) [mkT [3; 1; 11; 11] (repeat 7 363); mkT [2; 1; 12; 9] (repeat 7 216)] /\
  match create_network (A := nat) (fun _ => false) (fun _ _ i => i) 1 [2; 3] [2; 2] 2%Z [[5; 5]; [3; 3]] 2 2 with
  | Ok net => map fst (network_parameters (fst (network_forward 0 (fun _ => false) (fun _ _ i => i) (fun _ => constant_solution)
                         example_stem example_head net (mkT [3; 1; 11; 11] (repeat 7 363)))))
              = map fst (expected_network 1 2 2 2 (mkLayer 2 5 5) [mkLayer 3 3 3])
  | Raise _ => False
  end.
Proof.
  split; [cbn; lia|]. split; [repeat constructor|]. split; [exact constant_convolves|].
  split; [|vm_compute; reflexivity].
  constructor; [apply (example_accepts 3 11 11); try reflexivity; cbn; lia|].
  constructor; [apply (example_accepts 2 12 9); try reflexivity; cbn; lia|]. constructor.
Qed.

(** C113: for all numbers of layers, channels, blocks, particles, particle sizes, strides and classes such that the
    strided particles fit into the next layer: the network is constructed, every sequence of images passes through
    it, and then its parameters are exactly the expected ones, with the expected numbers of elements; no later
    pass, successful or not, changes the list. *)
Theorem C113_network_parameters : forall (A : Type) (zero : A) has_attr init rnd solve stem head
    image_channels classes N s l0 rest counts,
  (forall k, In k parameter_names -> has_attr k = false) -> convolves solve ->
  0 < s -> layers_fit s l0 rest -> 0 < channels l0 -> positive_sizes (l0 :: rest) ->
  List.length counts = S (List.length rest) -> Forall (fun k => 0 < k) counts ->
  exists net, create_network has_attr init image_channels (map channels (l0 :: rest)) counts (Z.of_nat s)
      (map (fun l => [height l; width l]) (l0 :: rest)) N classes = Ok net /\
    forall x xs, Forall (acceptable stem head s image_channels (channels l0) (channels (last rest l0)) (List.length rest)) (x :: xs) ->
    exists net' rs, successive (network_forward zero has_attr rnd solve stem head) net (x :: xs) = (net', map Ok rs) /\
      network_parameters net' = map (fun p => (fst p, Some (snd p))) (expected_network image_channels classes N s l0 rest) /\
      forall others, network_parameters (fst (successive (network_forward zero has_attr rnd solve stem head) net' others))
                     = network_parameters net'.
Proof.
  exact (fun A zero has_attr init rnd solve stem head ic classes N s l0 rest counts free conv =>
    expected_parameters_ok zero has_attr init rnd solve stem head free conv ic classes N s l0 rest counts).
Qed.
Print Assumptions C113_network_parameters.

(** Particles of 5x5, strided to 2x2, and particles of 1x3 in the next layer. *)
Example C113_misfit_case :
  channels_grow (mkLayer 2 5 5) [mkLayer 3 1 3] /\ ~ layers_fit 2 (mkLayer 2 5 5) [mkLayer 3 1 3] /\
  match create_network (A := nat) (fun _ => false) (fun _ _ i => i) 1 [2; 3] [2; 2] 2%Z [[5; 5]; [1; 3]] 2 2 with
  | Ok net => snd (network_forward 0 (fun _ => false) (fun _ _ i => i) (fun _ => constant_solution)
                         example_stem example_head net (mkT [3; 1; 11; 11] (repeat 7 363))) = Raise ValueError
  | Raise _ => False
  end.
Proof. split; [cbn; lia|]. split; [cbn; lia|]. vm_compute. reflexivity. Qed.

(** C113: when they do not fit somewhere, the network is constructed nevertheless, and every pass raises ValueError. *)
Theorem C113_misfit : forall (A : Type) (zero : A) has_attr init rnd solve stem head
    image_channels classes N s l0 rest counts,
  (forall k, In k parameter_names -> has_attr k = false) -> convolves solve ->
  0 < s -> channels_grow l0 rest -> ~ layers_fit s l0 rest -> 0 < channels l0 -> positive_sizes (l0 :: rest) ->
  List.length counts = S (List.length rest) -> Forall (fun k => 0 < k) counts ->
  exists net, create_network has_attr init image_channels (map channels (l0 :: rest)) counts (Z.of_nat s)
      (map (fun l => [height l; width l]) (l0 :: rest)) N classes = Ok net /\
    forall xs, Forall (acceptable stem head s image_channels (channels l0) (channels (last rest l0)) (List.length rest)) xs ->
    snd (successive (network_forward zero has_attr rnd solve stem head) net xs) = map (fun _ => Raise ValueError) xs.
Proof.
  exact (fun A zero has_attr init rnd solve stem head ic classes N s l0 rest counts free conv =>
    misfit_raises zero has_attr init rnd solve stem head free conv ic classes N s l0 rest counts).
Qed.
Print Assumptions C113_misfit.

(** C114, as expected by a user: when no test fails, the network has all the expected parameters.  False: a
    parameter which the network lacks is not counted.  Without the pass which allocates the parameters (su.py:90-91)
    the script reports "14 of 14 tests passed" although it expects 18 parameters. *)
Theorem C114_report_refuted : exists (net : @network nat) named target total,
  create_network (fun _ => false) (fun _ _ i => i) 1 [2; 3] [2; 2] 2%Z [[5; 5]; [3; 3]] 2 2 = Ok net /\
  network_parameters net = map (fun p => (fst p, Some (snd p))) named /\
  target = expected_parameters 2 3 5 5 3 3 2 2 2 /\ List.length target = 18 /\
  count_print_and_compare_parameters named target = (14, 0, total) /\
  exists k n, In (k, n) target /\ ~ In k (map fst named).
Proof.
  eexists. exists [("initial_conv.weight", 18); ("initial_conv.bias", 2); ("batch_norm.weight", 2); ("batch_norm.bias", 2);
    ("shooting_layer_0_0.q1", 100); ("shooting_layer_0_0.q2", 100); ("shooting_layer_0_0.p_q1", 100); ("shooting_layer_0_0.p_q2", 100);
    ("shooting_layer_1_0.q1", 18); ("shooting_layer_1_0.q2", 18); ("shooting_layer_1_0.p_q1", 18); ("shooting_layer_1_0.p_q2", 18);
    ("last_linear.weight", 6); ("last_linear.bias", 2)].
  eexists. exists 504. split; [vm_compute; reflexivity|]. split; [vm_compute; reflexivity|]. split; [reflexivity|].
  split; [reflexivity|]. split; [vm_compute; reflexivity|].
  exists "shooting_layer_1_0.pt_enlarge_q1", 20. split; [cbn; tauto|]. cbn. intuition discriminate.
Qed.
Print Assumptions C114_report_refuted.

(** C114: for all numbers of particles, channels, classes, strides and particle sizes, the expectations written in
    the script are met by a two-layer network for images with one channel. *)
Theorem C114_script_passes : forall classes N s l0 l1,
  count_print_and_compare_parameters (expected_network 1 classes N s l0 [l1])
    (expected_parameters (channels l0) (channels l1) (height l0) (width l0) (height l1) (width l1) N s classes)
  = (List.length (expected_network 1 classes N s l0 [l1]), 0, list_sum (map snd (expected_network 1 classes N s l0 [l1]))).
Proof. exact script_expectations. Qed.
Print Assumptions C114_script_passes.

(** All 18 of the script's tests. *)
Example C114_case :
  fst (count_print_and_compare_parameters (expected_network 1 2 2 2 (mkLayer 2 5 5) [mkLayer 3 3 3])
    (expected_parameters 2 3 5 5 3 3 2 2 2)) = (18, 0) /\
  fst (count_print_and_compare_parameters [("a", 1); ("b", 2); ("c", 3)] [("b", 2); ("c", 4)]) = (1, 2).
Proof. split; vm_compute; reflexivity. Qed.

(** C114: what the report does say: no test fails exactly when every parameter of the network is expected with its
    number of elements.  Missing: that every expected parameter exists. *)
Theorem C114_report_partial : forall named target passed total,
  count_print_and_compare_parameters named target = (passed, 0, total) <->
  (forall k n, In (k, n) named -> as_expected target (k, n) = true) /\
  passed = List.length named /\ total = list_sum (map snd named).
Proof. exact report_no_failures. Qed.
Print Assumptions C114_report_partial.

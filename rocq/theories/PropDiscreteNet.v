(** Properties C98, C99: the discrete networks of simple_discrete_neural_networks.py. *)
From Coq Require Import List String Reals Arith Lia Lra.
From Verif Require Import Base RealSum UtilsModel BlockModel VecModel VecSpec DiscreteNetModel DiscreteNetSpec
  DiscreteNetProofs DiscreteFlowProofs DiscreteCollectProofs.
Import ListNotations.
Open Scope string_scope.
Open Scope R_scope.

(** C98: [ResNet] with [N] layers. *)
Theorem C98_resnet : forall (make : nat -> lin) N x, n2 x = 1%nat ->
  (forall i, (i < N)%nat -> linear_layer 1 1 true (make i)) ->
  exists y, resnet make N x = Ok y /\ same_shape x y /\
    forall n i, (n < n0 x)%nat -> (i < n1 x)%nat -> v3 y n i 0%nat = resnet_value make N (v3 x n i 0%nat).
Proof. exact resnet_values. Qed.
Print Assumptions C98_resnet.

(** C98: [ResNetUpDown] with [f] hidden units. *)
Theorem C98_updown : forall f (make : nat -> two) N x, n2 x = 1%nat ->
  (forall i, (i < N)%nat -> linear_layer 1 f true (b_l1 (make i)) /\ linear_layer f 1 true (b_l2 (make i))) ->
  exists y, resnet_updown make N x = Ok y /\ same_shape x y /\
    forall n i, (n < n0 x)%nat -> (i < n1 x)%nat ->
      v3 y n i 0%nat = updown_value f (fun k => b_l1 (make k)) (fun k => b_l2 (make k)) N (v3 x n i 0%nat).
Proof. exact updown_values. Qed.
Print Assumptions C98_updown.

(** C98: [DoubleResNetUpDown]: the second state is moved by the already moved first one. *)
Theorem C98_double : forall f (make : nat -> two) N x z, n2 x = 1%nat -> of_shape (n0 x) (n1 x) f z ->
  (forall i, (i < N)%nat -> linear_layer f 1 true (b_l1 (make i)) /\ linear_layer 1 f false (b_l2 (make i))) ->
  exists x' z', double_resnet make N (x, z) = Ok (x', z') /\ same_shape x x' /\ same_shape z z' /\
    forall n i, (n < n0 x)%nat -> (i < n1 x)%nat ->
      let r := double_value f (fun k => b_l1 (make k)) (fun k => b_l2 (make k)) N (v3 x n i 0%nat) (v3 z n i) in
      v3 x' n i 0%nat = fst r /\ forall j, (j < f)%nat -> v3 z' n i j = snd r j.
Proof. exact double_values. Qed.
Print Assumptions C98_double.

(** C98: [ResNetRNN] does [N] steps of the Euler method with step size [1/N] for its
    shallow net. *)
Theorem C98_rnn : forall f (b : two) N x, n2 x = 1%nat ->
  linear_layer f 1 true (b_l1 b) -> linear_layer 1 f true (b_l2 b) ->
  exists y, resnet_rnn b N x = Ok y /\ same_shape x y /\
    forall n i, (n < n0 x)%nat -> (i < n1 x)%nat ->
      v3 y n i 0%nat = euler (shallow f (fun t => t) (b_l2 b) (b_l1 b)) (1 / INR N) N (v3 x n i 0%nat).
Proof. exact rnn_values. Qed.
Print Assumptions C98_rnn.

(** C98: with more and more layers the outputs of [ResNetRNN] converge, with an error
    of order [1/N], to the solution of the differential equation of its shallow net. *)
Theorem C98_rnn_limit : forall f (b : two) y,
  linear_layer f 1 true (b_l1 b) -> linear_layer 1 f true (b_l2 b) ->
  solves (shallow f (fun t => t) (b_l2 b) (b_l1 b)) y ->
  exists C, forall N x, (0 < N)%nat -> n2 x = 1%nat -> exists r, resnet_rnn b N x = Ok r /\
    forall n i, (n < n0 x)%nat -> (i < n1 x)%nat -> v3 x n i 0%nat = y 0 ->
      Rabs (v3 r n i 0%nat - y 1) <= C / INR N.
Proof. exact rnn_converges. Qed.
Print Assumptions C98_rnn_limit.

(** C98: a layer of [ResNet] is a step of length one of the simple shooting model. *)
Theorem C98_resnet_is_shooting_step : forall l1 x,
  simple_block l1 x = (r <- simple_rhs relu [("q1", x)] [("l1", l1)] ;; d <- sd_item "dot_q1" r ;; zip3 Rplus x d).
Proof. exact resnet_layer_euler. Qed.
Print Assumptions C98_resnet_is_shooting_step.

(** C98: the recurrent networks are the layered ones with shared weights. *)
Theorem C98_double_shared : forall b n x, double_resnet_rnn b n x = double_resnet (fun _ => b) n x.
Proof. exact (fun b n x => eq_sym (double_shared b n x)). Qed.
Print Assumptions C98_double_shared.

Theorem C98_cnn_shared : forall (I O : Type) (plus : I -> I -> result I) scale relu_i conv0 (head : I -> result O) c1 c2 n x,
  cnn_resrecnet plus scale relu_i conv0 head c1 c2 n x = cnn_resnet plus scale relu_i conv0 head (fun _ => (c1, c2)) n x.
Proof. exact (fun I O plus scale relu_i conv0 head c1 c2 n x => eq_sym (cnn_shared I O plus scale relu_i conv0 head c1 c2 n x)). Qed.
Print Assumptions C98_cnn_shared.

(** C98: every layer of a replicated network is kept, in order, under an own name. *)
Theorem C98_layer_names : forall {M} (make : nat -> M) n,
  List.length (replicate_modules make n) = n /\ NoDup (map fst (replicate_modules make n)) /\
  forall i, (i < n)%nat -> nth_error (replicate_modules make n) i = Some ("l" ++ str_nat i, make i).
Proof. exact @replicate_names. Qed.
Print Assumptions C98_layer_names.

(** C98: numbers of parameters (fixed, optimized, overall). *)
Theorem C98_parameters : forall f n,
  compute_number_of_parameters (layered (fun _ => simple_block_params) n) = (0, 2 * n, 2 * n)%nat /\
  compute_number_of_parameters (layered (fun _ => updown_block_params f) n) = (0, (3 * f + 1) * n, (3 * f + 1) * n)%nat /\
  compute_number_of_parameters (layered (fun _ => double_block_params f) n) = (0, (2 * f + 1) * n, (2 * f + 1) * n)%nat /\
  compute_number_of_parameters (double_rnn_params f) = (0, 2 * f + 1, 2 * f + 1)%nat /\
  compute_number_of_parameters (rnn_params f) = (0, 3 * f + 1, 3 * f + 1)%nat.
Proof.
  exact (fun f n => conj (resnet_count n) (conj (updown_count f n) (conj (double_count f n)
    (conj (double_rnn_count f) (rnn_count f))))).
Qed.
Print Assumptions C98_parameters.

(** Layers with all weights 1 and offsets 0, and one sample with value 1. *)
Definition ones (o i : nat) (bias : bool) : lin :=
  mkLin (mkT2 o i (fun _ _ => 1)) (if bias then Some (mkT2 1 o (fun _ _ => 0)) else None) None None.
Definition one_sample : t3 := mkT3 1 1 1 (fun _ _ _ => 1).

(** Two layers of a [ResNet] quadruple the value; the recurrent network with [f = 1]
    follows the exponential function: its outputs converge to e. *)
Example C98_case :
  (exists y, resnet (fun _ => ones 1 1 true) 2 one_sample = Ok y /\ v3 y 0%nat 0%nat 0%nat = 4) /\
  solves (shallow 1 (fun t => t) (ones 1 1 true) (ones 1 1 true)) exp /\
  (exists C, forall N, (0 < N)%nat -> exists r, resnet_rnn (mkTwo (ones 1 1 true) (ones 1 1 true)) N one_sample = Ok r /\
     Rabs (v3 r 0%nat 0%nat 0%nat - exp 1) <= C / INR N) /\
  linear_layer 3 1 true (ones 1 3 true) /\ linear_layer 1 3 false (ones 3 1 false).
Proof.
  assert (L : linear_layer 1 1 true (ones 1 1 true)).
  { repeat split. eexists. repeat split. }
  assert (Sv : solves (shallow 1 (fun t => t) (ones 1 1 true) (ones 1 1 true)) exp).
  { intros t _. replace (shallow 1 (fun t0 => t0) (ones 1 1 true) (ones 1 1 true) (exp t)) with (exp t); [apply derivable_pt_lim_exp|].
    unfold shallow, pos, factor, offset. cbn. pose proof (exp_pos t). destruct (Rle_dec 0 (1 * exp t + 0)); lra. }
  split; [|split; [exact Sv|split; [|repeat split; eexists; repeat split]]].
  - destruct (C98_resnet (fun _ => ones 1 1 true) 2 one_sample eq_refl) as (y & E & _ & H); [intros; exact L|].
    exists y. split; [exact E|]. rewrite H by (cbn; lia). unfold resnet_value, pos, factor, offset. cbn.
    destruct (Rle_dec 0 1); [|lra]. destruct (Rle_dec 0 (1 + (1 * 1 + 0))); lra.
  - destruct (C98_rnn_limit 1 (mkTwo (ones 1 1 true) (ones 1 1 true)) exp L L Sv) as [C H]. exists C. intros N HN.
    destruct (H N one_sample HN eq_refl) as (r & E & R). exists r. split; [exact E|]. apply R; cbn; try lia.
    now rewrite exp_0.
Qed.

(** C99: [collect_and_sort_parameter_values_across_layers] lines up the parameters of a
    network: row [i] of the array collected for a parameter is that parameter of layer
    [i], for all names of parameters (dots included), provided that neighbouring layers
    have different names and all layers have parameters of the same names and sizes. *)
Theorem C99_collected : forall {V} (size : V -> list nat) a layers ps sz,
  no_dots a -> NoDup ps -> ps <> [] ->
  (forall l, In l layers -> no_dots (fst l) /\ map fst (snd l) = ps /\ map (fun pv => size (snd pv)) (snd l) = sz) ->
  neighbours_differ (map fst layers) -> layers <> [] ->
  exists d, collect size (network_parameters a layers) = Ok d /\ map fst d = ps /\
    forall i j l p v, nth_error layers i = Some l -> nth_error (snd l) j = Some (p, v) ->
      exists st, sd_get p d = Some st /\ s_size st = size v /\ List.length (s_rows st) = List.length layers /\
        nth_error (s_rows st) i = Some (Some v).
Proof. exact @collect_ok. Qed.
Print Assumptions C99_collected.

(** C99 for the networks made of replicated blocks. *)
Theorem C99_networks : forall {V} (size : V -> list nat) (block : nat -> list (string * V)) n ps sz,
  NoDup ps -> ps <> [] -> (0 < n)%nat ->
  (forall i, (i < n)%nat -> map fst (block i) = ps /\ map (fun pv => size (snd pv)) (block i) = sz) ->
  exists d, collect size (layered block n) = Ok d /\ map fst d = ps /\
    forall i j p v, (i < n)%nat -> nth_error (block i) j = Some (p, v) ->
      exists st, sd_get p d = Some st /\ s_size st = size v /\ List.length (s_rows st) = n /\
        nth_error (s_rows st) i = Some (Some v).
Proof. exact @layered_collected. Qed.
Print Assumptions C99_networks.

(** Three layers of a double network with numbered values. *)
Example C99_case :
  collect (fun v : nat * list nat => snd v)
    (layered (fun i => [("l1.weight", ((10 * i)%nat, [1%nat; 5%nat])); ("l1.bias", ((10 * i + 1)%nat, [1%nat]));
                        ("l2.weight", ((10 * i + 2)%nat, [5%nat; 1%nat]))]) 3)
  = Ok [("l1.weight", mkStack [1; 5]%nat [Some (0, [1; 5]); Some (10, [1; 5]); Some (20, [1; 5])]%nat);
        ("l1.bias", mkStack [1%nat] [Some (1, [1]); Some (11, [1]); Some (21, [1])]%nat);
        ("l2.weight", mkStack [5; 1]%nat [Some (2, [5; 1]); Some (12, [5; 1]); Some (22, [5; 1])]%nat)] /\
  map fst (double_block_params 5) = ["l1.weight"; "l1.bias"; "l2.weight"] /\ NoDup (map fst (double_block_params 5)).
Proof.
  split; [reflexivity|]. split; [reflexivity|]. cbn. repeat constructor; cbn; intuition discriminate.
Qed.

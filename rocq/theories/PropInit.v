(** C74: parameter initialisers. *)
From Coq Require Import List Arith Reals Lia Lra.
From Verif Require Import Base Tensor InitModel InitSpec InitProofs.
Import ListNotations.

(** C74, zeros: a tensor of the wanted size with entries 0, for every initialiser
    given the kind of particle size it takes. *)
Theorem C74_zero self noise n ps dim :
  right_kind (i_cls self) ps ->
  exists t, create_parameters self noise n ps dim true None = Ok (Some t) /\
    tensor_is t (wanted_size n ps dim) (fun _ => 0%R).
Proof. exact (zero_ok self noise n ps dim). Qed.
Print Assumptions C74_zero.

(** C74, constants, false of the convolution initialisers: they lack the method. *)
Theorem C74_constant_refuted :
  exists self noise n ps dim c,
    right_kind (i_cls self) ps /\
    create_parameters self noise n ps dim false (Some c) = Raise AttributeError.
Proof.
  exists (mkInit CConv true 1 None), (fun s => tfill 0%R s), 2, (PSeq [3; 3]), 1, 1%R.
  split; [left; reflexivity|]. apply constant_conv. left. reflexivity.
Qed.
Print Assumptions C74_constant_refuted.

(** C74, constants: vector initialisers are right; convolution initialisers never
    work. *)
Theorem C74_constant_partial self noise n ps dim c :
  right_kind (i_cls self) ps ->
  (is_vector (i_cls self) ->
   exists t, create_parameters self noise n ps dim false (Some c) = Ok (Some t) /\
     tensor_is t (wanted_size n ps dim) (fun _ => c)) /\
  (is_convolution (i_cls self) ->
   create_parameters self noise n ps dim false (Some c) = Raise AttributeError).
Proof.
  exact (fun K => conj (constant_vec self noise n ps dim c K) (constant_conv self noise n ps dim c)).
Qed.
Print Assumptions C74_constant_partial.

(** C74, random entries without a sample batch: magnitude times the random
    numbers drawn, in the wanted size. *)
Theorem C74_random self noise n ps dim :
  right_kind (i_cls self) ps -> i_cls self = CVec \/ i_cls self = CConv ->
  only_random self = true -> noise_ok noise ->
  exists t, create_parameters self noise n ps dim false None = Ok (Some t) /\
    tensor_is t (wanted_size n ps dim)
      (fun idx => (magnitude self * entry (noise (wanted_size n ps dim)) idx)%R).
Proof. exact (random_plain self noise n ps dim). Qed.
Print Assumptions C74_random.

(** C74, sample batches, false as expected: a batch with more samples than
    particles makes more particles than asked for. *)
Theorem C74_sample_size_refuted :
  exists self noise n ps dim t,
    right_kind (i_cls self) ps /\ noise_ok noise /\
    create_parameters self noise n ps dim false None = Ok (Some t) /\
    tshape t <> wanted_size n ps dim.
Proof.
  exists (mkInit CVecSample true 1 (Some (tfill 0%R [3; 1; 2]))), (fun s => tfill 0%R s), 1, (PNum 2), 1.
  eexists. split; [right; reflexivity|]. split; [|split; [reflexivity|discriminate]].
  intros s. split; [reflexivity|]. apply repeat_length.
Qed.
Print Assumptions C74_sample_size_refuted.

(** C74, sample batches: if the batch fits into the wanted size, the tensor has
    that size, and each entry is the entry of the batch plus the noise ... *)
Theorem C74_sample_partial self noise n ps dim b :
  right_kind (i_cls self) ps -> i_cls self = CVecSample \/ i_cls self = CConvSample ->
  only_random self = true -> noise_ok noise ->
  sample_batch self = Some b -> twf b -> fits (tshape b) (wanted_size n ps dim) ->
  exists t, create_parameters self noise n ps dim false None = Ok (Some t) /\
    tensor_is t (wanted_size n ps dim)
      (fun idx => (entry b (sample_index (tshape b) idx)
                   + magnitude self * entry (noise (wanted_size n ps dim)) idx)%R).
Proof. exact (random_sample self noise n ps dim b). Qed.
Print Assumptions C74_sample_partial.

(** ... and only then the size is the wanted one.  Without a batch there is a
    TypeError. *)
Theorem C74_sample_size_partial self noise n ps dim :
  right_kind (i_cls self) ps -> i_cls self = CVecSample \/ i_cls self = CConvSample ->
  noise_ok noise ->
  (forall b t, sample_batch self = Some b ->
     create_parameters self noise n ps dim false None = Ok (Some t) ->
     (tshape t = wanted_size n ps dim <-> fits (tshape b) (wanted_size n ps dim))) /\
  (only_random self = true -> sample_batch self = None ->
     create_parameters self noise n ps dim false None = Raise TypeError).
Proof.
  exact (fun K C N => conj (fun b t => sample_size_iff self noise n ps dim b t K C N)
                           (no_sample self noise n ps dim K C)).
Qed.
Print Assumptions C74_sample_size_partial.

(** C74, errors: zero and constant together; no random initialisation; the wrong
    kind of particle size. *)
Theorem C74_value_errors self noise n ps dim size like c :
  create_parameters self noise n ps dim true (Some c) = Raise ValueError /\
  create_parameters_of_size self noise size true (Some c) = Raise ValueError /\
  create_parameters_like self noise like true (Some c) = Raise ValueError /\
  (only_random self = false ->
   create_parameters self noise n ps dim false None = Raise ValueError /\
   create_parameters_of_size self noise size false None = Raise ValueError /\
   create_parameters_like self noise like false None = Raise ValueError).
Proof. exact (errors self noise n ps dim size like c). Qed.
Print Assumptions C74_value_errors.

Theorem C74_wrong_kind self noise n ps dim :
  (is_vector (i_cls self) \/ is_convolution (i_cls self)) ->
  ~ right_kind (i_cls self) ps ->
  create_parameters self noise n ps dim true None =
    Raise (match ps with PNum _ => ValueError | PSeq _ => TypeError end) /\
  (only_random self = true ->
   create_parameters self noise n ps dim false None =
     Raise (match ps with PNum _ => ValueError | PSeq _ => TypeError end)).
Proof. exact (wrong_kind self noise n ps dim). Qed.
Print Assumptions C74_wrong_kind.

(** C74, explicit sizes, and sizes taken from a tensor. *)
Theorem C74_of_size self noise size :
  noise_ok noise ->
  (exists t, create_parameters_of_size self noise size true None = Ok t /\
     tensor_is t size (fun _ => 0%R)) /\
  (forall c, exists t, create_parameters_of_size self noise size false (Some c) = Ok t /\
     tensor_is t size (fun _ => c)) /\
  (only_random self = true ->
   exists t, create_parameters_of_size self noise size false None = Ok t /\
     tensor_is t size (fun idx => (magnitude self * entry (noise size) idx)%R)).
Proof. exact (of_size_ok self noise size). Qed.
Print Assumptions C74_of_size.

Theorem C74_like self noise like :
  noise_ok noise ->
  (exists t, create_parameters_like self noise like true None = Ok t /\
     tensor_is t (tshape like) (fun _ => 0%R)) /\
  (forall c, exists t, create_parameters_like self noise like false (Some c) = Ok t /\
     tensor_is t (tshape like) (fun _ => c)) /\
  (only_random self = true ->
   exists t, create_parameters_like self noise like false None = Ok t /\
     tensor_is t (tshape like) (fun idx => (magnitude self * entry (noise (tshape like)) idx)%R)).
Proof. exact (of_size_ok self noise (tshape like)). Qed.
Print Assumptions C74_like.

(** Instances: a vector initialiser with a sample batch of one row, repeated for
    both particles, and a convolution initialiser. *)
Example C74_example_sample :
  let b := mkT [1; 1; 2] [3%R; 4%R] in
  let self := mkInit CVecSample true (1/2) (Some b) in
  let noise := fun s => tfill 2%R s in
  noise_ok noise /\ twf b /\ fits (tshape b) (wanted_size 2 (PNum 2) 1) /\
  exists t, create_parameters self noise 2 (PNum 2) 1 false None = Ok (Some t) /\
    tensor_is t [2; 1; 2]
      (fun idx => match idx with [_; _; 0] => 4%R | _ => 5%R end).
Proof.
  cbv zeta. assert (N : noise_ok (fun s => tfill 2%R s)).
  { intros s. split; [reflexivity|]. apply repeat_length. }
  assert (F : fits [1; 1; 2] (wanted_size 2 (PNum 2) 1)).
  { split; [cbn; lia|]. cbn. repeat (apply Forall2_cons; [auto|]). apply Forall2_nil. }
  split; [exact N|]. split; [reflexivity|]. split; [exact F|].
  destruct (C74_sample_partial
    (mkInit CVecSample true (1/2) (Some (mkT [1; 1; 2] [3%R; 4%R]))) _ 2 (PNum 2) 1 _
    (or_intror eq_refl) (or_introl eq_refl) eq_refl N eq_refl eq_refl F) as (t & T & I).
  exists t. split; [exact T|]. destruct I as (S & W & E). split; [exact S|]. split; [exact W|].
  intros idx V. rewrite (E idx V). f_equal.
  destruct idx as [|i [|j [|k [|]]]]; cbn in V; try tauto.
  destruct V as (Vi & Vj & Vk & _).
  assert (Hi : i = 0 \/ i = 1) by lia. assert (j = 0) by lia. assert (Hk : k = 0 \/ k = 1) by lia.
  subst j. destruct Hi, Hk; subst; unfold entry, tget; cbn; lra.
Qed.

Example C74_example_convolution :
  right_kind CConv (PSeq [3; 3]) /\
  (exists t, create_parameters (mkInit CConv true 1 None) (fun s => tfill 0%R s) 2 (PSeq [3; 3]) 4
     true None = Ok (Some t) /\ tshape t = [2; 4; 3; 3]) /\
  create_parameters (mkInit CConv true 1 None) (fun s => tfill 0%R s) 2 (PNum 3) 4 true None
    = Raise ValueError.
Proof.
  split; [left; reflexivity|]. split; [eexists; split; reflexivity|reflexivity].
Qed.

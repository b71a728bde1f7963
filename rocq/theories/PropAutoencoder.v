(** Properties C82-C83: autoencoders around a shooting block. *)
From Coq Require Import List Arith ZArith Bool Lia Sorting.Sorted Permutation.
From Verif Require Import Base Tensor AutoencoderModel AutoencoderSpec AutoencoderProofs AutoencoderProofs2.
Import ListNotations.

(** C82, as expected by a user, asks that every batch of images is reconstructed.
    False: a batch with a single sample loses its batch dimension and raises. *)
Theorem C82_any_batch_refuted :
  exists (value : nat -> tensor nat -> list nat -> nat) blk x,
    block_gives blk 2 2 1 /\ twf x /\ tshape x = [1; 3; 28; 28] /\
    forward value blk 1 2 2 x = Raise RuntimeError.
Proof.
  exists (fun _ _ _ => 0), (fun u => Ok (tfill 0 [2; 1; 1; 2])), (tfill 0 [1; 3; 28; 28]).
  assert (B : block_gives (fun _ : tensor nat => Ok (tfill 0 [2; 1; 1; 2])) 2 2 1).
  { intros u _ _. exists (tfill 0 [2; 1; 1; 2]). split; [reflexivity|split; reflexivity]. }
  split; [exact B|]. split; [reflexivity|]. split; [reflexivity|].
  apply (forward_small _ _ 1 2 2 (tfill 0 [1; 3; 28; 28]) 1 28 28 B eq_refl); [lia|tauto|lia..|reflexivity].
Qed.
Print Assumptions C82_any_batch_refuted.

(** The same for every input: one sample, one time or one latent dimension raises. *)
Theorem C82_single_raises : forall (A : Type) (value : nat -> tensor A -> list nat -> A) blk n_filt d T x N h w,
  block_gives blk d T N -> tshape x = [N; 3; h; w] -> 0 < N -> T = 1 \/ N = 1 \/ d = 1 ->
  0 < n_filt -> 0 < h -> 0 < w -> (h + 7) / 8 * ((w + 7) / 8) = 16 ->
  forward value blk n_filt d T x = Raise RuntimeError.
Proof. exact @forward_small. Qed.
Print Assumptions C82_single_raises.

(** Images of any other size raise: the encoder must leave sixteen positions. *)
Theorem C82_image_size : forall (A : Type) (value : nat -> tensor A -> list nat -> A) blk n_filt d T x N h w,
  tshape x = [N; 3; h; w] -> 0 < N -> 0 < n_filt -> 0 < h -> 0 < w -> (h + 7) / 8 * ((w + 7) / 8) <> 16 ->
  forward value blk n_filt d T x = Raise RuntimeError.
Proof. exact @forward_size. Qed.
Print Assumptions C82_image_size.

(** C82 for at least two samples, times and latent dimensions, whatever the layers
    compute: the trajectories are the block's, with the sample first, and the
    image at sample n and time t is decoded from the latent vector at n and t.
    Missing from the full statement: single samples. *)
Theorem C82_reconstruction_partial : forall (A : Type) (value : nat -> tensor A -> list nat -> A) blk n_filt d T x N h w,
  block_gives blk d T N -> tshape x = [N; 3; h; w] ->
  2 <= N -> 2 <= T -> 2 <= d -> 0 < n_filt -> 0 < h -> 0 < w -> (h + 7) / 8 * ((w + 7) / 8) = 16 ->
  exists e enc u b out s D r, encoder value n_filt 3 x = Ok e /\ fc1 value n_filt d e = Ok enc /\
    (forall n k, n < N -> k < d -> tget u [n; 0; k] = tget enc [n; k]) /\
    blk u = Ok b /\ forward value blk n_filt d T x = Ok (out, r) /\
    tshape out = [N; T; d] /\ tshape r = [N; T; 1; 28; 28] /\
    (forall n t k, n < N -> t < T -> k < d -> tget out [n; t; k] = tget b [t; n; 0; k]) /\
    decode value n_filt d s = Ok D /\ tshape s = [N * T; d] /\
    (forall n t k, n < N -> t < T -> k < d -> tget s [n * T + t; k] = tget out [n; t; k]) /\
    (forall n t i j, n < N -> t < T -> tget r [n; t; 0; i; j] = tget D [n * T + t; 0; i; j]).
Proof. exact @forward_ok. Qed.
Print Assumptions C82_reconstruction_partial.

Example C82_case :
  let blk := fun _ : tensor nat => Ok (tgather [3; 2; 1; 2] (fun i => Some (nth 0 i 0 * 10 + nth 1 i 0))) in
  let value := fun (k : nat) (t : tensor nat) (i : list nat) => k + match tdata t with x :: _ => x | [] => 0 end in
  let x := tfill 7 [2; 3; 25; 32] in
  block_gives blk 2 3 2 /\ tshape x = [2; 3; 25; 32] /\ (25 + 7) / 8 * ((32 + 7) / 8) = 16 /\
  match forward value blk 1 2 3 x with
  | Ok (out, r) => out = mkT [2; 3; 2] [0; 0; 10; 10; 20; 20; 1; 1; 11; 11; 21; 21] /\ tshape r = [2; 3; 1; 28; 28]
  | Raise _ => False
  end /\
  (16 + 7) / 8 * ((64 + 7) / 8) = 16 /\ (33 + 7) / 8 * ((33 + 7) / 8) <> 16.
Proof.
  split; [|split; [reflexivity|split; [reflexivity|split; [|split; [reflexivity|discriminate]]]]].
  - intros u _ _. eexists. split; [reflexivity|]. split; reflexivity.
  - vm_compute. split; reflexivity.
Qed.

(** C83 asks that every batch is compared.  False: as in C82 a batch with a single sample (the last one of an epoch,
    if the batch size leaves a remainder of one) raises, as do single times and latent dimensions. *)
Theorem C83_single_refuted : forall (A : Type) (value : nat -> tensor A -> list nat -> A) sub blk shuffle
    n_filt d T n_skip i_eval (inp : tensor A) N,
  block_gives blk d T N -> tshape inp = [N; T; 1; 28; 28] -> 0 < N -> 0 < T -> T = 1 \/ N = 1 \/ d = 1 -> 0 < n_filt ->
  train_differences value sub blk shuffle n_filt d T n_skip i_eval inp = Raise RuntimeError.
Proof. exact @train_single. Qed.
Print Assumptions C83_single_refuted.

Example C83_single_case :
  block_gives (fun _ : tensor nat => Ok (tfill 0 [3; 1; 1; 2])) 2 3 1 /\ tshape (tfill 0 [1; 3; 1; 28; 28]) = [1; 3; 1; 28; 28] /\
  train_differences (fun _ _ _ => 0) Nat.sub (fun _ : tensor nat => Ok (tfill 0 [3; 1; 1; 2])) (fun _ l => l) 1 2 3 1 1
    (tfill 0 [1; 3; 1; 28; 28]) = Raise RuntimeError.
Proof.
  assert (B : block_gives (fun _ : tensor nat => Ok (tfill 0 [3; 1; 1; 2])) 2 3 1).
  { intros u _ _. eexists. split; [reflexivity|split; reflexivity]. }
  split; [exact B|]. split; [reflexivity|]. apply (train_single _ _ _ _ 1 2 3 1 1 (tfill 0 [1; 3; 1; 28; 28]) 1 B); [reflexivity|lia..].
Qed.

(** C83: for every shuffling, the masked training step compares, for each sample
    and each kept timepoint t, the image decoded from the latent vector at t with
    the input image at t; the kept timepoints are increasing, T-1-n_skip many, and
    never the one used for evaluation.  Missing from the full statement: single
    samples (as in C82). *)
Theorem C83_training_step_partial : forall (A : Type) (value : nat -> tensor A -> list nat -> A) sub blk shuffle
    n_filt d T n_skip i_eval,
  shuffles shuffle -> (0 <= i_eval < Z.of_nat T)%Z -> n_skip + 1 < T ->
  forall (inp : tensor A) N, block_gives blk d T N -> twf inp -> tshape inp = [N; T; 1; 28; 28] ->
  2 <= N -> 2 <= d -> 0 < n_filt ->
  exists x e enc u b s D diff, first_frame inp = Ok x /\
    (forall n i j, n < N -> i < 28 -> j < 28 -> tget x [n; 0; i; j] = tget inp [n; 0; 0; i; j]) /\
    encoder value n_filt 1 x = Ok e /\ fc1 value n_filt d e = Ok enc /\
    (forall n k, n < N -> k < d -> tget u [n; 0; k] = tget enc [n; k]) /\ blk u = Ok b /\
    decode value n_filt d s = Ok D /\
    train_differences value sub blk shuffle n_filt d T (Z.of_nat n_skip) i_eval inp = Ok diff /\
    tshape diff = [N; T - 1 - n_skip; 28 * 28] /\
    forall n, n < N -> exists ts : list nat, StronglySorted lt ts /\ length ts = T - 1 - n_skip /\
      Forall (fun t => t < T /\ Z.of_nat t <> i_eval) ts /\
      forall j t, nth_error ts j = Some t ->
        (forall k, k < d -> tget s [n * (T - 1 - n_skip) + j; k] = tget b [t; n; 0; k]) /\
        (forall i c, i < 28 -> c < 28 -> exists p q, tget inp [n; t; 0; i; c] = Some p /\
           tget D [n * (T - 1 - n_skip) + j; 0; i; c] = Some q /\
           tget diff [n; j; i * 28 + c] = Some (sub p q)).
Proof.
  exact (fun A value sub blk shuffle n_filt d T n_skip i_eval SH HE HS =>
    @train_differences_ok A value sub blk shuffle n_filt d T n_skip i_eval SH HE HS).
Qed.
Print Assumptions C83_training_step_partial.

(** An evaluation timepoint outside the sequence raises. *)
Theorem C83_evaluation_outside : forall (A : Type) (value : nat -> tensor A -> list nat -> A) blk shuffle
    n_filt d T n_skip i_eval,
  shuffles shuffle -> forall x N h w, block_gives blk d T N -> tshape x = [N; 1; h; w] ->
  2 <= N -> 2 <= T -> 2 <= d -> 0 < n_filt -> 0 < h -> 0 < w -> (h + 7) / 8 * ((w + 7) / 8) = 16 ->
  ~ (0 <= i_eval < Z.of_nat T)%Z ->
  forward_masked value blk shuffle n_filt d T (Z.of_nat n_skip) i_eval x true = Raise RuntimeError.
Proof.
  exact (fun A value blk shuffle n_filt d T n_skip i_eval SH =>
    @forward_masked_bad A value (fun a _ => a) blk shuffle n_filt d T n_skip i_eval SH).
Qed.
Print Assumptions C83_evaluation_outside.

(** Skipping all timepoints raises. *)
Theorem C83_nothing_kept : forall (A : Type) (value : nat -> tensor A -> list nat -> A) blk shuffle
    n_filt d T n_skip i_eval,
  shuffles shuffle -> forall x N h w, block_gives blk d T N -> tshape x = [N; 1; h; w] ->
  2 <= N -> 2 <= T -> 2 <= d -> 0 < n_filt -> 0 < h -> 0 < w -> (h + 7) / 8 * ((w + 7) / 8) = 16 ->
  (0 <= i_eval < Z.of_nat T)%Z -> T <= n_skip + 1 ->
  exists e, forward_masked value blk shuffle n_filt d T (Z.of_nat n_skip) i_eval x true = Raise e.
Proof.
  exact (fun A value blk shuffle n_filt d T n_skip i_eval SH =>
    @forward_masked_none A value (fun a _ => a) blk shuffle n_filt d T n_skip i_eval SH).
Qed.
Print Assumptions C83_nothing_kept.

(** A negative number of skipped timepoints raises. *)
Theorem C83_negative : forall (A : Type) (value : nat -> tensor A -> list nat -> A) blk shuffle
    n_filt d T n_skip i_eval,
  shuffles shuffle -> forall x N h w, block_gives blk d T N -> tshape x = [N; 1; h; w] ->
  2 <= N -> 2 <= T -> 2 <= d -> 0 < n_filt -> 0 < h -> 0 < w -> (h + 7) / 8 * ((w + 7) / 8) = 16 -> (n_skip < 0)%Z ->
  forward_masked value blk shuffle n_filt d T n_skip i_eval x true = Raise RuntimeError.
Proof.
  exact (fun A value blk shuffle n_filt d T n_skip i_eval SH =>
    @forward_masked_negative A value (fun a _ => a) blk shuffle n_filt d T 0 i_eval SH n_skip).
Qed.
Print Assumptions C83_negative.

Example C83_negative_case : kept (fun _ l => l) 4 (-2) 1 0 = [2; 3]%Z /\ nr_kept 4 (-2) = 5%Z.
Proof. split; reflexivity. Qed.

Example C83_case :
  let shuffle := fun n (l : list Z) => if Nat.even n then rev l else l in
  shuffles shuffle /\ (0 <= 1 < Z.of_nat 4)%Z /\ 1 + 1 < 4 /\
  kept shuffle 4 1 1 0 = [0; 2]%Z /\ kept shuffle 4 1 1 1 = [2; 3]%Z /\
  kept shuffle 4 1 (-1) 1 = [1; 2; 3]%Z.
Proof.
  cbv zeta. split; [|repeat split; reflexivity || lia].
  intros n l. destruct (Nat.even n); [apply Permutation_rev|reflexivity].
Qed.

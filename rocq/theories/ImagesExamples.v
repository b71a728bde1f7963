(** Examples for the demos with images. *)
From Coq Require Import List String ZArith QArith Qcanon Lia Arith Permutation.
From Verif Require Import Base Tensor ArgparseModel AutoencoderSpec ImagesModel ImagesSpec.
From Verif Require CirclesSpec.
Import ListNotations.
Open Scope string_scope.
Open Scope list_scope.
Open Scope nat_scope.

(** A block which gives zeros. *)
Definition zeros (d T : nat) (_ : nat) (u : tensor Qc) : result (tensor Qc) :=
  match tshape u with m :: _ => Ok (tfill 0%Qc [T; m; 1; d]) | [] => Raise RuntimeError end.

Lemma fill_wf (s : list nat) : twf (tfill 0%Qc s).
Proof. unfold twf, tfill. cbn [tdata tshape]. apply repeat_length. Qed.

Lemma zeros_gives d T : forall k m, 1 <= m -> block_gives (zeros d T k) d T m.
Proof.
  intros k m _ u _ S. unfold zeros. rewrite S. eexists. split; [reflexivity|]. split; [apply fill_wf|reflexivity].
Qed.

Lemma fill_images M T : images (tfill 0%Qc [M; T; 28; 28]) M T.
Proof. split; [apply fill_wf|left; reflexivity]. Qed.

Lemma same_order M : orders M (fun _ => seq 0 M).
Proof. intros e. apply Permutation_refl. Qed.

Lemma no_shuffle : forall k : nat, shuffles (fun (_ : nat) (l : list Z) => l).
Proof. intros k n l. apply Permutation_refl. Qed.

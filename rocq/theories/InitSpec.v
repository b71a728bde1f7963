(** Vocabulary of the statements about parameter initialisation (C74). *)
From Coq Require Import List Arith Reals.
From Verif Require Import Base Tensor InitModel.
Import ListNotations.

(** The size a user asks for: particles x dimension x particle size. *)
Definition wanted_size (n : nat) (ps : psize) (dim : nat) : list nat :=
  n :: dim :: match ps with PNum d => [d] | PSeq l => l end.

(** Initialisers meant to be used, by the kind of particle size they take. *)
Definition is_vector (c : cls) : Prop := c = CVec \/ c = CVecSample.
Definition is_convolution (c : cls) : Prop := c = CConv \/ c = CConvSample.
Definition right_kind (c : cls) (ps : psize) : Prop :=
  match ps with PNum _ => is_vector c | PSeq _ => is_convolution c end.

(** [t] has size [s] and the entry [f idx] at each index. *)
Definition tensor_is (t : tensor R) (s : list nat) (f : list nat -> R) : Prop :=
  tshape t = s /\ twf t /\ forall idx, valid_idx s idx -> tget t idx = Some (f idx).

(** The entry at an index (0 outside, which the statements never use). *)
Definition entry (t : tensor R) (idx : list nat) : R :=
  match tget t idx with Some x => x | None => 0%R end.

(** The random numbers come in the size asked for. *)
Definition noise_ok (noise : list nat -> tensor R) : Prop :=
  forall s, tshape (noise s) = s /\ twf (noise s).

(** A sample batch of size [b] can be added to a tensor of size [s] without
    making it larger: [b] has at most as many axes, and the extents of its axes,
    counted from the last one, are those of [s] or 1. *)
Definition fits (b s : list nat) : Prop :=
  length b <= length s /\
  Forall2 (fun m n => m = n \/ m = 1) b (skipn (length s - length b) s).

(** The entry of the sample batch belonging to index [idx]. *)
Definition sample_index (b idx : list nat) : list nat :=
  map (fun mi => if fst mi =? 1 then 0 else snd mi)
      (combine b (skipn (length idx - length b) idx)).

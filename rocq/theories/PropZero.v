(** Property C73: zero dictionaries and the extraction of sizes. *)
From Coq Require Import List String Arith Lia Bool.
From Verif Require Import Base BaseFacts Tensor TensorFacts ScdModel ScdSpec ScdProofs5.
Import ListNotations.
Open Scope string_scope.
Open Scope list_scope.

(** Same names in the same order, same shapes, all entries zero. *)
Theorem C73_zeros_like :
  forall (A : Type) (zero : A) (d : sdict (tensor A)), sd_wf d ->
  dict_rel (fun t z => tshape z = tshape t /\ tdata z = repeat zero (prod (tshape t))) d (zero_dict_like zero d).
Proof. exact @zero_dict_like_rel. Qed.
Print Assumptions C73_zeros_like.

(** The first dimension is the given batch size, all others are kept. *)
Theorem C73_zeros_with_batch_size :
  forall (A : Type) (zero : A) (d : sdict (tensor A)) b, sd_wf d ->
  Forall (fun kt => 1 <= List.length (tshape (snd kt))) d ->
  exists z, zero_dict_matched_batch zero d b = Ok z /\
    dict_rel (fun t z => tshape z = b :: tl (tshape t) /\ tdata z = repeat zero (prod (tshape z))) d z.
Proof. exact @matched_batch_ok. Qed.
Print Assumptions C73_zeros_with_batch_size.

Theorem C73_zeros_with_batch_size_scalars :
  forall (A : Type) (zero : A) (d : sdict (tensor A)) b,
  Exists (fun kt => List.length (tshape (snd kt)) < 1) d ->
  zero_dict_matched_batch zero d b = Raise IndexError.
Proof. exact @matched_batch_raise. Qed.
Print Assumptions C73_zeros_with_batch_size_scalars.

Theorem C73_zeros_with_batch_and_channel_size :
  forall (A : Type) (zero : A) (d : sdict (tensor A)) b c, sd_wf d ->
  Forall (fun kt => 2 <= List.length (tshape (snd kt))) d ->
  exists z, zero_dict_matched_batch_channel zero d b c = Ok z /\
    dict_rel (fun t z => tshape z = b :: c :: tl (tl (tshape t)) /\ tdata z = repeat zero (prod (tshape z))) d z.
Proof. exact @matched_batch_channel_ok. Qed.
Print Assumptions C73_zeros_with_batch_and_channel_size.

Theorem C73_zeros_with_batch_and_channel_size_vectors :
  forall (A : Type) (zero : A) (d : sdict (tensor A)) b c,
  Exists (fun kt => List.length (tshape (snd kt)) < 2) d ->
  zero_dict_matched_batch_channel zero d b c = Raise IndexError.
Proof. exact @matched_batch_channel_raise. Qed.
Print Assumptions C73_zeros_with_batch_and_channel_size_vectors.

(** When all tensors have [n] as their first dimension, [n] is the batch size reported. *)
Theorem C73_batch_size :
  forall (A : Type) (d : sdict (sdict (tensor A))) n name block,
  Forall (fun kd => snd kd <> []) d -> In (name, block) d ->
  Forall (fun kd => Forall (fun kt => nth_error (tshape (snd kt)) 0 = Some n) (snd kd)) d ->
  extract_batch_size d = Ok n.
Proof. exact (fun A d => @extract_extent A d 0). Qed.
Print Assumptions C73_batch_size.

Theorem C73_channel_size :
  forall (A : Type) (d : sdict (sdict (tensor A))) n name block,
  Forall (fun kd => snd kd <> []) d -> In (name, block) d ->
  Forall (fun kd => Forall (fun kt => nth_error (tshape (snd kt)) 1 = Some n) (snd kd)) d ->
  extract_channel_size d = Ok n.
Proof. exact (fun A d => @extract_extent A d 1). Qed.
Print Assumptions C73_channel_size.

Theorem C73_no_size :
  forall (A : Type) (d : sdict (sdict (tensor A))),
  d = [] \/ (exists k d', d = (k, []) :: d') \/
  (exists k k' t b d', d = (k, (k', t) :: b) :: d' /\ List.length (tshape t) <= 1) ->
  extract_channel_size d = Raise IndexError.
Proof. exact (fun A d => @extract_raise A d 1). Qed.
Print Assumptions C73_no_size.

Definition zex : sdict (tensor nat) := [("q1", mkT [2; 1; 2] [1; 2; 3; 4]); ("q2", mkT [2; 3] [5; 6; 7; 8; 9; 10])].

Example C73_example_zeros :
  sd_wf zex /\ Forall (fun kt => 2 <= List.length (tshape (snd kt))) zex /\
  zero_dict_like 0 zex = [("q1", mkT [2; 1; 2] [0; 0; 0; 0]); ("q2", mkT [2; 3] [0; 0; 0; 0; 0; 0])] /\
  zero_dict_matched_batch 0 zex 1 = Ok [("q1", mkT [1; 1; 2] [0; 0]); ("q2", mkT [1; 3] [0; 0; 0])] /\
  zero_dict_matched_batch_channel 0 zex 1 2 = Ok [("q1", mkT [1; 2; 2] [0; 0; 0; 0]); ("q2", mkT [1; 2] [0; 0])].
Proof. repeat split; repeat constructor. Qed.

Example C73_example_sizes :
  let d := [("b1", zex); ("b2", [("q1", mkT [2; 1; 1] [11; 12])])] in
  (Forall (fun kd => snd kd <> []) d /\ In ("b1", zex) d /\
   Forall (fun kd => Forall (fun kt => nth_error (tshape (snd kt)) 0 = Some 2) (snd kd)) d) /\
  extract_batch_size d = Ok 2 /\ extract_channel_size d = Ok 1.
Proof. repeat split; repeat constructor; discriminate. Qed.

Example C73_example_raise :
  let d := [("c", mkT [] [7])] in
  Exists (fun kt => List.length (tshape (snd kt)) < 1) d /\ zero_dict_matched_batch 0 d 4 = Raise IndexError /\
  extract_channel_size [("b", [("v", mkT [3] [1; 2; 3])])] = Raise IndexError.
Proof. repeat split; repeat constructor. Qed.

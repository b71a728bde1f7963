(** Properties of the striding block: C45, C46. *)
From Coq Require Import List String Arith ZArith Bool Lia.
From Verif Require Import Base Tensor ScdModel ScdSpec StridingModel StridingSpec StridingProofs StridingProofs2.
Import ListNotations.
Open Scope string_scope.
Open Scope list_scope.
Open Scope nat_scope.

(** ** C45 *)
Theorem C45_construct : forall s d b, new_striding s d = Ok b ->
  List.length (sb_stride b) = List.length (sb_dims b) /\
  (forall z, s = IntArg z -> Forall (eq z) (sb_stride b)) /\ (forall l, s = SeqArg l -> sb_stride b = l) /\
  (forall z, d = IntArg z -> sb_dims b = [z]) /\ (forall l, d = SeqArg l -> sb_dims b = l).
Proof. exact new_striding_lengths. Qed.
Print Assumptions C45_construct.

Theorem C45_subsampling :
  forall (A : Type) (b : striding) (st co data : sdict (sdict (tensor A))) szs szd,
  dicts_wf st -> dicts_wf co -> dicts_wf data ->
  extract_size_from_dict_of_dicts st = Ok szs -> extract_size_from_dict_of_dicts data = Ok szd ->
  let off := (Z.of_nat (List.length szd) - Z.of_nat (List.length szs))%Z in
  let p := plan_of (sb_stride b) (sb_dims b) 0 in
  let q := plan_of (sb_stride b) (sb_dims b) off in
  integers_ok (sb_stride b) (sb_dims b) 0 -> integers_ok (sb_stride b) (sb_dims b) off ->
  all_tensors (fun t => admissible p (List.length (tshape t))) st ->
  all_tensors (fun t => admissible p (List.length (tshape t))) co ->
  all_tensors (fun t => admissible q (List.length (tshape t))) data ->
  exists s c d, striding_forward b (Some st) (Some co) (Some data) = Ok (s, c, d) /\
    dict_rel (dict_rel (subsampled p)) st s /\
    dict_rel (dict_rel (subsampled p)) co c /\
    dict_rel (dict_rel (subsampled q)) data d.
Proof. exact @forward_ok. Qed.
Print Assumptions C45_subsampling.

Theorem C45_batch_and_channel_rejected :
  forall (A : Type) (b : striding) (st : sdict (sdict (tensor A))) co data,
  Forall (fun s => (0 < s)%Z) (sb_stride b) -> List.length (sb_stride b) = List.length (sb_dims b) ->
  Exists (fun d => (d < 2)%Z) (sb_dims b) -> Exists (fun kd => snd kd <> []) st ->
  striding_forward b (Some st) co data = Raise ValueError.
Proof. exact @reject_batch_or_channel. Qed.
Print Assumptions C45_batch_and_channel_rejected.

(** States of shape (1,1,5,4) strided by 2 in both image dimensions; the data have
    an additional time dimension. *)
Definition ex_state (v : nat) : tensor nat := mkT [1; 1; 5; 4] (seq v 20).
Definition ex_data : tensor nat := mkT [1; 1; 1; 5; 4] (seq 0 20).

Example C45_example :
  exists b, new_striding (IntArg 2) (SeqArg [2; 3]%Z) = Ok b /\
  dicts_wf [("b1", [("q", ex_state 0)])] /\ integers_ok (sb_stride b) (sb_dims b) 1 /\
  all_tensors (fun t => admissible (plan_of (sb_stride b) (sb_dims b) 0) (List.length (tshape t)))
    [("b1", [("q", ex_state 0)])] /\
  all_tensors (fun t => admissible (plan_of (sb_stride b) (sb_dims b) 1) (List.length (tshape t)))
    [("b1", [("q", ex_data)])] /\
  striding_forward b (Some [("b1", [("q", ex_state 0)])]) (Some [("b1", [("p_q", ex_state 100)])])
    (Some [("b1", [("q", ex_data)])])
  = Ok ([("b1", [("q", mkT [1; 1; 2; 2] [4; 6; 12; 14])])],
        [("b1", [("p_q", mkT [1; 1; 2; 2] [104; 106; 112; 114])])],
        [("b1", [("q", mkT [1; 1; 1; 2; 2] [4; 6; 12; 14])])]) /\
  striding_forward (mkStriding [2%Z] [1%Z]) (Some [("b1", [("q", ex_state 0)])]) None None = Raise ValueError.
Proof.
  eexists. split; [reflexivity|].
  split; [split; repeat constructor|]. split; [split; repeat constructor; cbn; lia|].
  split; [repeat constructor; cbn; try lia; intros [E|[]]; lia|].
  split; [repeat constructor; cbn; try lia; intros [E|[]]; lia|].
  split; vm_compute; reflexivity.
Qed.

(** ** C46.  False: with extent 5 and stride 2 positions 1 and 3 are kept, the
    centre 2 is dropped. *)
Theorem C46_centre_refuted :
  exists (t r : tensor nat), tshape t = [1; 1; 5] /\ twf t /\
    stride_tensor_single_dimension t 2 2 = Ok r /\
    exists v, tget t [0; 0; 2] = Some v /\ ~ In v (tdata r).
Proof.
  exists (mkT [1; 1; 5] [0; 1; 2; 3; 4]), (mkT [1; 1; 2] [1; 3]).
  repeat split. exists 2. split; [reflexivity|]. intros [H|[H|[]]]; discriminate.
Qed.
Print Assumptions C46_centre_refuted.

(** The centre element of an odd extent [n] is kept exactly if the stride divides
    (n+1)/2. *)
Theorem C46_centre_partial :
  forall (A : Type) (t r : tensor A) s d n,
  twf t -> 0 < s -> nth_error (tshape t) d = Some n -> Nat.odd n = true ->
  stride_tensor_single_dimension t (Z.of_nat s) (Z.of_nat d) = Ok r ->
  (((n + 1) / 2) mod s = 0 ->
     exists j, nth_error (tshape r) d = Some (n / s) /\ j < n / s /\
       forall idx, valid_idx (tshape r) idx -> nth d idx 0 = j ->
         tget r idx = tget t (set_nth d ((n - 1) / 2) idx)) /\
  (((n + 1) / 2) mod s <> 0 ->
     forall idx, valid_idx (tshape r) idx ->
       exists i, i <> (n - 1) / 2 /\ tget r idx = tget t (set_nth d i idx)).
Proof. exact @centre_element. Qed.
Print Assumptions C46_centre_partial.

Example C46_example :
  stride_tensor_single_dimension (mkT [1; 1; 7] [0; 1; 2; 3; 4; 5; 6]) 2 2 = Ok (mkT [1; 1; 3] [1; 3; 5]) /\
  Nat.odd 7 = true /\ ((7 + 1) / 2) mod 2 = 0 /\ ((5 + 1) / 2) mod 2 <> 0.
Proof. repeat split. discriminate. Qed.

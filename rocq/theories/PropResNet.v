(** Properties C57 and C69: channels of the residual network. *)
From Coq Require Import List String ZArith Bool Lia.
From Verif Require Import Base ResNetModel ResNetProofs.
Import ListNotations.
Open Scope string_scope.
Open Scope list_scope.

(** C57 is false when a layer may have no block: this decreasing list of channels is
    accepted, and behind layer 1 four channels are carried instead of two. *)
Theorem C57_channels_refuted :
  exists cs counts net ps, create_resnet cs counts (List.length cs) = Ok net /\
    forward net = Ok ps /\ (nth 1 cs 0 < nth 0 cs 0)%Z /\
    exists p nm c, nth_error ps 1 = Some p /\ carried p = Some (nm, c, c) /\ c <> nth 1 cs 0%Z.
Proof.
  exists [4; 2; 4; 8]%Z, [1; 0; 0; 1]. do 2 eexists.
  split; [reflexivity|]. split; [reflexivity|]. split; [reflexivity|].
  do 3 eexists. split; [reflexivity|]. split; [reflexivity|]. discriminate.
Qed.
Print Assumptions C57_channels_refuted.

(** C57 with at least one block in each layer and channels that do not decrease:
    the network can be built and run, and behind layer [k] state and data
    have [layer_channels[k]] channels.  Missing: layers without a block. *)
Theorem C57_channels_partial : forall cs counts, cs <> [] -> (0 <= nth 0 cs 0)%Z ->
  (forall i, S i < List.length cs -> (nth i cs 0 <= nth (S i) cs 0)%Z) ->
  List.length cs <= List.length counts -> (forall k, k < List.length cs -> nth k counts 0 <> 0) ->
  exists net ps, create_resnet cs counts (List.length cs) = Ok net /\ forward net = Ok ps /\
    List.length ps = List.length cs /\
    forall k d, k < List.length cs ->
      carried (nth k ps d) = Some (block_name k (nth k counts 0 - 1), nth k cs 0%Z, nth k cs 0%Z) /\
      ret_channels (nth k ps d) = nth k cs 0%Z /\
      ret_from (nth k ps d) = (if Nat.eqb (k + nth k counts 0) 1 then None
                               else Some (block_name k (nth k counts 0 - 1))).
Proof. exact forward_ok. Qed.
Print Assumptions C57_channels_partial.

(** C57: a decrease is refused when the smaller layer has a block. *)
Theorem C57_decreasing_partial : forall cs counts sizes i, S i < List.length cs ->
  (nth (S i) cs 0 < nth i cs 0)%Z -> nth (S i) counts 0 <> 0 ->
  exists e, create_resnet cs counts sizes = Raise e.
Proof. exact create_decreasing. Qed.
Print Assumptions C57_decreasing_partial.

(** C57: block names are unique in every network that can be built. *)
Theorem C57_names_unique : forall cs counts sizes net, create_resnet cs counts sizes = Ok net ->
  NoDup (map rb_name (List.concat (rn_layers net))).
Proof. exact create_names_unique. Qed.
Print Assumptions C57_names_unique.

Example C57_case :
  let cs := [64; 128; 128; 512]%Z in let counts := [1; 2; 3; 1] in
  cs <> [] /\ (0 <= nth 0 cs 0)%Z /\
  (forall i, S i < List.length cs -> (nth i cs 0 <= nth (S i) cs 0)%Z) /\
  (forall k, k < List.length cs -> nth k counts 0 <> 0) /\
  exists net ps, create_resnet cs counts 4 = Ok net /\ forward net = Ok ps /\
    map carried ps = [Some ("shooting_layer_0_0", 64, 64)%Z; Some ("shooting_layer_1_1", 128, 128)%Z;
                      Some ("shooting_layer_2_2", 128, 128)%Z; Some ("shooting_layer_3_0", 512, 512)%Z].
Proof.
  cbv zeta. split; [discriminate|]. split; [simpl; lia|]. split.
  - intros [|[|[|i]]] H; simpl in *; lia.
  - split.
    + intros [|[|[|[|k]]]] H; simpl in *; lia.
    + do 2 eexists. split; [reflexivity|]. split; reflexivity.
Qed.

Example C57_case_decreasing : exists e, create_resnet [64; 32]%Z [1; 1] 2 = Raise e.
Proof. eexists. reflexivity. Qed.

(** C69 asks that the classifier be given the output of the last shooting block.  False
    for a network with a single block, whose output is dropped: the
    classifier gets the output of the initial convolution. *)
Theorem C69_last_block_refuted :
  exists cs counts net ps p, create_resnet cs counts (List.length cs) = Ok net /\ forward net = Ok ps /\
    last (map Some ps) None = Some p /\ List.concat (rn_layers net) <> [] /\ ret_from p = None.
Proof.
  exists [8]%Z, [1]. do 3 eexists. split; [reflexivity|]. split; [reflexivity|].
  split; [reflexivity|]. split; [discriminate|]. reflexivity.
Qed.
Print Assumptions C69_last_block_refuted.

(** C69 for networks with at least two blocks (two layers, or two blocks in the only
    layer).  Missing: the single block. *)
Theorem C69_last_block_partial : forall cs counts, cs <> [] -> (0 <= nth 0 cs 0)%Z ->
  (forall i, S i < List.length cs -> (nth i cs 0 <= nth (S i) cs 0)%Z) ->
  List.length cs <= List.length counts -> (forall k, k < List.length cs -> nth k counts 0 <> 0) ->
  2 <= List.length cs \/ 2 <= nth 0 counts 0 ->
  exists net ps, create_resnet cs counts (List.length cs) = Ok net /\ forward net = Ok ps /\
    forall d, ret_from (last ps d) =
      Some (last (map rb_name (List.concat (rn_layers net))) "").
Proof. exact last_block_seen. Qed.
Print Assumptions C69_last_block_partial.

Example C69_case :
  exists net ps, create_resnet [3; 5]%Z [1; 2] 2 = Ok net /\ forward net = Ok ps /\
    map rb_name (List.concat (rn_layers net)) =
      ["shooting_layer_0_0"; "shooting_layer_1_0"; "shooting_layer_1_1"] /\
    map ret_from ps = [None; Some "shooting_layer_1_1"].
Proof. do 2 eexists. split; [reflexivity|]. split; [reflexivity|]. split; reflexivity. Qed.

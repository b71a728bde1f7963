(** Model of neuro_shooting/res_net.py (cited as rn.py): channel bookkeeping
    of BasicResNet.  Tensors are represented by their number of channels;
    spatial sizes, initialisers and the integration itself are left out
    (BlockModel and StridingModel treat them for single blocks). *)
From Coq Require Import List String ZArith Bool Lia DecimalString.
From Verif Require Import Base.
Import ListNotations.
Open Scope string_scope.

(** [str(n)] of a non-negative integer (rn.py:143). *)
Definition rn_str (n : nat) : string := NilEmpty.string_of_uint (Nat.to_uint n).

(** A shooting block: its name, [in_features] of its integrand, and the number of
    channels of its own particles ([None] for a pass-through block, which
    has no particles: shooting_integrands.py:433-434). *)
Record rblock := mkRB { rb_name : string; rb_in : Z; rb_own : option Z }.

(** rn.py:103-123 with shooting_blocks.py:289 and
    parameter_initialization.py:147-167: the particles are allocated with
    [particle_dimension] channels, and torch raises RuntimeError for a
    negative extent. *)
Definition create_one_shooting_block (name : string) (nr_of_channels particle_dimension : Z)
    (only_pass_through : bool) : result rblock :=
  if only_pass_through then Ok (mkRB name nr_of_channels None)
  else if (particle_dimension <? 0)%Z then Raise RuntimeError
  else Ok (mkRB name nr_of_channels (Some particle_dimension)).

(** rn.py:125-133 *)
Definition compute_nr_of_additional_channels (layer_channels : list Z) : list Z :=
  map (fun i => match i with
                | O => nth 0 layer_channels 0%Z
                | S j => (nth i layer_channels 0 - nth j layer_channels 0)%Z
                end) (seq 0 (List.length layer_channels)).

(** rn.py:143 *)
Definition block_name (layer_nr block : nat) : string :=
  "shooting_layer" ++ "_" ++ rn_str layer_nr ++ "_" ++ rn_str block.

(** rn.py:140-156: one layer.  [range] of a negative number is empty, block counts are naturals. *)
Definition create_layer (layer_channels : list Z) (nr_of_blocks_per_layer : list nat) (layer_nr : nat)
    : result (list rblock) :=
  nr <- list_item nr_of_blocks_per_layer layer_nr ;;
  mapM (fun b => create_one_shooting_block (block_name layer_nr b)
                   (nth layer_nr layer_channels 0%Z)
                   (nth layer_nr (compute_nr_of_additional_channels layer_channels) 0%Z)
                   (Nat.ltb 0 b))
       (seq 0 nr).

(** rn.py:135-158 *)
Definition create_shooting_layers (layer_channels : list Z) (nr_of_blocks_per_layer : list nat)
    : result (list (list rblock)) :=
  mapM (create_layer layer_channels nr_of_blocks_per_layer) (seq 0 (List.length layer_channels)).

(** The attributes of rn.py:31-33, 87. *)
Record resnet := mkRN { rn_layers : list (list rblock); rn_channels : list Z }.

(** rn.py:14-94.  [nr_of_sizes] is [len(particle_sizes)].  The initial convolution
    has [layer_channels[0]] output channels. *)
Definition create_resnet (layer_channels : list Z) (nr_of_blocks_per_layer : list nat)
    (nr_of_sizes : nat) : result resnet :=
  if negb (Nat.eqb (List.length layer_channels) nr_of_sizes) then Raise ValueError else
  c0 <- list_item layer_channels 0 ;;
  if (c0 <? 0)%Z then Raise RuntimeError else
  layers <- create_shooting_layers layer_channels nr_of_blocks_per_layer ;;
  Ok (mkRN layers layer_channels).

(** What the forward pass keeps: the channels of [ret] and the block it came from
    ([None]: the initial convolution), and the block name and channels of the
    state and data dictionaries ([None] before the first block). *)
Record pass := mkPass { ret_channels : Z; ret_from : option string;
                        carried : option (string * Z * Z) }.

(** rn.py:183-190: one block.  The first block is given [ret] as data and only has its own
    particles; a later block has the carried channels plus its own, in the
    state (shooting_blocks.py:644-657) and, zero padded, in the data
    (shooting_blocks.py:672-674).  The convolutions inside expect [in_features]
    channels (RuntimeError otherwise).  The result is stored under the name
    of the block (shooting_blocks.py:705-715). *)
Definition run_block (p : pass) (b : rblock) : result pass :=
  let own := match rb_own b with Some n => n | None => 0%Z end in
  match carried p with
  | None =>
      if (own =? rb_in b)%Z && (ret_channels p =? rb_in b)%Z
      then Ok (mkPass (ret_channels p) (ret_from p) (Some (rb_name b, own, ret_channels p)))
      else Raise RuntimeError
  | Some (_, cs, cd) =>
      if (cs + own =? rb_in b)%Z && (cd + own =? rb_in b)%Z
      then Ok (mkPass (cd + own) (Some (rb_name b)) (Some (rb_name b, cs + own, cd + own)%Z))
      else Raise RuntimeError
  end.

(** rn.py:182-196: one layer and the striding after it, which keeps the channels (all but
    the last layer have one, rn.py:74).  Striding before any block uses
    names that are not bound yet. *)
Definition run_layer (p : pass) (layer_and_stride : list rblock * bool) : result pass :=
  p' <- foldM run_block (fst layer_and_stride) p ;;
  if snd layer_and_stride then
    match carried p' with None => Raise UnboundLocalError | Some _ => Ok p' end
  else Ok p'.

(** rn.py:74,90: which layers are followed by striding. *)
Definition strides (n : nat) : list bool := (repeat true (n - 1) ++ [false])%list.

(** The passes after each layer; rn.py:176-196. *)
Fixpoint run_layers (layers : list (list rblock * bool)) (p : pass) : result (list pass) :=
  match layers with
  | [] => Ok []
  | l :: rest => p' <- run_layer p l ;; ps <- run_layers rest p' ;; Ok (p' :: ps)
  end.

(** rn.py:173-206: the passes after each layer.  Line 202 needs as many channels as
    the last layer has. *)
Definition forward (net : resnet) : result (list pass) :=
  let p0 := mkPass (nth 0 (rn_channels net) 0%Z) None None in
  ps <- run_layers (combine (rn_layers net) (strides (List.length (rn_channels net)))) p0 ;;
  if (ret_channels (last ps p0) =? last (rn_channels net) 0)%Z then Ok ps
  else Raise RuntimeError.

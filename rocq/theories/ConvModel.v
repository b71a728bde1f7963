(** Model of the convolutional models of neuro_shooting/shooting_models.py (cited as sm.py) and of
    SNN_Conv2d (neuro_shooting/overwrite_classes.py, oc.py).

    Conventions as in VecModel.v; tensors have four axes: particles (or samples), channels, height,
    width (parameter_initialization.py:141-172).  Convolutions are modelled with stride, dilation and
    groups 1, as in all shooting models, and an empty kernel or image counts as too small.
    Simplified: [nn.GroupNorm] is modelled for one channel per group; torch's check that there is more
    than one value per group (in some versions) is left out. *)
From Coq Require Import List String Bool Reals Arith.
From Verif Require Import Base RealSum.
Import ListNotations.
Open Scope string_scope.
Open Scope R_scope.

(** Tensors with four axes: sizes and entries (parameter_initialization.py:141-172). *)
Record t4 := mkT4 { k0 : nat; k1 : nat; k2 : nat; k3 : nat; v4 : nat -> nat -> nat -> nat -> R }.
Notation images := (sdict t4).

(** ** torch operations (external) *)
Definition map4 (f : R -> R) (x : t4) : t4 := mkT4 (k0 x) (k1 x) (k2 x) (k3 x) (fun n c y z => f (v4 x n c y z)).
(** [torch.zeros_like] (sm.py:1332) *)
Definition zeros_like4 (x : t4) : t4 := map4 (fun _ => 0) x.

(** Zeros around the image. *)
Definition pad_zeros (p q : nat) (x : t4) : t4 :=
  mkT4 (k0 x) (k1 x) (k2 x + 2 * p) (k3 x + 2 * q) (fun n c y z =>
    if Nat.leb p y && Nat.ltb y (k2 x + p) && Nat.leb q z && Nat.ltb z (k3 x + q)
    then v4 x n c (y - p) (z - q) else 0).

(** [F.pad(mode='circular')], numbers of columns left, right, rows above, below. *)
Definition pad_circular (l r u b : nat) (x : t4) : result t4 :=
  if Nat.leb l (k3 x) && Nat.leb r (k3 x) && Nat.leb u (k2 x) && Nat.leb b (k2 x)
  then Ok (mkT4 (k0 x) (k1 x) (k2 x + (u + b)) (k3 x + (l + r)) (fun n c y z =>
         v4 x n c (Nat.modulo (y + k2 x - u) (k2 x)) (Nat.modulo (z + k3 x - l) (k3 x))))
  else Raise RuntimeError.

(** [F.conv2d] without padding: weight [out, in, height, width], bias [out]. *)
Definition conv_valid (w : t4) (nb : nat) (b : nat -> R) (x : t4) : result t4 :=
  if negb (Nat.eqb (k1 x) (k1 w)) then Raise RuntimeError
  else if negb (Nat.eqb nb (k0 w)) then Raise RuntimeError
  else if Nat.leb (k2 w) (k2 x) && Nat.leb (k3 w) (k3 x) && Nat.leb 1 (k2 w) && Nat.leb 1 (k3 w)
  then Ok (mkT4 (k0 x) (k0 w) (k2 x - k2 w + 1) (k3 x - k3 w + 1) (fun n o y z =>
         b o + rsum (k1 w) (fun c => rsum (k2 w) (fun dy => rsum (k3 w) (fun dz =>
           v4 w o c dy dz * v4 x n c (y + dy)%nat (z + dz)%nat)))))
  else Raise RuntimeError.

(** ** SNN_Conv2d *)
Record conv := mkConv {
  cv_weight : t4; cv_nb : nat; cv_bias : nat -> R;
  cv_pad0 : nat; cv_pad1 : nat; cv_circular : bool;
  cv_weight_of_weight : option R; cv_weight_of_bias : option R }.

(** oc.py:138-146; initial entries random (external). *)
Definition snn_conv2d (init : (nat -> nat -> nat -> nat -> R) * (nat -> R)) (in_channels out_channels kernel_size padding : nat)
    (circular : bool) (weight : option R) : conv :=
  mkConv (mkT4 out_channels in_channels kernel_size kernel_size (fst init)) out_channels (snd init)
    padding padding circular weight weight.

(** oc.py:158-167 *)
Definition conv_forward (l : conv) (x : t4) : result t4 :=
  if cv_circular l
  then y <- pad_circular (Nat.div (cv_pad1 l + 1) 2) (Nat.div (cv_pad1 l) 2)
                         (Nat.div (cv_pad0 l + 1) 2) (Nat.div (cv_pad0 l) 2) x ;;
       conv_valid (cv_weight l) (cv_nb l) (cv_bias l) y
  else conv_valid (cv_weight l) (cv_nb l) (cv_bias l) (pad_zeros (cv_pad0 l) (cv_pad1 l) x).

Notation convs := (sdict conv).

(** [nn.GroupNorm(channels, channels, affine=False)] (external): channels must be divisible by the
    number of groups; here one channel per group. *)
Definition channel_mean (x : t4) (n c : nat) : R :=
  rsum (k2 x) (fun y => rsum (k3 x) (fun z => v4 x n c y z)) / INR (k2 x * k3 x).
(** Variance over the image (external). *)
Definition channel_var (x : t4) (n c : nat) : R :=
  rsum (k2 x) (fun y => rsum (k3 x) (fun z => (v4 x n c y z - channel_mean x n c) ^ 2)) / INR (k2 x * k3 x).
(** [F.group_norm] without weights (external; sm.py:1399). *)
Definition group_norm (eps : R) (groups : nat) (x : t4) : result t4 :=
  if Nat.eqb (k1 x) groups
  then Ok (mkT4 (k0 x) (k1 x) (k2 x) (k3 x) (fun n c y z =>
         (v4 x n c y z - channel_mean x n c) / sqrt (channel_var x n c + eps)))
  else Raise RuntimeError.

Section Models.
Variable nl : R -> R.
Variable init : string -> (nat -> nat -> nat -> nat -> R) * (nat -> R).
Variables in_features inflation_factor filter_size : nat.
Variable parameter_weight : option R.

(** *** SimpleConv2D *)

(** sm.py:1304-1314 (also 1377-1389, where the group norm is created besides) *)
Definition simple_conv_objects : convs :=
  [("conv1", snn_conv2d (init "conv1") in_features in_features filter_size 1 false parameter_weight);
   ("conv2", snn_conv2d (init "conv2") in_features in_features filter_size 1 false parameter_weight)].

(** sm.py:1316-1326 (also 2147-2156) *)
Definition simple_conv_rhs (s : images) (p : convs) : result images :=
  l1 <- sd_item "conv1" p ;; q2 <- sd_item "q2" s ;; r1 <- conv_forward l1 (map4 nl q2) ;;
  l2 <- sd_item "conv2" p ;; q1 <- sd_item "q1" s ;; r2 <- conv_forward l2 q1 ;;
  Ok [("dot_q1", r1); ("dot_q2", r2)].

(** sm.py:1328-1334 (also 1404-1410) *)
Definition simple_conv_data (x : t4) : images := [("q1", x); ("q2", zeros_like4 x)].

(** *** Conv2DBatch; eps is torch's default *)

(** sm.py:1392-1402 *)
Definition batch_conv_rhs (s : images) (p : convs) : result images :=
  l1 <- sd_item "conv1" p ;; q2 <- sd_item "q2" s ;; r1 <- conv_forward l1 (map4 nl q2) ;;
  l2 <- sd_item "conv2" p ;; q1 <- sd_item "q1" s ;; g <- group_norm (1 / 100000) in_features q1 ;; r2 <- conv_forward l2 g ;;
  Ok [("dot_q1", r1); ("dot_q2", r2)].

(** *** UpDownConv2D *)

(** sm.py:2135-2145 *)
Definition updown_conv_objects : convs :=
  [("conv1", snn_conv2d (init "conv1") (in_features * inflation_factor) in_features filter_size 1 false parameter_weight);
   ("conv2", snn_conv2d (init "conv2") in_features (in_features * inflation_factor) filter_size 1 false parameter_weight)].
(** sm.py:2147-2156 *)
Definition updown_conv_rhs : images -> convs -> result images := simple_conv_rhs.

(** [z.repeat([1,f,1,1])] (external) *)
Definition repeat_channels (f : nat) (x : t4) : t4 :=
  mkT4 (k0 x) (k1 x * f) (k2 x) (k3 x) (fun n c => v4 x n (Nat.modulo c (k1 x))).

(** sm.py:2104-2115: the layers of the initial conditions, kernel sizes 1, 1 and 2. *)
Inductive conv_mode : Type := CZero | CLinear (simple_init : conv) | CMini (init_l1 init_l2 : conv).
(** sm.py:2104-2107 *)
Definition linear_mode (particle_dimension : nat) : conv_mode :=
  CLinear (snn_conv2d (init "simple_init") particle_dimension (particle_dimension * inflation_factor) 1 0 false None).
(** sm.py:2108-2115 *)
Definition mini_mode (particle_dimension : nat) : conv_mode :=
  CMini (snn_conv2d (init "init_l1") particle_dimension (particle_dimension * inflation_factor) 1 0 false None)
        (snn_conv2d (init "init_l2") (particle_dimension * inflation_factor) (particle_dimension * inflation_factor) 2 0 false None).

(** sm.py:2159-2197; in linear mode the prediction is computed and discarded. *)
Definition updown_conv_data (mode : conv_mode) (x : t4) : result images :=
  match mode with
  | CZero => Ok [("q1", x); ("q2", repeat_channels inflation_factor (zeros_like4 x))]
  | CLinear l => _ <- conv_forward l x ;; Ok [("q1", x); ("q2", x)]
  | CMini l1 l2 => h <- conv_forward l1 x ;; q <- conv_forward l2 (map4 nl h) ;; Ok [("q1", x); ("q2", q)]
  end.

(** *** Initial states; entries from the initializer *)
Variable ini : string -> nat -> nat -> nat -> nat -> R.
Variables nr_of_particles particle_dimension height width : nat.
(** sm.py:1288-1302 (also 1360-1375) *)
Definition simple_conv_initial : images :=
  [("q1", mkT4 nr_of_particles particle_dimension height width (ini "q1"));
   ("q2", mkT4 nr_of_particles particle_dimension height width (ini "q2"))].
(** sm.py:2119-2133 *)
Definition updown_conv_initial : images :=
  [("q1", mkT4 nr_of_particles particle_dimension height width (ini "q1"));
   ("q2", mkT4 nr_of_particles (particle_dimension * inflation_factor) height width (ini "q2"))].
End Models.

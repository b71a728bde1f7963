(** Specification for the residual network: expected parameters, what the solver has to do. *)
From Coq Require Import List String Arith Qcanon Bool DecimalString.
From Verif Require Import Base Tensor ScdModel BlockModel.
Import ListNotations.
Open Scope string_scope.
Open Scope list_scope.
Open Scope nat_scope.

(** A layer: channels, height and width of its particles. *)
Record layer := mkLayer { channels : nat; height : nat; width : nat }.

(** Decimal digits. *)
Definition digits (n : nat) : string := NilEmpty.string_of_uint (Nat.to_uint n).

(** The first block of layer [i], which holds its parameters. *)
Definition first_of_layer (i : nat) : string := "shooting_layer_" ++ digits i ++ "_0".

(** Four parameters of the same size: two states, their two costates. *)
Definition four (i : nat) (prefix : string) (n : nat) : list (string * nat) :=
  map (fun k => (first_of_layer i ++ "." ++ prefix ++ k, n)%string) ["q1"; "q2"; "p_q1"; "p_q2"].

(** Parameters of the layers after [prev], numbered from [i]: new particles for the additional channels, and what
    is missing around the strided particles of the previous layers (nothing when they already have the size). *)
Fixpoint later_layers (N s i : nat) (prev : layer) (rest : list layer) : list (string * nat) :=
  match rest with
  | [] => []
  | l :: rest =>
      let h := height prev / s in
      let w := width prev / s in
      four i "" (N * (channels l - channels prev) * (height l * width l))
      ++ (if (height l =? h) && (width l =? w) then []
          else four i "pt_enlarge_" (N * channels prev * (height l * width l - h * w)))
      ++ later_layers N s (S i) l rest
  end.

(** All parameters of a network for images with [image_channels] channels, [classes] classes, [N] particles. *)
Definition expected_network (image_channels classes N s : nat) (l0 : layer) (rest : list layer) : list (string * nat) :=
  [("initial_conv.weight", channels l0 * image_channels * 9); ("initial_conv.bias", channels l0);
   ("batch_norm.weight", channels l0); ("batch_norm.bias", channels l0)]
  ++ four 0 "" (N * channels l0 * (height l0 * width l0))
  ++ later_layers N s 1 l0 rest
  ++ [("last_linear.weight", classes * channels (last rest l0)); ("last_linear.bias", classes)].

(** Channels never decrease, and the strided particles fit into those of the next layer. *)
Fixpoint layers_fit (s : nat) (prev : layer) (rest : list layer) : Prop :=
  match rest with
  | [] => True
  | l :: rest => channels prev <= channels l /\ height prev / s <= height l /\ width prev / s <= width l
                 /\ layers_fit s l rest
  end.

(** Particles have positive extents. *)
Definition positive_sizes (l : list layer) : Prop := Forall (fun l => 0 < height l /\ 0 < width l) l.

(** A plan whose variables are images of positive size with [c] channels altogether. *)
Definition images_with (c : nat) (p : list (string * list (string * list nat))) : Prop :=
  exists n h w cs, 0 < h /\ 0 < w /\ list_sum cs = c /\
    Forall2 (fun kv ci => snd kv <> [] /\ Forall (fun ks => snd ks = [n; ci; h; w]) (snd kv)) p cs.

(** Number of elements of a plan. *)
Definition planned_size (p : list (string * list (string * list nat))) : nat :=
  list_sum (map (fun kv => list_sum (map (fun ks => prod (snd ks)) (snd kv))) p).

(** An integrator which, given images with as many channels as the convolutions of the integrand have, returns one
    vector of the same length per time. *)
Definition convolves {A} (solve : nat -> @block A -> list A -> list Qc -> result (tensor A)) : Prop :=
  forall c b x0 ts ps, 0 < c -> b_plans b = Some ps ->
    images_with c (state_plans ps) -> images_with c (costate_plans ps) -> images_with c (data_plans ps) ->
    List.length x0 = planned_size (state_plans ps) + planned_size (costate_plans ps) + planned_size (data_plans ps) ->
    exists r, solve c b x0 ts = Ok r /\ tshape r = [List.length ts; List.length x0] /\ twf r.

(** The first part turns images of a size into images of the same size with [c] channels. *)
Definition keeps_size {A} (stem : tensor A -> result (tensor A)) (B image_channels c H W : nat) : Prop :=
  forall x, twf x -> tshape x = [B; image_channels; H; W] ->
    exists y, stem x = Ok y /\ twf y /\ tshape y = [B; c; H; W].

(** The last part takes images of positive size with [c] channels. *)
Definition classifies {A} (head : @output A -> result (tensor A)) (B c : nat) : Prop :=
  forall y h w, twf y -> tshape y = [B; c; h; w] -> 0 < h -> 0 < w -> exists r, head (RTensor y) = Ok r.

(** Images which the network can process: batches which the first and the last part accept and which are not
    strided away by [depth] stridings. *)
Definition acceptable {A} (stem : tensor A -> result (tensor A)) (head : @output A -> result (tensor A))
    (s image_channels first_channels last_channels depth : nat) (x : tensor A) : Prop :=
  exists B H W, twf x /\ tshape x = [B; image_channels; H; W] /\
    keeps_size stem B image_channels first_channels H W /\ classifies head B last_channels /\
    0 < H / s ^ depth /\ 0 < W / s ^ depth.

(** Several passes: the network afterwards, and what each pass returned. *)
Fixpoint successive {N X Y} (forward : N -> X -> N * Y) (net : N) (xs : list X) : N * list Y :=
  match xs with
  | [] => (net, [])
  | x :: xs => let '(net, y) := forward net x in let '(net, ys) := successive forward net xs in (net, y :: ys)
  end.

(** Channels never decrease. *)
Fixpoint channels_grow (prev : layer) (rest : list layer) : Prop :=
  match rest with
  | [] => True
  | l :: rest => channels prev <= channels l /\ channels_grow l rest
  end.

(** Names of the parameters of a block. *)
Definition parameter_names : list string :=
  ["q1"; "q2"; "p_q1"; "p_q2"; "pt_enlarge_q1"; "pt_enlarge_q2"; "pt_enlarge_p_q1"; "pt_enlarge_p_q2"].

(** The parameter is expected with this number of elements. *)
Definition as_expected (target : list (string * nat)) (p : string * nat) : bool :=
  match find (fun q => String.eqb (fst q) (fst p)) target with Some q => snd q =? snd p | None => false end.

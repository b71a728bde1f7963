(** Model of demos/neurips20/simple_discrete_neural_networks.py ([sdnn.py]) and of
    [collect_and_sort_parameter_values_across_layers] in
    demos/neurips20/simple_functional_mapping_example.py ([sfm.py]).

    Simplifications: numbers are reals, tensors as in VecModel; [nn.Linear] applies
    [F.linear] to its parameters, as in VecModel; the convolutional networks are
    modelled for arbitrary layers; the initial values of the parameters are
    arguments; [collect...] is modelled up to the plotting. *)
From Coq Require Import List String Ascii Bool Reals Arith.
From Verif Require Import Base RealSum UtilsModel CommandModel BlockModel VecModel.
Import ListNotations.
Open Scope string_scope.
Open Scope R_scope.

(** [F.relu] *)
Definition relu (x : R) : R := Rmax 0 x.

(** sdnn.py:6-11 [replicate_modules]; [make i] is the module made in turn [i]. *)
Definition replicate_modules {M} (make : nat -> M) (nr_of_layers : nat) : pdict M :=
  fold_left (fun modules i => pd_set ("l" ++ str_nat i) (make i) modules) (seq 0 nr_of_layers) [].

(** [nn.Sequential]: the modules one after the other (sdnn.py:63, 73, 84, 168). *)
Definition sequential {M X} (apply : M -> X -> result X) (modules : pdict M) (x : X) : result X :=
  foldM (fun x m => apply (snd m) x) modules x.

(** The two layers of a block (sdnn.py:30-31, 44-45, 114-115). *)
Record two := mkTwo { b_l1 : lin; b_l2 : lin }.

(** sdnn.py:20-23 [SimpleResNetBlock.forward] *)
Definition simple_block (l1 : lin) (x : t3) : result t3 :=
  y <- forward l1 (map3 relu x) ;; zip3 Rplus x y.

(** sdnn.py:33-37 [UpDownResNetBlock.forward] *)
Definition updown_block (b : two) (x : t3) : result t3 :=
  y <- forward (b_l1 b) (map3 relu x) ;;
  z <- forward (b_l2 b) (map3 relu y) ;;
  zip3 Rplus x z.

(** sdnn.py:47-55 [UpDownDoubleResNetBlock.forward] *)
Definition double_block (b : two) (x1x2 : t3 * t3) : result (t3 * t3) :=
  let (x1, x2) := x1x2 in
  y <- forward (b_l1 b) (map3 relu x2) ;;
  x1 <- zip3 Rplus x1 y ;;
  z <- forward (b_l2 b) (map3 relu x1) ;;
  x2 <- zip3 Rplus x2 z ;;
  Ok (x1, x2).

(** sdnn.py:78-87 [ResNet] *)
Definition resnet (make : nat -> lin) (nr_of_layers : nat) (x : t3) : result t3 :=
  sequential simple_block (replicate_modules make nr_of_layers) x.

(** sdnn.py:68-76 [ResNetUpDown] *)
Definition resnet_updown (make : nat -> two) (nr_of_layers : nat) (x : t3) : result t3 :=
  sequential updown_block (replicate_modules make nr_of_layers) x.

(** sdnn.py:57-66 [DoubleResNetUpDown] *)
Definition double_resnet (make : nat -> two) (nr_of_layers : nat) (x : t3 * t3) : result (t3 * t3) :=
  sequential double_block (replicate_modules make nr_of_layers) x.

(** sdnn.py:98-105 [DoubleResNetUpDownRNN.forward] *)
Definition double_resnet_rnn (b : two) (nr_of_layers : nat) (x : t3 * t3) : result (t3 * t3) :=
  foldM (fun x _ => double_block b x) (seq 0 nr_of_layers) x.

(** sdnn.py:117-121 [ResNetRNN.forward] *)
Definition resnet_rnn (b : two) (nr_of_layers : nat) (x : t3) : result t3 :=
  foldM (fun x (_ : nat) =>
    y <- forward (b_l2 b) x ;;
    z <- forward (b_l1 b) (map3 relu y) ;;
    zip3 Rplus x (map3 (Rmult (1 / INR nr_of_layers)) z)) (seq 0 nr_of_layers) x.

(** ** Convolutional networks (sdnn.py:142-203) *)
Section Conv.
  (** Images, output vectors, and the operations on them (external). *)
  Context {I O : Type}.
  Variables (plus : I -> I -> result I) (scale : R -> I -> I) (relu_i : I -> I).
  Variables (conv0 : I -> result I) (head : I -> result O).

  (** sdnn.py:152-154 [CNNResNetBlock.forward]: [conv1], [conv2] of the block. *)
  Definition cnn_block (nr_layers : nat) (c : (I -> result I) * (I -> result I)) (x : I) : result I :=
    temp <- fst c x ;; y <- snd c (relu_i temp) ;; plus x (scale (1 / INR nr_layers) y).

  (** sdnn.py:170-176 [MyCNNResNet.forward]; [head] is pooling, reshaping and the last
      linear layer. *)
  Definition cnn_resnet (make : nat -> (I -> result I) * (I -> result I)) (nr_layers : nat) (x : I) : result O :=
    temp <- conv0 x ;;
    ret <- sequential (cnn_block nr_layers) (replicate_modules make nr_layers) temp ;;
    head ret.

  (** sdnn.py:194-203 [MyCNNResRecNet.forward] *)
  Definition cnn_resrecnet (conv1 conv2 : I -> result I) (nr_layers : nat) (x : I) : result O :=
    temp <- conv0 x ;;
    temp <- foldM (fun temp (_ : nat) =>
              temp2 <- conv1 temp ;; temp3 <- conv2 (relu_i temp2) ;;
              plus temp (scale (1 / INR nr_layers) temp3)) (seq 0 nr_layers) temp ;;
    head temp.
End Conv.

(** ** Parameters *)

(** [nn.Linear(i, o, bias=bias)]: its parameters. *)
Definition linear_params (name : string) (i o : nat) (bias : bool) : params :=
  (name ++ ".weight", mkPar [o; i] true) :: (if bias then [(name ++ ".bias", mkPar [o] true)] else []).

(** Parameters of a module registered under a name: [name.] is put in front
    ([torch.nn.Module.named_parameters], external; used at sfm.py:212). *)
Definition under {V} (name : string) (p : list (string * V)) : list (string * V) :=
  map (fun kv => (name ++ "." ++ fst kv, snd kv)) p.

(** [named_parameters()] of a network made of replicated modules called [self.model]
    (sdnn.py:63, 73, 84); [block i] are the parameters of the i-th block. *)
Definition layered {V} (block : nat -> list (string * V)) (nr_of_layers : nat) : list (string * V) :=
  under "model" (flat_map (fun m => under (fst m) (snd m)) (replicate_modules block nr_of_layers)).

(** sdnn.py:15-18 *)
Definition simple_block_params : params := linear_params "l1" 1 1 true.
(** sdnn.py:27-31 *)
Definition updown_block_params (f : nat) : params := (linear_params "l1" 1 f true ++ linear_params "l2" f 1 true)%list.
(** sdnn.py:41-45 *)
Definition double_block_params (f : nat) : params := (linear_params "l1" f 1 true ++ linear_params "l2" 1 f false)%list.
(** sdnn.py:91-96 *)
Definition double_rnn_params (f : nat) : params := under "l1" (double_block_params f).
(** sdnn.py:109-115 *)
Definition rnn_params (f : nat) : params := (linear_params "l1" f 1 true ++ linear_params "l2" 1 f true)%list.

(** ** sfm.py:205-260 *)
Section Collect.
  (** Values of parameters, with their sizes. *)
  Context {V : Type}.
  Variable size : V -> list nat.

  (** [names[1]] (sfm.py:227, 230, 256) *)
  Definition layer_of (name : string) : result string := list_item (split_on "."%char name) 1.

  (** ['.'.join(names[2:])] (sfm.py:231, 259) *)
  Definition par_of (name : string) : string := concat "." (skipn 2 (split_on "."%char name)).

  (** sfm.py:221-234: names and sizes of the parameters of the first layer; [first] is
      [first_layer_name]. *)
  Fixpoint first_block (first : string) (named : list (string * V)) : result (pdict (list nat)) :=
    match named with
    | [] => Ok []
    | (n, v) :: r =>
        l <- layer_of n ;;
        if String.eqb first l then b <- first_block first r ;; Ok ((par_of n, size v) :: b) else Ok []
    end.

  (** An array of sfm.py:243-245: the size of its rows, and the rows; [None] is a row
      of zeros. *)
  Record stack := mkStack { s_size : list nat; s_rows : list (option V) }.

  (** [a[layer_nr,...] = v] (sfm.py:260); broadcasting of [v] is not modelled: other
      sizes are an error. *)
  Definition assign_row (a : stack) (layer_nr : nat) (v : V) : result stack :=
    if negb (Nat.ltb layer_nr (List.length (s_rows a))) then Raise IndexError
    else if list_eq_dec Nat.eq_dec (size v) (s_size a)
    then Ok (mkStack (s_size a)
               (firstn layer_nr (s_rows a) ++ [Some v] ++ skipn (S layer_nr) (s_rows a))%list)
    else Raise RuntimeError.

  (** sfm.py:251-260, one turn. *)
  Definition collect_step (st : string * nat * pdict stack) (nv : string * V) :
      result (string * nat * pdict stack) :=
    match st with
    | (current, layer_nr, pars) =>
        l <- layer_of (fst nv) ;;
        let (current, layer_nr) := if String.eqb current l then (current, layer_nr) else (l, S layer_nr) in
        a <- sd_item (par_of (fst nv)) pars ;;
        a <- assign_row a layer_nr (snd nv) ;;
        Ok (current, layer_nr, pd_set (par_of (fst nv)) a pars)
    end.

  (** sfm.py:205-260 *)
  Definition collect (named : list (string * V)) : result (pdict stack) :=
    match named with
    | [] => Raise ZeroDivisionError
    | (n, _) :: _ =>
        first <- layer_of n ;;
        block <- first_block first named ;;
        let nr_of_layers := Nat.div (List.length named) (List.length block) in
        let pars := fold_left (fun d ps => pd_set (fst ps) (mkStack (snd ps) (repeat None nr_of_layers)) d) block [] in
        st <- foldM collect_step named (first, O, pars) ;;
        Ok (snd st)
    end.
End Collect.

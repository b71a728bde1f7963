(** Model of the whole residual network neuro_shooting/res_net.py (cited as rn.py) with its default
    shooting model AutoShootingIntegrandModelSimpleConv2D (shooting_models.py:1268-1338), down to the
    tensors: the blocks of BlockModel and the striding of StridingModel composed as in rn.py:173-206,
    names and channels from ResNetModel; and of the parameter count tests/striding_and_upsampling.py
    (su.py).

    The initial convolution with batch norm and nonlinearity, the pooling with the linear layer, the ODE
    solver applied to an integrand with given [in_features], and all random values are arbitrary. *)
From Coq Require Import List String Arith ZArith Qcanon Bool.
From Verif Require Import Base Tensor ScdModel BlockModel StridingModel ResNetModel.
Import ListNotations.
Open Scope string_scope.
Open Scope list_scope.
Open Scope nat_scope.

Section Network.
Context {A : Type}.
Variable zero : A.
(** Attributes of a block that are not parameters (torch refuses to register parameters with their names). *)
Variable has_attr : string -> bool.
(** Random initial values: by block, variable and position; and by block, enlargement object and position. *)
Variable init : string -> string -> nat -> A.
Variable rnd : string -> nat -> nat -> A.
(** The integrator (rn.py:53-62) with the integrand of a block, by its number of features. *)
Variable solve : nat -> @block A -> list A -> list Qc -> result (tensor A).
(** rn.py:176-178 and rn.py:200-202 *)
Variable stem : tensor A -> result (tensor A).
Variable head : @output A -> result (tensor A).

Notation tdict := (sdict (tensor A)).
Notation tdicts := (sdict (sdict (tensor A))).

(** The integrand's attributes used by a block: concatenate_parameters (shooting_models.py:1270),
    concatenation_dim (shooting_integrands.py:1049), enlargement_dimensions (shooting_models.py:1285),
    initialisers with random values (rn.py:44,51), initial data (shooting_models.py:1328-1334) and the
    variable returned (shooting_models.py:1336-1338). *)
Definition conv_integrand : @integrand A :=
  mkIntegrand true 1 true true true
    (fun x => Ok [("q1", x); ("q2", tfill zero (tshape x))]) "q1".

(** parameter_initialization.py:165-167, 71-75: a tensor of random values. *)
Definition random_tensor (name k : string) (shape : list nat) : tensor A :=
  mkT shape (map (init name k) (seq 0 (prod shape))).

(** shooting_models.py:1288-1302: the particles of a block, [nr_of_particles, particle_dimension, *particle_size]. *)
Definition initial_state (name : string) (shape : list nat) : tdict :=
  [("q1", random_tensor name "q1" shape); ("q2", random_tensor name "q2" shape)].

(** shooting_integrands.py:438-457 *)
Definition initial_costate (name : string) (state : tdict) : tdict :=
  map (fun kt => ("p_" ++ fst kt, random_tensor name ("p_" ++ fst kt) (tshape (snd kt))))%string state.

(** A block with [in_features] of its integrand. *)
Record netblock := mkNB { nb_features : nat; nb_block : @block A }.

(** rn.py:103-123 with shooting_integrands.py:431-436: a pass-through block has no particles. *)
Definition create_block (nr_of_particles : nat) (particle_size : list nat) (b : rblock) : result netblock :=
  let state := match rb_own b with
               | Some c => Some (initial_state (rb_name b) (nr_of_particles :: Z.to_nat c :: particle_size))
               | None => None
               end in
  let costate := match state with
                 | Some s => Some (initial_costate (rb_name b) s)
                 | None => None
                 end in
  blk <- new_block has_attr (rb_name b) state costate true false false false [] [] None 1 ;;
  Ok (mkNB (Z.to_nat (rb_in b)) blk).

(** The attributes of rn.py:31-34, 64-92: channels of the images, the layers, the classes and the stride. *)
Record network := mkNet {
  nw_image_channels : nat;
  nw_channels : list nat;
  nw_layers : list (list netblock);
  nw_stride : Z;
  nw_classes : nat }.

(** rn.py:14-94; the construction is that of ResNetModel, with the blocks filled in. *)
Definition create_network (nr_of_image_channels : nat) (layer_channels nr_of_blocks_per_layer : list nat)
    (downsampling_stride : Z) (particle_sizes : list (list nat)) (nr_of_particles nr_of_classes : nat)
    : result network :=
  net <- create_resnet (map Z.of_nat layer_channels) nr_of_blocks_per_layer (List.length particle_sizes) ;;
  layers <- mapM (fun ls => mapM (create_block nr_of_particles (snd ls)) (fst ls))
                 (combine (rn_layers net) particle_sizes) ;;
  Ok (mkNet nr_of_image_channels layer_channels layers downsampling_stride nr_of_classes).

(** What the loop of rn.py:182-196 carries: [ret] and the three dictionaries, unbound before the first block. *)
Definition carry : Type := (@output A * option (tdicts * tdicts * tdicts))%type.

(** rn.py:184-190: one block.  Its attributes are changed also when it raises. *)
Definition run_netblock (c : carry) (nb : netblock) : netblock * result carry :=
  let fwd := BlockModel.forward zero conv_integrand has_attr (rnd (b_name (nb_block nb))) (solve (nb_features nb)) in
  match c with
  | (RTensor x, None) =>
      let '(b, r) := fwd (Some x) None None None (nb_block nb) in
      (mkNB (nb_features nb) b,
       '(_, s, c, d) <- r ;; Ok (RTensor x, Some (s, c, d)))
  | (_, None) => (nb, Raise TypeError)
  | (_, Some (s, c, d)) =>
      let '(b, r) := fwd None (Some s) (Some c) (Some d) (nb_block nb) in
      (mkNB (nb_features nb) b,
       '(o, s, c, d) <- r ;; Ok (o, Some (s, c, d)))
  end.

(** rn.py:183: the blocks of a layer, one after the other. *)
Fixpoint run_netblocks (c : carry) (l : list netblock) : list netblock * result carry :=
  match l with
  | [] => ([], Ok c)
  | nb :: rest =>
      match run_netblock c nb with
      | (nb', Ok c') => let '(rest', r) := run_netblocks c' rest in (nb' :: rest', r)
      | (nb', Raise e) => (nb' :: rest, Raise e)
      end
  end.

(** rn.py:169 and rn.py:192-196 *)
Definition run_striding (stride : Z) (c : carry) : result carry :=
  sb <- new_striding (SeqArg [stride; stride]) (SeqArg [2; 3]%Z) ;;
  match snd c with
  | None => Raise UnboundLocalError
  | Some (s, co, d) =>
      '(s, co, d) <- striding_forward sb (Some s) (Some co) (Some d) ;;
      Ok (fst c, Some (s, co, d))
  end.

(** rn.py:182-196: the layers, striding after each but the last (rn.py:74). *)
Fixpoint run_netlayers (stride : Z) (c : carry) (l : list (list netblock)) : list (list netblock) * result carry :=
  match l with
  | [] => ([], Ok c)
  | layer :: rest =>
      match run_netblocks c layer with
      | (layer', Ok c') =>
          match rest with
          | [] => ([layer'], Ok c')
          | _ => match run_striding stride c' with
                 | Ok c'' => let '(rest', r) := run_netlayers stride c'' rest in (layer' :: rest', r)
                 | Raise e => (layer' :: rest, Raise e)
                 end
          end
      | (layer', Raise e) => (layer' :: rest, Raise e)
      end
  end.

(** rn.py:173-206 *)
Definition network_forward (net : network) (x : tensor A) : network * result (tensor A) :=
  match stem x with
  | Raise e => (net, Raise e)
  | Ok ret =>
      let '(layers, r) := run_netlayers (nw_stride net) (RTensor ret, None) (nw_layers net) in
      (mkNet (nw_image_channels net) (nw_channels net) layers (nw_stride net) (nw_classes net),
       c <- r ;; head (fst c))
  end.

(** numel() of a registered parameter (su.py:17). *)
Definition numel_of (b : @block A) (o : pobj) : option nat :=
  match o with
  | OState k => match b_state b with Some d => option_map (fun t => prod (tshape t)) (sd_get k d) | None => None end
  | OCostate k => match b_costate b with Some d => option_map (fun t => prod (tshape t)) (sd_get k d) | None => None end
  | OEnlarge p => option_map (@List.length A) (nth_error (b_store b) p)
  | _ => None
  end.

(** torch's named_parameters of a block, with its prefix (su.py:9,144). *)
Definition block_parameters (b : @block A) : list (string * option nat) :=
  map (fun np => (b_name b ++ "." ++ fst np, numel_of b (snd np))%string) (b_registry b).

(** torch's named_parameters of the network with the numbers of their elements: the modules in the order of
    rn.py:71-72, 154, 92.  Blocks are registered with add_module; the list [shooting_layers] is not. *)
Definition network_parameters (net : network) : list (string * option nat) :=
  let c0 := nth 0 (nw_channels net) 0 in
  [("initial_conv.weight", Some (c0 * nw_image_channels net * (3 * 3))); ("initial_conv.bias", Some c0);
   ("batch_norm.weight", Some c0); ("batch_norm.bias", Some c0)]
  ++ flat_map (fun l => flat_map (fun nb => block_parameters (nb_block nb)) l) (nw_layers net)
  ++ [("last_linear.weight", Some (nw_classes net * last (nw_channels net) 0)); ("last_linear.bias", Some (nw_classes net))].
End Network.

(** su.py:5-37: passed tests, failed tests and the total number of parameters. *)
Definition count_print_and_compare_parameters (named_parameters : list (string * nat)) (target : pdict nat)
    : nat * nat * nat :=
  fold_left (fun acc p =>
    let '(passed, failed, total) := acc in
    match pd_get (fst p) target with
    | Some expected => if expected =? snd p then (S passed, failed, total + snd p) else (passed, S failed, total + snd p)
    | None => (passed, S failed, total + snd p)
    end) named_parameters (0, 0, 0).

(** su.py:94-122: what the script expects, for two layers.  [//] of naturals by a positive stride. *)
Definition expected_parameters (c0 c1 a0 b0 a1 b1 nr_of_particles stride nr_of_classes : nat) : pdict nat :=
  let conv_filter_size := 3 * 3 in
  let pars_layer_0 := nr_of_particles * c0 * a0 * b0 in
  let pars_layer_1_nd := nr_of_particles * (c1 - c0) * a1 * b1 in
  let patch_size_after_downsampling := (a0 / stride) * (b0 / stride) in
  let pars_layer_1_enlarge := (a1 * b1 - patch_size_after_downsampling) * nr_of_particles * c0 in
  [("initial_conv.weight", conv_filter_size * c0); ("initial_conv.bias", c0);
   ("batch_norm.weight", c0); ("batch_norm.bias", c0);
   ("shooting_layer_0_0.q1", pars_layer_0); ("shooting_layer_0_0.q2", pars_layer_0);
   ("shooting_layer_0_0.p_q1", pars_layer_0); ("shooting_layer_0_0.p_q2", pars_layer_0);
   ("shooting_layer_1_0.q1", pars_layer_1_nd); ("shooting_layer_1_0.q2", pars_layer_1_nd);
   ("shooting_layer_1_0.p_q1", pars_layer_1_nd); ("shooting_layer_1_0.p_q2", pars_layer_1_nd);
   ("shooting_layer_1_0.pt_enlarge_q1", pars_layer_1_enlarge); ("shooting_layer_1_0.pt_enlarge_q2", pars_layer_1_enlarge);
   ("shooting_layer_1_0.pt_enlarge_p_q1", pars_layer_1_enlarge); ("shooting_layer_1_0.pt_enlarge_p_q2", pars_layer_1_enlarge);
   ("last_linear.weight", c1 * nr_of_classes); ("last_linear.bias", nr_of_classes)].

(** Model of seeding and of what is drawn from random generators in the demos: neuro_shooting/utils.py (nsutils.py), and
    demos/neurips20/ cc.py, utils.py, rot.py, balls.py, spiral.py and simple_functional_mapping_example.py (sfm.py).

    There are three generators: Python's, numpy's and torch's.  Their states, what seeding makes of them, and drawing
    are external and arbitrary.  A program is a function of the states, see [eff].  What the demos do after seeding is
    an arbitrary program, except for the data and for the order of the training samples.  A loader of torch draws
    one number when an iteration is started, and then, if it shuffles, a permutation (torch's data loader, external:
    [_BaseDataLoaderIter.__init__] draws [_base_seed]).  Printing and devices are left out, nothing is drawn there. *)
From Coq Require Import List String ZArith QArith Reals Bool.
From Verif Require Import Base ArgparseModel ExperimentModel RecordModel SphereModel FunctionalDataModel FunctionalModel
  SpiralModel LoaderModel.
Import ListNotations.
Open Scope string_scope.
Open Scope list_scope.
Open Scope nat_scope.

(** A value computed without drawing, which may raise (cc.py:354). *)
Definition pure {H A} (r : result A) : eff (H := H) A := fun h => (r, h).

Section Generators.
(** States of the generators of Python, numpy and torch. *)
Variables Gp Gn Gt : Type.
(** All generators. *)
Record gens : Type := mkGens { g_py : Gp; g_np : Gn; g_torch : Gt }.
(** [random.seed], [np.random.seed], [torch.manual_seed] (nsutils.py:16-18). *)
Variable py_seed : Z -> Gp.
Variable np_seed : Z -> Gn.
Variable torch_seed : Z -> Gt.

(** Replacing the state of one generator (nsutils.py:16-18). *)
Definition set_py (x : Gp) : eff (H := gens) unit := fun g => (Ok tt, mkGens x (g_np g) (g_torch g)).
(** The same for numpy (nsutils.py:17). *)
Definition set_np (x : Gn) : eff (H := gens) unit := fun g => (Ok tt, mkGens (g_py g) x (g_torch g)).
(** The same for torch (nsutils.py:18). *)
Definition set_torch (x : Gt) : eff (H := gens) unit := fun g => (Ok tt, mkGens (g_py g) (g_np g) x).
(** Drawing from one generator (utils.py:35, 37; sfm.py:143). *)
Definition draw_py {A} (f : Gp -> A * Gp) : eff (H := gens) A := fun g =>
  let (a, x) := f (g_py g) in (Ok a, mkGens x (g_np g) (g_torch g)).
(** The same for torch (utils.py:37, sfm.py:143). *)
Definition draw_torch {A} (f : Gt -> A * Gt) : eff (H := gens) A := fun g =>
  let (a, x) := f (g_torch g) in (Ok a, mkGens (g_py g) (g_np g) x).

(** nsutils.py:11-18, and the same in cc.py:61-68, rot.py:134-141, balls.py:134-141; numpy refuses seeds outside of
    0 <= seed < 2^32 (external). *)
Definition setup_random_seed (seed : Z) : eff (H := gens) unit :=
  if (seed =? -1)%Z then give tt
  else
    then_ (set_py (py_seed seed)) (fun _ =>
    then_ (if ((0 <=? seed) && (seed <? 2 ^ 32))%Z then set_np (np_seed seed) else pure (Raise ValueError)) (fun _ =>
    set_torch (torch_seed seed))).

Section Scripts.
Context {A : Type}.

(** The programs of rot.py:267-278, balls.py:284-295, sfm.py:426-432 and spiral.py:465-482: seeding comes
    first, then everything else. *)
Definition seeded_first (rest : pdict argval -> eff (H := gens) A) (ns : pdict argval) : eff (H := gens) A :=
  then_ (pure (int_of "seed" ns)) (fun seed => then_ (setup_random_seed seed) (fun _ => rest ns)).

(** A program started with a command line; [None]: argparse ends it (sfm.py:428). *)
Definition start (p : parser) (main : pdict argval -> eff (H := gens) A) (words : list string) : eff (H := gens) (option A) :=
  match parse_args p words with
  | None => give None
  | Some ns => then_ (main ns) (fun a => give (Some a))
  end.
End Scripts.

Section Circles.
(** [random()] and [torch.randn(dim)] (utils.py:35, 37). *)
Variable uniform : Gp -> R * Gp.
Variable randn : nat -> Gt -> list R * Gt.

(** utils.py:34-39 with its draws *)
Definition draw_point (dim : nat) (range : R * R) : eff (H := gens) (list R) :=
  then_ (draw_py uniform) (fun u =>
  then_ (pure (root dim u)) (fun _ =>
  then_ (draw_torch (randn dim)) (fun dir =>
  pure (random_point_in_sphere u dir dim (fst range) (snd range))))).

(** utils.py:55-59, 62-66 *)
Fixpoint draw_points (num : nat) (dim : nat) (range : R * R) (label : R) : eff (H := gens) (list (list R * R)) :=
  match num with
  | 0 => give []
  | S num => then_ (draw_point dim range) (fun p => then_ (draw_points num dim range label) (fun l => give ((p, label) :: l)))
  end.

(** utils.py:43-66 *)
Definition draw_sphere (dim : nat) (inner_range outer_range : R * R) (num_points_inner num_points_outer : nat) :
    eff (H := gens) (list (list R * R)) :=
  then_ (draw_points num_points_inner dim inner_range 0%R) (fun inner =>
  then_ (draw_points num_points_outer dim outer_range 1%R) (fun outer => give (inner ++ outer))).

(** cc.py:263-277: training data and test data *)
Definition cc_data : eff (H := gens) (list (list R * R) * list (list R * R)) :=
  let sphere := draw_sphere 2 (0, 1 / 2)%R (1, 3 / 2)%R (Z.to_nat 1000) (Z.to_nat 2000) in
  then_ sphere (fun train => then_ sphere (fun test => give (train, test))).

(** cc.py:347-429: the data, the loaders (batch sizes below 1 are refused), seeding, everything else *)
Definition cc_main {A} (rest : pdict argval -> list (list R * R) * list (list R * R) -> eff (H := gens) A)
    (ns : pdict argval) : eff (H := gens) A :=
  then_ cc_data (fun d =>
  then_ (pure (bs <- int_of "batch_size" ns ;; if (bs <=? 0)%Z then Raise ValueError else Ok tt)) (fun _ =>
  then_ (pure (int_of "seed" ns)) (fun seed =>
  then_ (setup_random_seed seed) (fun _ => rest ns d)))).
End Circles.

Section Mapping.
(** [torch.rand] of a number of values (sfm.py:143). *)
Variable rand : nat -> Gt -> list R * Gt.

(** A data set with the draws (sfm.py:154-166), and [DataLoader] (batch sizes below 1 are refused). *)
Definition draw_dataset (batch_size : Z) (n : nat) (uniform_sample : bool) (max_x : R) (fcn_type : string) :
    eff (H := gens) (list (R * R)) :=
  then_ (if uniform_sample then give [] else draw_torch (rand n)) (fun u =>
  then_ (pure (FunctionalDataModel.function_dataset (fun i => nth i u 0%R) n uniform_sample max_x fcn_type)) (fun d =>
  if (batch_size <=? 0)%Z then pure (Raise ValueError) else give d)).

(** sfm.py:180-202, the samples of the loaders for training, testing, evaluation and visualization *)
Definition sfm_data (batch_size : Z) (max_x : R) (fcn_type : string) :
    eff (H := gens) (list (R * R) * list (R * R) * list (R * R) * list (R * R)) :=
  then_ (draw_dataset batch_size 500 false max_x fcn_type) (fun train =>
  then_ (draw_dataset 1000 (Z.to_nat 1000) false max_x fcn_type) (fun train_eval =>
  then_ (draw_dataset 1000 (Z.to_nat 1000) true max_x fcn_type) (fun test =>
  then_ (draw_dataset 50 50 true max_x fcn_type) (fun vis => give (train, test, train_eval, vis))))).

(** sfm.py:426-436 and what follows *)
Definition sfm_main {A} (rest : pdict argval -> list (R * R) * list (R * R) * list (R * R) * list (R * R) -> eff (H := gens) A)
    : pdict argval -> eff (H := gens) A :=
  seeded_first (fun ns =>
    then_ (pure (bs <- int_of "batch_size" ns ;;
                 x <- match pd_get "xrange" ns with Some (ANum q) => Ok (Q2R q) | _ => Raise AttributeError end ;;
                 f <- text_of "fcn" ns ;; Ok (bs, x, f)))
          (fun '(bs, x, f) => then_ (sfm_data bs x f) (rest ns))).
End Mapping.
End Generators.

Section Order.
(** The state of torch's generator, what starting an iteration makes of it, and [torch.randperm]. *)
Variable Gt : Type.
Variable base_seed : Gt -> Gt.
Variable randperm : nat -> Gt -> list nat * Gt.

(** An evaluation starts an iteration of the evaluation loader (sfm.py:636). *)
Definition after_event (g : Gt) (e : event) : Gt := match e with Evaluate _ => base_seed g | _ => g end.

(** The order in which an epoch visits the 500 training samples (sfm.py:590), and the evaluation (sfm.py:632-660). *)
Definition order_epoch (a : fargs) (st : list (list nat) * Gt) (itr : Z) : result (list (list nat) * Gt) :=
  let (orders, g) := st in
  let (order, g) := randperm 500 (base_seed g) in
  e <- sfm_evaluate a itr ;;
  Ok (orders ++ [order], fold_left after_event e g).

(** The orders of all epochs (sfm.py:581-660), with the state of torch's generator before the first. *)
Definition sfm_orders (a : fargs) (g : Gt) : result (list (list nat)) :=
  st <- foldM (order_epoch a) (zrange (a_niters a + 1)) ([], g) ;; Ok (fst st).
End Order.

Section Windows.
(** Times, points, numpy's generator and its [choice], see [LoaderModel]. *)
Variables T X G : Type.
Variable draw : nat -> G -> list nat * G.

(** The options of spiral.py used here (spiral.py:39-107). *)
Record sargs : Type := mkSargs {
  w_batch_time : Z; w_batch_size : Z; w_disable_distance_based : bool; w_long_range : bool;
  w_custom_init : bool; w_particles : nat; w_niters : Z; w_test_freq : Z; w_viz_freq : Z }.

(** A batch: start points, times, points for each offset. *)
Definition batch : Type := (list X * list T * list (list X))%type.

(** [next(iter(loader))] for a loader which does not shuffle (spiral.py:580-584, 608-611). *)
Definition first_batch (l : loader T X) (g : G) : result unit * G :=
  match iterate T X G draw l [] g with
  | (Raise e, g) => (Raise e, g)
  | (Ok ([], _), g) => (Raise RuntimeError, g)
  | (Ok (_ :: _, _), g) => (Ok tt, g)
  end.

(** One epoch (spiral.py:548-624): the training batches, then evaluation and visualization.  [order] is the order of
    the training samples; the flag tells whether [loss] is assigned (spiral.py:574). *)
Definition window_epoch (a : sargs) (eval test : loader T X) (train : loader T X) (has_loss : bool) (order : list nat) (itr : Z)
    (g : G) : result (list batch * loader T X * bool) * G :=
  match iterate T X G draw train order g with
  | (Raise e, g) => (Raise e, g)
  | (Ok (bs, s), g) =>
      let train := mkLoader T X s (l_batch_size T X train) (l_shuffle T X train) in
      let has_loss := has_loss || negb (Nat.eqb (List.length bs) 0) in
      match py_or (multiple_of itr (w_test_freq a)) (py_or (multiple_of itr (w_viz_freq a)) (Ok (itr =? w_niters a)%Z)) with
      | Raise e => (Raise e, g)
      | Ok due =>
          match (if due then if has_loss then first_batch eval g else (Raise NameError, g) else (Ok tt, g)) with
          | (Raise e, g) => (Raise e, g)
          | (Ok _, g) =>
              match multiple_of itr (w_viz_freq a) with
              | Raise e => (Raise e, g)
              | Ok show =>
                  match (if show : bool then first_batch test g else (Ok tt, g)) with
                  | (Raise e, g) => (Raise e, g)
                  | (Ok _, g) => (Ok (bs, train, has_loss), g)
                  end
              end
          end
      end
  end.

(** The epochs (spiral.py:546-624): the training batches of each; [order k] is the order which torch has drawn for
    epoch [k]. *)
Fixpoint window_epochs (a : sargs) (eval test : loader T X) (order : Z -> list nat) (train : loader T X) (has_loss : bool)
    (itrs : list Z) (g : G) : result (list (list batch)) * G :=
  match itrs with
  | [] => (Ok [], g)
  | itr :: itrs =>
      match window_epoch a eval test train has_loss (order itr) itr g with
      | (Raise e, g) => (Raise e, g)
      | (Ok (bs, train, has_loss), g) =>
          match window_epochs a eval test order train has_loss itrs g with
          | (Raise e, g) => (Raise e, g)
          | (Ok l, g) => (Ok (bs :: l), g)
          end
      end
  end.

(** spiral.py:491-624: the loaders, an initial batch, possibly points for the particles, the epochs; [g] is the state of
    numpy's generator after seeding. *)
Definition spiral_windows (a : sargs) (d : data_dict T X) (order : Z -> list nat) (g : G) : result (list (list batch)) * G :=
  match LoaderModel.get_function_data_loaders T X G draw (w_batch_time a) (w_batch_size a) (w_disable_distance_based a)
          (w_long_range a) d 100 100 (Z.to_nat 1000) 100 g with
  | (Raise e, g) => (Raise e, g)
  | (Ok (train, eval, _, test), g) =>
      match get_batch_g T X G draw d (Z.to_nat (w_batch_size a)) (w_batch_time a) (negb (w_disable_distance_based a)) g with
      | (Raise e, g) => (Raise e, g)
      | (Ok _, g) =>
          match (if w_custom_init a then get_batch_g T X G draw d (w_particles a) 1 true g else (Ok ([], [], []), g)) with
          | (Raise e, g) => (Raise e, g)
          | (Ok _, g) => window_epochs a eval test order train false (zrange (w_niters a + 1)) g
          end
      end
  end.
End Windows.

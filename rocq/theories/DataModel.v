(** Model of neuro_shooting/data_loaders.py ([data.py]) and of [sample] and
    [dataset_to_numpy] in demos/neurips20/utils.py ([utils.py]).

    Simplifications: a data set is the list of its samples; downloading, worker
    processes and pixel values are left out, an image is represented by its size;
    labels are integers. *)
From Coq Require Import List String ZArith Arith Bool.
From Verif Require Import Base.
Import ListNotations.
Open Scope string_scope.
Open Scope nat_scope.

Section Loader.
  Context {X : Type}.

  (** The batches of torch's [DataLoader] (external; data.py:37-50): consecutive
      runs of [b] samples of the (possibly shuffled) data; an incomplete last one is
      kept or dropped.  [fuel] bounds the number of batches. *)
  Fixpoint batches_of (fuel b : nat) (drop_last : bool) (l : list X) : list (list X) :=
    match fuel with
    | O => []
    | S f =>
        match l with
        | [] => []
        | _ => if Nat.leb b (List.length l)
               then firstn b l :: batches_of f b drop_last (skipn b l)
               else if drop_last then [] else [l]
        end
    end.

  (** [DataLoader(ds, batch_size=b, shuffle=.., drop_last=..)] iterated once;
      [order] is the shuffling (the identity without).  A batch size that is not
      positive raises when the loader is made, as does shuffling an empty data set
      (external; data.py:37-50). *)
  Definition loader (b : Z) (shuffle drop_last : bool) (order : list X -> list X) (ds : list X) :
      result (list (list X)) :=
    if Z.leb b 0 then Raise ValueError
    else if shuffle && Nat.eqb (List.length ds) 0 then Raise ValueError
    else Ok (batches_of (List.length ds) (Z.to_nat b) drop_last (if shuffle then order ds else ds)).
End Loader.

(** Side length of the images of a data set (external: torchvision). *)
Definition image_size (dataset : string) : option nat :=
  if String.eqb dataset "MNIST" then Some 28
  else if String.eqb dataset "CIFAR10" then Some 32
  else if String.eqb dataset "CIFAR100" then Some 32
  else None.

(** [transforms.RandomCrop(size, padding)] on a square image (external; data.py:19):
    the padded image must be at least as large as the crop. *)
Definition random_crop (size padding side : nat) : result nat :=
  if Nat.leb size (side + 2 * padding) then Ok size else Raise ValueError.

(** data.py:17-25: the training transformation, on the side length of an image. *)
Definition transform_train (data_aug : bool) (side : nat) : result nat :=
  if data_aug then random_crop 28 4 side else Ok side.
(** data.py:27-29: the test transformation keeps the size. *)
Definition transform_test (side : nat) : result nat := Ok side.

(** data.py:10-12 [nr_of_labels_per_dataset]. *)
Definition nr_of_labels_per_dataset : list (string * nat) :=
  [("MNIST", 10); ("CIFAR10", 10); ("CIFAR100", 100)].

(** data.py:8 [supported_datasets]. *)
Definition supported_datasets : list string := ["MNIST"; "CIFAR10"; "CIFAR100"].

(** Looking up a key of a Python dictionary. *)
Fixpoint lookup {A} (k : string) (d : list (string * A)) : result A :=
  match d with
  | [] => Raise KeyError
  | (k', a) :: r => if String.eqb k k' then Ok a else lookup k r
  end.

(** data.py:5-52 [get_data_loaders], each loader iterated once: [fetch d train]
    gives the samples of data set [d] (external), each of side length
    [image_size d].  Returns training, test and training-evaluation batches, each
    sample with the side length it has after the transformation, and the number of
    classes. *)
Definition get_data_loaders {X} (fetch : string -> bool -> list X) (order : list (X * nat) -> list (X * nat))
    (dataset : string) (data_aug : bool) (batch_size test_batch_size : Z) :
    result (list (list (X * nat)) * list (list (X * nat)) * list (list (X * nat)) * nat) :=
  if negb (existsb (String.eqb dataset) supported_datasets) then Raise ValueError
  else
    match image_size dataset with
    | None => Raise AttributeError
    | Some side =>
        nr_of_classes <- lookup dataset nr_of_labels_per_dataset ;;
        tr_side <- transform_train data_aug side ;;
        te_side <- transform_test side ;;
        let with_side (s : nat) (l : list X) := map (fun x => (x, s)) l in
        train_loader <- loader batch_size true true order (with_side tr_side (fetch dataset true)) ;;
        train_eval_loader <- loader test_batch_size false true order (with_side te_side (fetch dataset true)) ;;
        test_loader <- loader test_batch_size false true order (with_side te_side (fetch dataset false)) ;;
        Ok (train_loader, test_loader, train_eval_loader, nr_of_classes)
    end.

(** [np.where(tmp==v)[0]] (utils.py:88-89): the positions of a label. *)
Definition positions (v : Z) (labels : list Z) : list nat :=
  filter (fun i => match nth_error labels i with Some x => Z.eqb x v | None => false end)
         (seq 0 (List.length labels)).

(** [np.random.randint(0, n, N)] (utils.py:91-93): [draw i] is the i-th random
    number, reduced to the range; no range raises unless nothing is drawn. *)
Definition randint (draw : nat -> nat) (n N : nat) : result (list nat) :=
  if Nat.eqb N 0 then Ok []
  else if Nat.eqb n 0 then Raise ValueError
  else Ok (map (fun i => Nat.modulo (draw i) n) (seq 0 N)).

(** Indexing an array with an array of positions (utils.py:91-93). *)
Definition take (l : list nat) (idx : list nat) : result (list nat) :=
  mapM (fun i => match nth_error l i with Some x => Ok x | None => Raise IndexError end) idx.

(** utils.py:83-95 [sample], returning the indices of the subset; [targets] are the
    labels as integers; [draw1] and [draw2] are the two uses of the generator. *)
Definition sample (draw1 draw2 : nat -> nat) (targets : list Z) (N : nat) : result (list nat) :=
  if negb (Nat.leb N (List.length targets)) then Raise AssertionError
  else if negb (Nat.eqb (List.length (nodup Z.eq_dec targets)) 2) then Raise AssertionError
  else
    let idx0 := positions 1 targets in
    let idx1 := positions 0 targets in
    r0 <- randint draw1 (List.length idx0) N ;;
    i0 <- take idx0 r0 ;;
    r1 <- randint draw2 (List.length idx1) N ;;
    i1 <- take idx1 r1 ;;
    Ok (i0 ++ i1)%list.

(** utils.py:75-80 [dataset_to_numpy]: stacking the batches of a loader; stacking
    nothing raises. *)
Definition dataset_to_numpy {X Y} (batches : list (list (X * Y))) : result (list X * list Y) :=
  match batches with
  | [] => Raise ValueError
  | _ => Ok (List.concat (map (map fst) batches), List.concat (map (map snd) batches))
  end.

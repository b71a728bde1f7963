(** Vocabulary for striding. *)
From Coq Require Import List String Arith ZArith Bool.
From Verif Require Import Base Tensor.
Import ListNotations.

(** A stride plan: which dimensions are subsampled by which stride. *)
Definition stride_plan := list (nat * nat).   (* (dimension, stride) *)

Fixpoint stride_of (p : stride_plan) (d : nat) : option nat :=
  match p with
  | [] => None
  | (d', s) :: r => if d =? d' then Some s else stride_of r d
  end.

(** The extent left of an extent [n] of dimension [d], and the position element
    [j] is taken from. *)
Definition kept_extent (p : stride_plan) (d n : nat) : nat :=
  match stride_of p d with Some s => n / s | None => n end.

Definition kept_position (p : stride_plan) (d n j : nat) : nat :=
  match stride_of p d with Some s => n mod s + j * s | None => j end.

(** [l] with [f i] applied to the element number [i]. *)
Fixpoint mapi_from {A B} (i : nat) (f : nat -> A -> B) (l : list A) : list B :=
  match l with
  | [] => []
  | a :: r => f i a :: mapi_from (S i) f r
  end.

(** [r] is [t] subsampled. *)
Definition subsampled {A} (p : stride_plan) (t r : tensor A) : Prop :=
  tshape r = mapi_from 0 (kept_extent p) (tshape t) /\
  forall idx, valid_idx (tshape r) idx ->
    tget r idx = tget t (mapi_from 0 (fun d nj => kept_position p d (fst nj) (snd nj))
                                  (combine (tshape t) idx)).

(** A plan that can be applied to a tensor: dimensions from the third up to the
    sixth and within the rank, each once, positive strides. *)
Definition admissible (p : stride_plan) (rank : nat) : Prop :=
  NoDup (map fst p) /\
  Forall (fun ds => 2 <= fst ds <= 5 /\ fst ds < rank /\ 0 < snd ds) p.

(** Two dictionaries with the same names and related values. *)
Definition dict_rel {V W} (R : V -> W -> Prop) (d : sdict V) (e : sdict W) : Prop :=
  Forall2 (fun a b => fst a = fst b /\ R (snd a) (snd b)) d e.

(** The plan of a block given by integers, its dimensions shifted by [off]. *)
Definition plan_of (stride dims : list Z) (off : Z) : stride_plan :=
  map (fun sd => (Z.to_nat (snd sd + off), Z.to_nat (fst sd))) (combine stride dims).

Definition integers_ok (stride dims : list Z) (off : Z) : Prop :=
  Forall (fun s => (0 < s)%Z) stride /\ Forall (fun d => (0 <= d + off)%Z) dims.

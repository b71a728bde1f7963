(** Tensors: a shape and the elements in row-major order, over an arbitrary
    element type.  These are the torch operations (external library) the
    modelled code calls, given by their documented index-level meaning. *)
From Coq Require Import List Arith Lia Bool.
From Verif Require Import Base.
Import ListNotations.

(** torch.Tensor (external). *)
Record tensor (A : Type) : Type := mkT { tshape : list nat; tdata : list A }.
Arguments mkT {A} _ _.
Arguments tshape {A} _.
Arguments tdata {A} _.

(** Number of elements of a shape. *)
Definition prod (s : list nat) : nat := fold_right Nat.mul 1 s.

(** Well-formed: as many elements as the shape says. *)
Definition twf {A} (t : tensor A) : Prop := length (tdata t) = prod (tshape t).

(** Row-major position of an index; [None] if out of bounds. *)
Fixpoint ravel (s idx : list nat) : option nat :=
  match s, idx with
  | [], [] => Some 0
  | n :: s', i :: idx' =>
      if i <? n then option_map (fun r => i * prod s' + r) (ravel s' idx') else None
  | _, _ => None
  end.

(** An index within the bounds of a shape. *)
Fixpoint valid_idx (s idx : list nat) : Prop :=
  match s, idx with
  | [], [] => True
  | n :: s', i :: idx' => i < n /\ valid_idx s' idx'
  | _, _ => False
  end.

(** All indices of a shape in row-major order. *)
Fixpoint all_idx (s : list nat) : list (list nat) :=
  match s with
  | [] => [[]]
  | n :: s' => flat_map (fun i => map (cons i) (all_idx s')) (seq 0 n)
  end.

(** [t[i0, i1, ...]] *)
Definition tget {A} (t : tensor A) (idx : list nat) : option A :=
  match ravel (tshape t) idx with
  | Some r => nth_error (tdata t) r
  | None => None
  end.

(** Helper: no or one element. *)
Definition opt_list {A} (o : option A) : list A :=
  match o with Some a => [a] | None => [] end.

(** The tensor of a given shape whose element at [idx] is [src idx]. *)
Definition tgather {A} (s : list nat) (src : list nat -> option A) : tensor A :=
  mkT s (flat_map (fun idx => opt_list (src idx)) (all_idx s)).

(** [l[n] = v] within the bounds of a Python list (scd.py:421, 429-430, 445). *)
Fixpoint set_nth {A} (n : nat) (v : A) (l : list A) : list A :=
  match l, n with
  | [], _ => []
  | _ :: r, O => v :: r
  | a :: r, S n' => a :: set_nth n' v r
  end.

(** [torch.zeros(shape)] for a given zero. *)
Definition tfill {A} (z : A) (s : list nat) : tensor A := mkT s (repeat z (prod s)).

(** [t.contiguous().view(-1)]: a vector is the list of its elements. *)
Definition tflatten {A} (t : tensor A) : list A := tdata t.

(** [v.view(shape)]: RuntimeError if the number of elements differs. *)
Definition tview {A} (l : list A) (s : list nat) : result (tensor A) :=
  if length l =? prod s then Ok (mkT s l) else Raise RuntimeError.

(** [t[:, ..., lo:hi, ...]] with the slice in dimension [d]; Python slices are
    clamped to the extent; IndexError if there is no such dimension. *)
Definition tslice {A} (d lo hi : nat) (t : tensor A) : result (tensor A) :=
  match nth_error (tshape t) d with
  | None => Raise IndexError
  | Some n =>
      let lo' := Nat.min lo n in
      let hi' := Nat.min hi n in
      Ok (tgather (set_nth d (hi' - lo') (tshape t))
            (fun idx => tget t (set_nth d (nth d idx 0 + lo') idx)))
  end.

(** [t[:, ..., off::step, ...]] in dimension [d] (step positive; a zero step is
    a ValueError). *)
Definition tstride {A} (d off step : nat) (t : tensor A) : result (tensor A) :=
  match nth_error (tshape t) d with
  | None => Raise IndexError
  | Some n =>
      if step =? 0 then Raise ValueError
      else Ok (tgather (set_nth d ((n - off + step - 1) / step) (tshape t))
                 (fun idx => tget t (set_nth d (off + nth d idx 0 * step) idx)))
  end.

(** Equality of shapes (Python lists and torch.Size). *)
Fixpoint eqb_list (l1 l2 : list nat) : bool :=
  match l1, l2 with
  | [], [] => true
  | a :: r1, b :: r2 => (a =? b) && eqb_list r1 r2
  | _, _ => false
  end.

(** [torch.cat((a, b), dim=d)]: all other extents must agree, else RuntimeError
    (IndexError for a dimension out of range).  Simplification: torch's legacy
    exception for one-dimensional empty tensors is not modelled. *)
Definition tcat {A} (d : nat) (a b : tensor A) : result (tensor A) :=
  match nth_error (tshape a) d, nth_error (tshape b) d with
  | Some na, Some nb =>
      if eqb_list (set_nth d 0 (tshape a)) (set_nth d 0 (tshape b)) then
        Ok (tgather (set_nth d (na + nb) (tshape a))
              (fun idx => if nth d idx 0 <? na then tget a idx
                          else tget b (set_nth d (nth d idx 0 - na) idx)))
      else Raise RuntimeError
  | None, _ => Raise IndexError
  | _, None => Raise RuntimeError
  end.

(** [t[i, ...]]: one slice of the leading dimension. *)
Definition tselect {A} (i : nat) (t : tensor A) : result (tensor A) :=
  match tshape t with
  | [] => Raise IndexError
  | n :: s => if i <? n then Ok (tgather s (fun idx => tget t (i :: idx))) else Raise IndexError
  end.

(** Elementwise operation. *)
Definition tmap {A B} (f : A -> B) (t : tensor A) : tensor B := mkT (tshape t) (map f (tdata t)).

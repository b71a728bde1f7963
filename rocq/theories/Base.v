(** Shared vocabulary: Python exceptions as values, string order, and
    sorted dictionaries.  No code of /repo is modelled in this file except
    where a definition says so. *)
From Coq Require Import List String Ascii Arith NArith Lia Bool Sorting.Sorted.
Import ListNotations.

(** The Python exceptions raised by the modelled code (built-in exception
    classes; messages are not modelled). *)
Inductive exn : Type :=
| ValueError | KeyError | TypeError | IndexError | AttributeError
| RuntimeError | AssertionError | ZeroDivisionError | UnboundLocalError | NameError
| OSError.

(** Result of running Python code: a value, or an exception. *)
Inductive result (A : Type) : Type :=
| Ok (a : A)
| Raise (e : exn).
Arguments Ok {A} a.
Arguments Raise {A} e.

(** Sequencing: an exception aborts the rest. *)
Definition bind {A B} (m : result A) (f : A -> result B) : result B :=
  match m with
  | Ok a => f a
  | Raise e => Raise e
  end.

Notation "x <- m ;; k" := (bind m (fun x => k))
  (at level 61, m at next level, right associativity).
Notation "' p <- m ;; k" := (bind m (fun x => match x with p => k end))
  (at level 61, p pattern, m at next level, right associativity).

(** A [for] loop over a list whose body may raise. *)
Fixpoint foldM {A S} (f : S -> A -> result S) (l : list A) (s : S) : result S :=
  match l with
  | [] => Ok s
  | a :: r => s' <- f s a ;; foldM f r s'
  end.

(** A list comprehension whose body may raise. *)
Fixpoint mapM {A B} (f : A -> result B) (l : list A) : result (list B) :=
  match l with
  | [] => Ok []
  | a :: r => b <- f a ;; bs <- mapM f r ;; Ok (b :: bs)
  end.

(** Whether a call returned normally. *)
Definition is_ok {A} (r : result A) : bool :=
  match r with Ok _ => true | Raise _ => false end.

(** Python's [<] on (ASCII) strings: lexicographic by code point. *)
Fixpoint str_ltb (a b : string) : bool :=
  match a, b with
  | EmptyString, EmptyString => false
  | EmptyString, String _ _ => true
  | String _ _, EmptyString => false
  | String x a', String y b' =>
      if Ascii.eqb x y then str_ltb a' b'
      else N.ltb (N_of_ascii x) (N_of_ascii y)
  end.

(** The order of keys in a SortedDict (external library). *)
Definition str_lt (a b : string) : Prop := str_ltb a b = true.

(** ** Sorted dictionaries

    [sortedcontainers.SortedDict] with string keys: the list of items in key
    order, which is also the iteration order.  [sd_wf] says the keys are
    strictly increasing. *)
Notation sdict A := (list (string * A)).

(** [list(d)] *)
Definition keys {A} (d : sdict A) : list string := map fst d.

(** The invariant of SortedDict: keys strictly increasing. *)
Definition sd_wf {A} (d : sdict A) : Prop := StronglySorted str_lt (keys d).

(** [d[k] = v] of a SortedDict (external library; insertion in key order). *)
Fixpoint sd_set {A} (k : string) (v : A) (d : sdict A) : sdict A :=
  match d with
  | [] => [(k, v)]
  | (k', v') :: r =>
      if String.eqb k k' then (k, v) :: r
      else if str_ltb k k' then (k, v) :: d
      else (k', v') :: sd_set k v r
  end.

(** [d[k]] ([None] is Python's KeyError). *)
Fixpoint sd_get {A} (k : string) (d : sdict A) : option A :=
  match d with
  | [] => None
  | (k', v') :: r => if String.eqb k k' then Some v' else sd_get k r
  end.

(** [k in d]. *)
Definition sd_mem {A} (k : string) (d : sdict A) : bool :=
  match sd_get k d with Some _ => true | None => false end.

(** [d[k]] as an expression that may raise. *)
Definition sd_item {A} (k : string) (d : sdict A) : result A :=
  match sd_get k d with Some v => Ok v | None => Raise KeyError end.

(** [d.peekitem(0)[1]]: value of the smallest key, IndexError when empty. *)
Definition sd_peek0 {A} (d : sdict A) : result A :=
  match d with
  | [] => Raise IndexError
  | (_, v) :: _ => Ok v
  end.

(** [l[i]] on a Python list or tuple with a non-negative index. *)
Definition list_item {A} (l : list A) (i : nat) : result A :=
  match nth_error l i with Some v => Ok v | None => Raise IndexError end.

(** ** Plain (insertion ordered) dictionaries: Python's [dict]. *)
Notation pdict A := (list (string * A)).

(** [d[k] = v] of a Python dictionary: a new key goes to the end. *)
Fixpoint pd_set {A} (k : string) (v : A) (d : pdict A) : pdict A :=
  match d with
  | [] => [(k, v)]
  | (k', v') :: r =>
      if String.eqb k k' then (k', v) :: r else (k', v') :: pd_set k v r
  end.

(** [d[k]] of a Python dictionary. *)
Definition pd_get {A} := @sd_get A.

(** Model of neuro_shooting/activation_functions_and_derivatives.py (cited as act.py).

    Every function of the file acts on each entry of a tensor separately, so it is modelled on one
    entry; numbers are reals, rounding and overflow are not modelled.  Strings are ASCII. *)
From Coq Require Import List String Ascii Reals Bool NArith.
From Verif Require Import Base.
Import ListNotations.
Open Scope R_scope.

(** act.py:4-5 *)
Definition softmax (epsilon x : R) : R := x * 1 / (exp (- x * epsilon) + 1).

(** act.py:8-9 *)
Definition dsoftmax (epsilon x : R) : R :=
  epsilon * softmax epsilon x * 1 / (exp (epsilon * x) + 1) + 1 / (exp (- x * epsilon) + 1).

(** act.py:11-15: the truth value converted to the number type of the argument. *)
Definition drelu (x : R) : R := if Rle_dec 0 x then 1 else 0.

(** act.py:17-19 *)
Definition dtanh (x : R) : R := 1 - (tanh x) ^ 2.

(** act.py:21-22 *)
Definition identity (x : R) : R := x.

(** act.py:24-25 *)
Definition didentity (x : R) : R := 1.

(** [nn.functional.relu] (external; act.py:47). *)
Definition relu (x : R) : R := Rmax 0 x.

(** [torch.sigmoid] (external; act.py:56-57). *)
Definition sigmoid (x : R) : R := 1 / (1 + exp (- x)).

(** Python's [str.lower] on ASCII (act.py:41). *)
Definition lower_char (c : ascii) : ascii :=
  let n := N_of_ascii c in
  if (N.leb 65 n && N.leb n 90)%bool then ascii_of_N (n + 32) else c.

(** Python's [str.lower] of a whole name (act.py:41). *)
Fixpoint lower (s : string) : string :=
  match s with
  | EmptyString => EmptyString
  | String c r => String (lower_char c) (lower r)
  end.

(** act.py:36 *)
Definition supported_nonlinearities : list string :=
  ["identity"; "relu"; "tanh"; "sigmoid"; "softmax"]%string.

(** act.py:27-64; the result is the pair (nonlinearity, its derivative). *)
Definition get_nonlinearity (nonlinearity : option string) : result ((R -> R) * (R -> R)) :=
  let use := match nonlinearity with
             | None => "identity"%string
             | Some s => lower s
             end in
  if negb (existsb (String.eqb use) supported_nonlinearities) then Raise ValueError
  else if String.eqb use "relu" then Ok (relu, drelu)
  else if String.eqb use "tanh" then Ok (tanh, dtanh)
  else if String.eqb use "identity" then Ok (identity, didentity)
  else if String.eqb use "sigmoid" then Ok (sigmoid, sigmoid)
  else if String.eqb use "softmax" then Ok (softmax 1, dsoftmax 1)
  else Raise ValueError.

(** Specification of the activation functions: names up to case, independent of the model. *)
From Coq Require Import List String Ascii Reals NArith.
Import ListNotations.

(** The letters are the same, or one is the capital of the other. *)
Definition same_letter (a b : ascii) : Prop :=
  a = b \/
  (exists k, (k < 26)%N /\
     ((N_of_ascii a = 65 + k /\ N_of_ascii b = 97 + k)%N \/
      (N_of_ascii a = 97 + k /\ N_of_ascii b = 65 + k)%N)).

(** The strings differ at most in the case of their letters. *)
Definition same_up_to_case (s t : string) : Prop :=
  Forall2 same_letter (list_ascii_of_string s) (list_ascii_of_string t).

(** The names the documentation lists (act.py:29-32). *)
Definition documented : list string := ["identity"; "relu"; "tanh"; "sigmoid"; "softmax"]%string.

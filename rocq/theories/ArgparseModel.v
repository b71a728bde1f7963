(** Python's argparse as far as the parsers declared in neuro_shooting/experiment_utils.py (eu.py),
    demos/neurips20/spiral.py and demos/neurips20/simple_functional_mapping_example.py (sfm.py) use it:
    optional arguments with one value or none.  All of this is external; the lines cited are those which
    rely on it.

    Simplified: ending with an error message or with the help text is [None]; numbers are written with
    digits only (a minus sign, and for floats one point and a power of ten as in 5e-3), other forms which Python
    converts are rejected; the bare word [--] is rejected. *)
From Coq Require Import List String Ascii Arith ZArith QArith Bool DecimalString.
From Verif Require Import Base.
Import ListNotations.
Open Scope string_scope.
Open Scope list_scope.
Open Scope nat_scope.

(** The value of an option after parsing (spiral.py:40-107). *)
Inductive argval := AInt (z : Z) | ANum (q : Q) | AText (s : string) | AFlag (b : bool).

(** [type=] and [choices=] (spiral.py:40-46). *)
Inductive argtype := TInt | TFloat | TText (choices : option (list string)).

(** What [add_argument] declares: an option with a value and its default, a flag ([store_true]), or the
    option [--help] which every parser has (spiral.py:39-55). *)
Inductive kind := Value (t : argtype) (default : argval) | Flag | Help.

(** The options of a parser without their two dashes (spiral.py:39-107). *)
Definition parser := pdict kind.

(** A decimal digit; text of decimal digits (external, spiral.py:42). *)
Definition is_digit (c : ascii) : bool := let n := N_of_ascii c in ((48 <=? n) && (n <=? 57))%N.
Definition digits (s : string) : bool := forallb is_digit (list_ascii_of_string s).

(** [s.split(c, 1)]: the texts before and after the first [c], if there is one
    (external, spiral.py:41, 109). *)
Fixpoint cut (c : ascii) (s : string) : option (string * string) :=
  match s with
  | EmptyString => None
  | String a r => if Ascii.eqb a c then Some (EmptyString, r)
                  else match cut c r with Some (x, y) => Some (String a x, y) | None => None end
  end.

(** A natural number in decimal digits, at least one (external, spiral.py:42). *)
Definition nat_of_text (s : string) : option nat :=
  match s with
  | EmptyString => None
  | _ => match NilEmpty.uint_of_string s with Some u => Some (Nat.of_uint u) | None => None end
  end.

(** [int(s)] (spiral.py:42). *)
Definition int_of_text (s : string) : option Z :=
  match s with
  | String "-" r => option_map (fun n => (- Z.of_nat n)%Z) (nat_of_text r)
  | _ => option_map Z.of_nat (nat_of_text s)
  end.

(** A number with a decimal point at most (external, spiral.py:41). *)
Definition decimal_of_text (s : string) : option Q :=
  match cut "." s with
  | None => option_map inject_Z (int_of_text s)
  | Some (a, b) => if digits b then option_map (fun z => (z # Pos.of_nat (10 ^ String.length b))%Q) (int_of_text (a ++ b)%string) else None
  end.

(** [float(s)] (spiral.py:41): a decimal number, with a power of ten behind an e if any. *)
Definition float_of_text (s : string) : option Q :=
  match cut "e" s with
  | None => decimal_of_text s
  | Some (a, b) => match decimal_of_text a, int_of_text b with
                   | Some q, Some z => Some (q * Qpower 10 z)%Q
                   | _, _ => None
                   end
  end.

(** Conversion and check of the choices (spiral.py:40). *)
Definition convert (t : argtype) (s : string) : option argval :=
  match t with
  | TInt => option_map AInt (int_of_text s)
  | TFloat => option_map ANum (float_of_text s)
  | TText None => Some (AText s)
  | TText (Some l) => if existsb (String.eqb s) l then Some (AText s) else None
  end.

(** A word like -5 or -.5, which is a value when no option looks like a number (spiral.py:48). *)
Definition negative_number (s : string) : bool :=
  match s with
  | String "-" r =>
      (digits r && negb (String.eqb r "")) ||
      match cut "." r with Some (a, b) => digits a && digits b && negb (String.eqb b "") | None => false end
  | _ => false
  end.

(** A space in a word (external, spiral.py:109). *)
Definition has_space (s : string) : bool := existsb (Ascii.eqb " ") (list_ascii_of_string s).

(** What a word of the command line is (spiral.py:109): a value, an option with the value given behind an
    equals sign if any, or neither. *)
Inductive item := Positional | Opt (name : string) (k : kind) (explicit : option string) | Bad.

(** argparse's reading of one word (spiral.py:109): the exact name of an option, else a beginning that
    only one option has. *)
Definition classify (p : parser) (w : string) : item :=
  match w with
  | String "-" (String "-" EmptyString) => Bad
  | String "-" (String "-" r) =>
      match pd_get r p with
      | Some k => Opt r k None
      | None =>
          let '(n, e) := match cut "=" r with Some (a, b) => (a, Some b) | None => (r, None) end in
          match pd_get n p with
          | Some k => Opt n k e
          | None =>
              match filter (fun d => String.prefix n (fst d)) p with
              | [d] => Opt (fst d) (snd d) e
              | [] => if has_space w then Positional else Bad
              | _ => Bad
              end
          end
      end
  | String "-" EmptyString => Positional
  | String "-" _ => if negative_number w || has_space w then Positional else Bad
  | _ => Positional
  end.

(** argparse's loop over the words (spiral.py:109); a value without option is an error as no parser here
    declares positional arguments. *)
Fixpoint parse_words (p : parser) (ws : list string) (ns : pdict argval) : option (pdict argval) :=
  match ws with
  | [] => Some ns
  | w :: ws =>
      match classify p w with
      | Opt n Flag None => parse_words p ws (pd_set n (AFlag true) ns)
      | Opt n (Value t _) (Some v) =>
          match convert t v with Some a => parse_words p ws (pd_set n a ns) | None => None end
      | Opt n (Value t _) None =>
          match ws with
          | [] => None
          | v :: ws' =>
              match classify p v with
              | Positional => match convert t v with Some a => parse_words p ws' (pd_set n a ns) | None => None end
              | _ => None
              end
          end
      | _ => None
      end
  end.

(** The defaults (spiral.py:40-107). *)
Definition defaults (p : parser) : pdict argval :=
  flat_map (fun d => match snd d with Value _ v => [(fst d, v)] | Flag => [(fst d, AFlag false)] | Help => [] end) p.

(** [parser.parse_args()] (spiral.py:109) *)
Definition parse_args (p : parser) (words : list string) : option (pdict argval) :=
  parse_words (("help", Help) :: p) words (defaults p).

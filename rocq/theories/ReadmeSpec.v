(** What a shell does with commands pasted from a text, following the POSIX rules: line continuations, lines, words
    (see ShellSpec).  Nothing here depends on the model. *)
From Coq Require Import List String Ascii Arith Bool.
From Verif Require Import ShellSpec.
Import ListNotations.
Open Scope string_scope.
Open Scope list_scope.
Open Scope nat_scope.

Definition newline : ascii := "010".

(** A backslash directly before a line end disappears with it; before any other character it stays for the lexer.
    (Texts without single quotes.) *)
Fixpoint joined (s : string) : string :=
  match s with
  | EmptyString => EmptyString
  | String c r =>
      if Ascii.eqb c "\" then
        match r with
        | String d r' => if Ascii.eqb d newline then joined r' else String c (String d (joined r'))
        | EmptyString => s
        end
      else String c (joined r)
  end.

(** The lines of a text. *)
Fixpoint lines (s : string) : list string :=
  match s with
  | EmptyString => [EmptyString]
  | String c r =>
      if Ascii.eqb c newline then EmptyString :: lines r
      else match lines r with l :: ls => String c l :: ls | [] => [String c EmptyString] end
  end.

(** The words, when there is no operator. *)
Fixpoint only_words (ts : list token) : option (list string) :=
  match ts with
  | [] => Some []
  | Word w :: ts => option_map (cons w) (only_words ts)
  | Op _ :: _ => None
  end.

(** A line without words starts no command. *)
Definition command (ws : list string) (cs : list (list string)) : list (list string) :=
  match ws with [] => cs | _ => ws :: cs end.

Fixpoint commands_of (ls : list string) : option (list (list string)) :=
  match ls with
  | [] => Some []
  | l :: ls => match lex false None l, commands_of ls with
               | Some ts, Some cs => option_map (fun ws => command ws cs) (only_words ts)
               | _, _ => None
               end
  end.

(** The commands which the shell starts for a pasted text, each a program name with its arguments; [None] where the text
    has operators, expansions or open quotes. *)
Definition pasted (s : string) : option (list (list string)) := commands_of (lines (joined s)).

(** ** How such texts are read by people: words set apart by blanks and line ends; a backslash at a line end means that
    the command goes on. *)
Fixpoint blank_separated (cur : string) (s : string) : list string :=
  match s with
  | EmptyString => match cur with EmptyString => [] | _ => [cur] end
  | String c r =>
      if Ascii.eqb c " " || Ascii.eqb c newline
      then match cur with EmptyString => blank_separated "" r | _ => cur :: blank_separated "" r end
      else blank_separated (cur ++ String c "")%string r
  end.
Definition shown (s : string) : list string := filter (fun w => negb (String.eqb w "\")) (blank_separated "" s).

(** ** Commands over several lines: each line with its indentation, its words and its end. *)
Inductive line_end :=
| Continued            (* a backslash, then the line ends *)
| Spaced (k : nat)     (* a backslash, then k + 1 blanks before the line ends *)
| Bare (k : nat).      (* no backslash, k blanks *)

Definition line : Type := nat * list string * line_end.

Fixpoint blanks (n : nat) : string := match n with 0 => "" | S n => String " " (blanks n) end.
Definition end_text (e : line_end) : string :=
  match e with
  | Continued => " \" ++ String newline ""
  | Spaced k => " \ " ++ blanks k ++ String newline ""
  | Bare k => blanks k ++ String newline ""
  end.
Fixpoint written (l : list line) : string :=
  match l with
  | [] => ""
  | (n, ws, e) :: l => blanks n ++ String.concat " " ws ++ end_text e ++ written l
  end.

(** What is started: the command goes on only after a backslash which directly precedes the line end.  A backslash
    before a blank gives an argument which is this blank, and the command is over. *)
Fixpoint started (cur : list string) (l : list line) : list (list string) :=
  match l with
  | [] => command cur []
  | (_, ws, Continued) :: l => started (cur ++ ws) l
  | (_, ws, Spaced _) :: l => command (cur ++ ws ++ [" "]) (started [] l)
  | (_, ws, Bare _) :: l => command (cur ++ ws) (started [] l)
  end.

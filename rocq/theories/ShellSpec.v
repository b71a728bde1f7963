(** The part of the shell's behaviour that the command properties need, following
    the POSIX shell's token recognition and quoting rules.  Nothing here depends
    on the model.  Expansions (parameters, commands, file names) are outside: the
    lexer gives [None] where they would start. *)
From Coq Require Import List String Ascii Arith ZArith Bool.
Import ListNotations.
Open Scope string_scope.

Inductive token : Type := Word (w : string) | Op (c : ascii).

Definition is_in (c : ascii) (s : string) : bool :=
  (fix go s := match s with EmptyString => false | String a r => Ascii.eqb a c || go r end) s.

(** Characters ending a word: control operators and redirections. *)
Definition operators : string := ";&|<>()".
(** Characters starting an expansion, a pattern, a comment or another kind of
    quoting; tabs and line ends. *)
Definition expansions : string := String "009" (String "010" (String "013" "$`*?[]{}#~!'")).

(** The word in progress, if any, as a token. *)
Definition flush (cur : option string) : list token :=
  match cur with Some w => [Word w] | None => [] end.
Definition add (cur : option string) (c : ascii) : option string :=
  Some (match cur with Some w => w | None => "" end ++ String c "").

(** Token recognition; [quoted] inside double quotes, [cur] the word in progress. *)
Fixpoint lex (quoted : bool) (cur : option string) (s : string) : option (list token) :=
  match s with
  | EmptyString => if quoted then None else Some (flush cur)
  | String c r =>
      if quoted then
        if Ascii.eqb c """" then lex false cur r
        else if Ascii.eqb c "\" then
          match r with
          | EmptyString => None
          | String d r' => if is_in d "$`""\" then lex true (add cur d) r'
                           else lex true (add (add cur c) d) r'
          end
        else if is_in c "$`!" then None
        else lex true (add cur c) r
      else
        if Ascii.eqb c " " then option_map (fun ts => flush cur ++ ts)%list (lex false None r)
        else if Ascii.eqb c """" then lex true (Some (match cur with Some w => w | None => "" end)) r
        else if Ascii.eqb c "\" then
          match r with
          | EmptyString => None
          | String d r' => lex false (add cur d) r'
          end
        else if is_in c operators then option_map (fun ts => flush cur ++ Op c :: ts)%list (lex false None r)
        else if is_in c expansions then None
        else lex false (add cur c) r
  end.

(** The words of the simple commands of an and-list; a redirection ends the words. *)
Fixpoint commands (cur : list string) (ts : list token) : list (list string) :=
  match ts with
  | [] => [rev cur]
  | Word w :: r => commands (w :: cur) r
  | Op "&" :: Op "&" :: r => rev cur :: commands [] r
  | Op _ :: _ => [rev cur]
  end.

(** An assignment in front of a command: a name, then an equals sign. *)
Fixpoint is_assignment (w : string) : bool :=
  match w with
  | EmptyString => false
  | String c r =>
      if Ascii.eqb c "=" then true
      else let n := N_of_ascii c in
           (((65 <=? n) && (n <=? 90)) || ((97 <=? n) && (n <=? 122)) || ((48 <=? n) && (n <=? 57)) || (n =? 95))%N
           && is_assignment r
  end.

Fixpoint strip_assignments (ws : list string) : list string :=
  match ws with
  | w :: r => if is_assignment w then strip_assignments r else ws
  | [] => []
  end.

Fixpoint leading_assignments (ws : list string) : list string :=
  match ws with
  | w :: r => if is_assignment w then w :: leading_assignments r else []
  | [] => []
  end.

(** The words of the last command of an and-list that [bash -c "..."] is given. *)
Definition last_words (s : string) : option (list string) :=
  match lex false None s with
  | Some [Word "bash"; Word "-c"; Word inner] =>
      option_map (fun ts => last (commands [] ts) []) (lex false None inner)
  | _ => None
  end.

(** What the program started by the last command gets: its name and arguments.
    Aliases are not expanded: a shell started with [-c] is not interactive. *)
Definition delivered (s : string) : option (list string) := option_map strip_assignments (last_words s).

(** The variables set for that program only. *)
Definition environment (s : string) : option (list string) := option_map leading_assignments (last_words s).

(** Characters the shell leaves alone: letters, digits and a few others. *)
Definition plain_char (c : ascii) : bool :=
  let n := N_of_ascii c in
  (((65 <=? n) && (n <=? 90)) || ((97 <=? n) && (n <=? 122)) || ((48 <=? n) && (n <=? 57)))%N
  || is_in c "_./=,:+-@%".

Fixpoint all_chars (P : ascii -> bool) (s : string) : bool :=
  match s with EmptyString => true | String c r => P c && all_chars P r end.

(** A word of plain characters, not empty. *)
Definition plain (s : string) : Prop := s <> "" /\ all_chars plain_char s = true.
(** The same, semicolons allowed. *)
Definition plain_or_semicolon (s : string) : Prop :=
  s <> "" /\ all_chars (fun c => plain_char c || Ascii.eqb c ";") s = true.

(** Joining with semicolons. *)
Definition joined_by_semicolons (parts : list string) : string := String.concat ";" parts.

(** The arguments a script expects for options with their values, if any. *)
Definition option_words (options : list (string * option string)) : list string :=
  flat_map (fun o => String.append "--" (fst o) :: match snd o with Some v => [v] | None => [] end) options.

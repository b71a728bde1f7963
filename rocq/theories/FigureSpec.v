(** Specification of text in LaTeX, of saved figures and of restored settings,
    independent of the model's helpers. *)
From Coq Require Import String Ascii List Arith Bool.
From Verif Require Import Base Tensor HooksModel FigureModel.
Import ListNotations.
Open Scope string_scope.
Open Scope nat_scope.
Open Scope list_scope.

(** ** What LaTeX makes of a text

    TeX reads tokens: a backslash and a run of letters is a control word, blanks
    behind it are skipped; a backslash and another character is a control symbol; a run
    of blanks is one blank. *)
Inductive token : Type := Control (name : string) | Plain (c : ascii).

Definition in_range (lo hi : nat) (c : ascii) : bool :=
  (lo <=? nat_of_ascii c) && (nat_of_ascii c <=? hi).
Definition is_letter (c : ascii) : bool := in_range 65 90 c || in_range 97 122 c.
Definition is_blank (c : ascii) : bool := Ascii.eqb c " " || Ascii.eqb c "009" || Ascii.eqb c "010".
Definition is_backslash (c : ascii) : bool := Ascii.eqb c "\".

(** Where TeX is: in the middle of a line, behind a backslash, within a control word,
    skipping blanks. *)
Inductive reading : Type := Middle | Escape | Word (name : string) | Skipping.

Fixpoint tokens (st : reading) (s : string) : list token :=
  match s with
  | EmptyString => match st with Escape => [Control ""] | Word n => [Control n] | _ => [] end
  | String c r =>
      let middle :=
        if is_backslash c then tokens Escape r
        else if is_blank c then Plain " " :: tokens Skipping r
        else Plain c :: tokens Middle r in
      match st with
      | Middle => middle
      | Skipping => if is_blank c then tokens Skipping r else middle
      | Escape => if is_letter c then tokens (Word (String c "")) r
                  else Control (String c "") :: tokens Middle r
      | Word n => if is_letter c then tokens (Word (n ++ String c "")) r
                  else Control n :: (if is_blank c then tokens Skipping r else middle)
      end
  end.

(** What is typeset: a character, or two characters joined to another sign (dashes,
    quotation marks, Spanish punctuation). *)
Inductive glyph : Type := Glyph (c : ascii) | Joined (a b : ascii).

(** Pairs the text fonts of LaTeX replace by another sign. *)
Definition joined (a b : ascii) : bool :=
  existsb (fun p => Ascii.eqb a (fst p) && Ascii.eqb b (snd p))
    [("-", "-"); ("`", "`"); ("'", "'"); ("!", "`"); ("?", "`")]%char.

(** Commands standing for one character. *)
Definition command (name : string) : option ascii :=
  match name with
  | "&" => Some "&"%char | "%" => Some "%"%char | "$" => Some "$"%char | "#" => Some "#"%char | "_" => Some "_"%char
  | "{" => Some "{"%char | "}" => Some "}"%char
  | "textasciitilde" => Some "~"%char | "textbackslash" => Some "\"%char
  | "textless" => Some "<"%char | "textgreater" => Some ">"%char
  | _ => None
  end.

(** Characters with a special meaning for LaTeX, or none it can print.  [<] and [>] print
    other signs in the default font. *)
Definition unprintable (c : ascii) : bool :=
  existsb (Ascii.eqb c) ["&"; "%"; "$"; "#"; "_"; "~"; "^"; "\"; "<"; ">"]%char || negb (in_range 32 126 c).

(** Typesetting within [depth] open groups; [None] is an error of LaTeX (or another sign).
    The accent command with an empty group prints the accent itself. *)
Fixpoint typeset (depth : nat) (l : list token) : option (list glyph) :=
  match l with
  | [] => match depth with O => Some [] | _ => None end
  | Control "^" :: Plain "{" :: Plain "}" :: r => option_map (cons (Glyph "^")) (typeset depth r)
  | Control n :: r => match command n with
                      | Some c => option_map (cons (Glyph c)) (typeset depth r)
                      | None => None
                      end
  | Plain "{" :: r => typeset (S depth) r
  | Plain "}" :: r => match depth with O => None | S d => typeset d r end
  | Plain a :: ((Plain b :: r) as rest) =>
      if unprintable a then None
      else if joined a b then option_map (cons (Joined a b)) (typeset depth r)
      else option_map (cons (Glyph a)) (typeset depth rest)
  | Plain a :: rest =>
      if unprintable a then None else option_map (cons (Glyph a)) (typeset depth rest)
  end.

(** What LaTeX shows for a source text. *)
Definition latex (source : string) : option (list glyph) := typeset 0 (tokens Middle source).

(** A text appears as it is: one sign for each character. *)
Definition appears_as (source text : string) : Prop :=
  latex source = Some (map Glyph (list_ascii_of_string text)).

(** Texts LaTeX does not rearrange: printable characters, no two blanks in a row, and no
    pair that is joined. *)
Fixpoint plain_text (s : string) : Prop :=
  match s with
  | EmptyString => True
  | String a r => in_range 32 126 a = true /\
      match r with
      | EmptyString => True
      | String b _ => (a = " " -> b <> " ")%char /\ joined a b = false
      end /\ plain_text r
  end.

(** The twelve characters that are escaped. *)
Definition special (c : ascii) : Prop :=
  In c ["&"; "%"; "$"; "#"; "_"; "{"; "}"; "~"; "^"; "\"; "<"; ">"]%char.

(** ** Saved figures *)

(** A name of a single file: no slash, and not made of dots only. *)
Definition simple_name (name : string) : Prop :=
  ~ In "/"%char (list_ascii_of_string name) /\
  exists c, In c (list_ascii_of_string name) /\ c <> "."%char.

(** The path of a file in a directory. *)
Definition in_directory (dir name format : string) : list string :=
  parse_path dir ++ [(name ++ "." ++ format)%string].

(** Afterwards the figure is in the directory in the three formats; nothing else has
    changed, except that the directory exists. *)
Definition saved {F} (fig : F) (dir name : string) (s s' : files F) : Prop :=
  (forall f, In f ["png"; "pdf"; "pgf"] -> file_at (in_directory dir name f) s' = Some (fig, f)) /\
  (forall p, (forall f, In f ["png"; "pdf"; "pgf"] -> p <> in_directory dir name f) ->
     file_at p s' = file_at p s) /\
  (forall p, is_dir p s' = true <-> is_dir p s = true \/ p = parse_path dir).

(** The directory can be used: it exists, or can be created in its parent. *)
Definition usable {F} (dir : string) (s : files F) : Prop :=
  is_dir (parse_path dir) s = true \/
  (file_at (parse_path dir) s = None /\ is_dir (removelast (parse_path dir)) s = true).

(** ** Settings *)

(** The settings changed for pgf output. *)
Definition pgf_keys : list string :=
  ["pgf.texsystem"; "font.family"; "text.usetex"; "pgf.rcfonts"; "pgf.preamble"].

(** [s'] has the backend and the pgf settings of [s], and all other settings of [u]. *)
Definition restored (s u s' : settings) : Prop :=
  s_backend s' = s_backend s /\
  (forall k, In k pgf_keys -> sd_get k (s_rc s') = sd_get k (s_rc s)) /\
  (forall k, ~ In k pgf_keys -> sd_get k (s_rc s') = sd_get k (s_rc u)).

(** The same backend, and the same value for every setting. *)
Definition same_settings (s s' : settings) : Prop :=
  s_backend s' = s_backend s /\ forall k, sd_get k (s_rc s') = sd_get k (s_rc s).

(** ** Curves over time *)

(** [T] recorded arrays of one shape, with at most two axes of another extent than one. *)
Definition curves (T : nat) (l : list val) : Prop :=
  List.length l = T /\
  exists s, (forall v, In v l -> match v with VNum _ => s = [] | VTen t => tshape t = s end) /\
    List.length (filter (fun n => negb (Nat.eqb n 1)) s) <= 2.

(** A record of [T] evaluations, two at least: numbers under [t] and [energy], and under
    each other name curves. *)
Definition recorded (T : nat) (data : record) : Prop :=
  2 <= T /\ NoDup (map fst data) /\
  (forall k, In k ["t"; "energy"] -> exists l, In (k, l) data /\ List.length l = T /\
     forall v, In v l -> exists x, v = VNum x) /\
  (forall k l, In (k, l) data -> curves T l).

(** [k] begins with [x]. *)
Definition begins (x k : string) : Prop := exists r, k = (x ++ r)%string.

(** The names for which no figure is made, given the name of a block. *)
Definition left_out (block k : string) : Prop :=
  exists x, In x ["t"; "energy"; "dot_state"; "dot_costate"; "dot_data"] /\
    (begins x k \/ begins (block ++ "." ++ x) k).

(** The names for which a user expects none: the time axis, the energy (which has its
    own figure) and the derivatives of the block. *)
Definition expected_out (block k : string) : Prop :=
  k = "t" \/ k = "energy" \/
  exists x, In x ["dot_state."; "dot_costate."; "dot_data."] /\ begins (block ++ "." ++ x) k.

(** The files in which the figure [fig] called [name] is saved. *)
Definition figure_file (dir base name format : string) : list string :=
  in_directory dir (base ++ "-" ++ name) format.

(** Afterwards all curves that are not left out, and the energy, are in the directory;
    other files have not changed. *)
Definition curves_saved (data : record) (block dir base : string) (s s' : files figure) : Prop :=
  (forall f t e, In f ["png"; "pdf"; "pgf"] -> In ("t", t) data -> In ("energy", e) data ->
     file_at (figure_file dir base "energy" f) s' = Some (mkFigure t e "energy", f)) /\
  (forall f t k l label, In f ["png"; "pdf"; "pgf"] -> In ("t", t) data -> In (k, l) data ->
     ~ left_out block k -> escape_latex_special_characters k = Ok label ->
     file_at (figure_file dir base k f) s' = Some (mkFigure t l label, f)) /\
  (forall p, (forall f k, In f ["png"; "pdf"; "pgf"] -> k = "energy" \/ ~ left_out block k /\ In k (map fst data) ->
                p <> figure_file dir base k f) -> file_at p s' = file_at p s).

(** A name made of dots only, or empty. *)
Definition only_dots (name : string) : Prop := forall c, In c (list_ascii_of_string name) -> c = "."%char.

(** Afterwards there are three files of the format png, called after the formats; nothing else has changed. *)
Definition saved_as_png {F} (fig : F) (dir name : string) (s s' : files F) : Prop :=
  (forall f, In f ["png"; "pdf"; "pgf"] -> file_at (in_directory dir (name ++ "." ++ f) "png") s' = Some (fig, "png")) /\
  (forall p, (forall f, In f ["png"; "pdf"; "pgf"] -> p <> in_directory dir (name ++ "." ++ f) "png") -> file_at p s' = file_at p s) /\
  (forall p, is_dir p s' = is_dir p s).

(** Model of neuro_shooting/figure_utils.py (cited as fu.py), of
    [setup_pgf_plotting] and [reset_pgf_plotting] in
    neuro_shooting/figure_settings.py (fs.py) and of [plot_temporal_data] in
    neuro_shooting/vector_visualization.py (vv.py).

    Simplifications: strings are ASCII; what a figure shows is a value, not its
    rendering; the file system has directories and files only (no links, no
    permissions, [..] is a name like any other); [FileNotFoundError] and the other
    subclasses of [OSError] are [OSError]; [plt.tight_layout], [plt.close] and the
    figures left open by an exception are left out; matplotlib accepts every value
    given to an existing setting and can switch to every backend. *)
From Coq Require Import String Ascii List Arith Bool Reals.
From Verif Require Import Base Tensor CommandModel HooksModel.
Import ListNotations.
Open Scope string_scope.
Open Scope nat_scope.
Open Scope list_scope.

(** ** Text for LaTeX *)

(** fu.py:10-23 *)
Definition conv : pdict string :=
  [("&", "\&"); ("%", "\%"); ("$", "\$"); ("#", "\#"); ("_", "\_"); ("{", "\{");
   ("}", "\}"); ("~", "\textasciitilde{}"); ("^", "\^{}"); ("\", "\textbackslash{}");
   ("<", "\textless{}"); (">", "\textgreater{}")].

(** Insertion into a list sorted by decreasing length, before those of equal length
    (for [sorted], fu.py:24). *)
Fixpoint insert_longest (x : string) (l : list string) : list string :=
  match l with
  | [] => [x]
  | y :: r => if String.length y <=? String.length x then x :: l else y :: insert_longest x r
  end.

(** [sorted(.., key=lambda item: - len(item))]: stable (fu.py:24). *)
Definition sort_by_length (l : list string) : list string := fold_right insert_longest [] l.

(** [regex.sub(f, text)] for an alternation of literal strings (fu.py:24-25): the first
    alternative matching at a position is replaced and the search goes on behind it;
    [skip] characters still belong to the last match. *)
Fixpoint regex_sub (alternatives : list string) (f : string -> result string) (skip : nat) (text : string) :
    result string :=
  match text with
  | EmptyString => Ok ""
  | String c r =>
      match skip with
      | S k => regex_sub alternatives f k r
      | O =>
          match find (fun a => String.prefix a text) alternatives with
          | Some a =>
              x <- f a ;; y <- regex_sub alternatives f (String.length a - 1) r ;; Ok (x ++ y)%string
          | None => y <- regex_sub alternatives f 0 r ;; Ok (String c y)
          end
      end
  end.

(** fu.py:5-26 [escape_latex_special_characters] *)
Definition escape_latex_special_characters (text : string) : result string :=
  regex_sub (sort_by_length (keys conv)) (fun m => sd_item m conv) 0 text.

(** ** Computations with a state and exceptions

    The state after an exception is what had been done before (Python; used for all
    functions below). *)
Definition st (S A : Type) : Type := S -> S * result A.
(** A value without effect (Python). *)
Definition st_ret {S A} (a : A) : st S A := fun s => (s, Ok a).
(** Evaluating an expression that may raise (Python). *)
Definition st_lift {S A} (r : result A) : st S A := fun s => (s, r).
(** Sequencing (Python). *)
Definition st_bind {S A B} (m : st S A) (f : A -> st S B) : st S B :=
  fun s => let (s', r) := m s in match r with Ok a => f a s' | Raise e => (s', Raise e) end.
Notation "x <~ m ;; k" := (st_bind m (fun x => k)) (at level 61, m at next level, right associativity).
(** [for x in l: f(x)] (Python). *)
Fixpoint st_for {S A} (f : A -> st S unit) (l : list A) : st S unit :=
  match l with
  | [] => st_ret tt
  | a :: r => _ <~ f a ;; st_for f r
  end.
(** Running on a part of the state (used for the module-level state of matplotlib and
    the file system). *)
Definition st_on {S T A} (get : T -> S) (put : S -> T -> T) (m : st S A) : st T A :=
  fun t => let (s, r) := m (get t) in (put s t, r).

(** ** Files *)

(** A path: its components, an absolute one starting with ["/"] (operating system). *)
Notation path := (list string).

(** The path a string names (operating system; for fu.py:31-39): empty and [.] components have no
    effect. *)
Definition parse_path (s : string) : path :=
  (if String.prefix "/" s then ["/"] else []) ++
  filter (fun c => negb (String.eqb c "" || String.eqb c ".")) (split_on "/"%char s).

(** Equality of paths (for fu.py:31-39). *)
Definition path_eqb (p q : path) : bool := if list_eq_dec string_dec p q then true else false.

Section Files.
(** What a figure shows. *)
Context {F : Type}.

(** (For fu.py:31-39.) A file system seen from the working directory: the existing directories besides
    the root and the working directory, and the figure files with their format. *)
Record files : Type := mkFiles { f_dirs : list path; f_files : list (path * (F * string)) }.

(** Whether a path is a directory (operating system; for fu.py:31-39). *)
Definition is_dir (p : path) (s : files) : bool :=
  path_eqb p [] || path_eqb p ["/"] || existsb (path_eqb p) (f_dirs s).

(** The file at a path (operating system; for fu.py:31, 39). *)
Definition file_at (p : path) (s : files) : option (F * string) :=
  match find (fun f => path_eqb p (fst f)) (f_files s) with Some f => Some (snd f) | None => None end.

(** [os.path.exists] (fu.py:31; the empty string names nothing). *)
Definition path_exists (p : string) (s : files) : bool :=
  negb (String.eqb p "") &&
  (is_dir (parse_path p) s || match file_at (parse_path p) s with Some _ => true | None => false end).

(** [os.mkdir] (fu.py:32): one directory, in an existing one. *)
Definition mkdir (p : string) : st files unit := fun s =>
  if String.eqb p "" || path_exists p s || negb (is_dir (removelast (parse_path p)) s)
  then (s, Raise OSError)
  else (mkFiles (parse_path p :: f_dirs s) (f_files s), Ok tt).

(** Whether a string ends with a slash ([os.path.join], fu.py:38). *)
Fixpoint ends_with_slash (s : string) : bool :=
  match s with
  | EmptyString => false
  | String c EmptyString => Ascii.eqb c "/"
  | String _ r => ends_with_slash r
  end.

(** [os.path.join] of two paths (fu.py:38). *)
Definition path_join (a b : string) : string :=
  if String.prefix "/" b then b
  else if String.eqb a "" || ends_with_slash a then (a ++ b)%string
  else (a ++ "/" ++ b)%string.

(** Leading dots do not start an extension ([os.path.splitext], used by matplotlib for fu.py:39). *)
Fixpoint strip_dots (s : string) : string :=
  match s with
  | String c r => if Ascii.eqb c "." then strip_dots r else s
  | EmptyString => ""
  end.

(** The extension of a file name without its dot ([os.path.splitext], used by
    matplotlib for fu.py:39). *)
Definition extension (name : string) : string :=
  match split_on "."%char (strip_dots name) with
  | _ :: (_ :: _) as l => last l ""
  | _ => ""
  end.

(** Writing a file (operating system; for fu.py:39): replaces one that is there. *)
Definition write (p : path) (c : F * string) : st files unit := fun s =>
  if is_dir p s || negb (is_dir (removelast p) s) then (s, Raise OSError)
  else (mkFiles (f_dirs s) ((p, c) :: filter (fun f => negb (path_eqb p (fst f))) (f_files s)), Ok tt).

(** [plt.savefig(filename)] of the current figure (matplotlib; fu.py:39): the format is
    the extension; without one [.png] is added. *)
Definition savefig (fig : F) (filename : string) : st files unit :=
  match extension (last (split_on "/"%char filename) "") with
  | EmptyString => write (parse_path (filename ++ ".png")%string) (fig, "png")
  | ext => write (parse_path filename) (fig, ext)
  end.

(** fu.py:35 *)
Definition formats : list string := ["png"; "pdf"; "pgf"].

(** fu.py:29-39 [save_all_formats] of the current figure *)
Definition save_all_formats (fig : F) (output_directory filename : string) : st files unit :=
  _ <~ (fun s => if path_exists output_directory s then (s, Ok tt) else mkdir output_directory s) ;;
  st_for (fun f =>
    let current_filename := (filename ++ "." ++ f)%string in
    let complete_filename := path_join output_directory current_filename in
    savefig fig complete_filename) formats.
End Files.
Arguments files F : clear implicits.

(** ** Plot settings *)

(** Values of matplotlib settings (fs.py:12-20): texts, flags, lists of texts, numbers. *)
Inductive rcval : Type := RText (s : string) | RFlag (b : bool) | RTexts (l : list string) | RNum (n : nat).

(** The backend and [matplotlib.rcParams] (fs.py:11, 24). *)
Record settings : Type := mkSettings { s_backend : string; s_rc : pdict rcval }.

(** fs.py:12-20 *)
Definition new_rcsettings : pdict rcval :=
  [("pgf.texsystem", RText "pdflatex"); ("font.family", RText "serif"); ("text.usetex", RFlag true);
   ("pgf.rcfonts", RFlag false);
   ("pgf.preamble", RTexts ["\usepackage{amsmath}"; "\usepackage{amssymb}"])].

(** [matplotlib.use] (fs.py:26, 32). *)
Definition use (backend : string) : st settings unit := fun s => (mkSettings backend (s_rc s), Ok tt).

(** [matplotlib.rcParams.update] (fs.py:27, 33). *)
Definition rc_update (d : pdict rcval) : st settings unit := fun s =>
  (mkSettings (s_backend s) (fold_left (fun rc kv => pd_set (fst kv) (snd kv) rc) d (s_rc s)), Ok tt).

(** fs.py:10-29 [setup_pgf_plotting] *)
Definition setup_pgf_plotting : st settings (string * pdict rcval) := fun s =>
  (previous_rcsettings <~ (fun s => (s, foldM (fun d kv => v <- sd_item (fst kv) (s_rc s) ;; Ok (pd_set (fst kv) v d))
                                          new_rcsettings [])) ;;
   _ <~ use "pgf" ;;
   _ <~ rc_update new_rcsettings ;;
   st_ret (s_backend s, previous_rcsettings)) s.

(** fs.py:31-33 [reset_pgf_plotting] *)
Definition reset_pgf_plotting (backend : string) (rcsettings : pdict rcval) : st settings unit :=
  _ <~ use backend ;; rc_update rcsettings.

(** ** Curves over time *)

(** What a figure of [plot_temporal_data] shows: curves over time with a
    label (vv.py:395-398, 420-434). *)
Record figure : Type := mkFigure { fig_t : list val; fig_values : list val; fig_ylabel : string }.

(** The state of the program: settings, files, and the figures shown on
    screen (vv.py:378-445). *)
Record world : Type := mkWorld { w_settings : settings; w_files : files figure; w_shown : list figure }.

(** A change of the settings (vv.py:387, 445). *)
Definition on_settings {A} (m : st settings A) : st world A :=
  st_on w_settings (fun s w => mkWorld s (w_files w) (w_shown w)) m.
(** A change of the files (vv.py:401, 437). *)
Definition on_files {A} (m : st (files figure) A) : st world A :=
  st_on w_files (fun s w => mkWorld (w_settings w) s (w_shown w)) m.
(** [plt.show()] (vv.py:406, 442). *)
Definition show (f : figure) : st world unit := fun w =>
  (mkWorld (w_settings w) (w_files w) (w_shown w ++ [f]), Ok tt).

(** [data[k]] of a [defaultdict(list)] (vv.py:390, 392); that this adds a missing key is left out, the
    keys read this way are never plotted. *)
Definition series (k : string) (data : record) : list val :=
  match pd_get k data with Some l => l | None => [] end.

(** The shape of one recorded value (for vv.py:422). *)
Definition shape_of (v : val) : list nat := match v with VNum _ => [] | VTen t => tshape t end.

(** [np.asarray(..).shape] of a list of arrays (vv.py:390, 392, 422): arrays of
    different shapes cannot be stacked. *)
Definition np_shape (l : list val) : result (list nat) :=
  match l with
  | [] => Ok [0]
  | v :: _ => if forallb (fun x => if list_eq_dec Nat.eq_dec (shape_of x) (shape_of v) then true else false) l
              then Ok (List.length l :: shape_of v) else Raise ValueError
  end.

(** [.squeeze()] on shapes (vv.py:422). *)
Definition squeeze (s : list nat) : list nat := filter (fun n => negb (n =? 1)) s.

(** [plt.plot(x, y)] by the shapes of [x] and [y] (matplotlib; vv.py:396, 426, 428):
    equally many points, at most two dimensions, and equally many columns unless one
    has one column. *)
Definition plt_plot (x y : list nat) : result unit :=
  let x := match x with [] => [1] | _ => x end in
  let y := match y with [] => [1] | _ => y end in
  let columns s := match s with _ :: n :: _ => n | _ => 1 end in
  if negb (hd 0 x =? hd 0 y) then Raise ValueError
  else if (2 <? List.length x) || (2 <? List.length y) then Raise ValueError
  else if negb (columns x =? columns y) && negb (columns x =? 1) && negb (columns y =? 1) then Raise ValueError
  else Ok tt.

(** vv.py:422-428, on shapes: how the curves of a variable are drawn. *)
Definition plot_values (t vals : list nat) : result unit :=
  match squeeze vals with
  | [a; b; c] => foldM (fun _ (_ : nat) => plt_plot t [a; b]) (seq 0 c) tt
  | s => plt_plot t s
  end.

(** vv.py:409 *)
Definition do_not_plot : list string := ["t"; "energy"; "dot_state"; "dot_costate"; "dot_data"].

(** vv.py:414-417 *)
Definition do_plotting (block_name k : string) : bool :=
  fold_left (fun p dnp => if String.prefix dnp k || String.prefix (block_name ++ "." ++ dnp)%string k
                          then false else p) do_not_plot true.

(** [args.output_directory], [args.output_basename] (vv.py:401-402). *)
Notation out_args := (string * string)%type.

(** vv.py:400-406, 436-442: saving or showing a figure; without [args] its attributes
    cannot be read. *)
Definition emit (args : option out_args) (visualize print : bool) (name : string) (f : figure) : st world unit :=
  _ <~ (if print then
          match args with
          | None => st_lift (Raise AttributeError)
          | Some (output_directory, output_basename) =>
              on_files (save_all_formats f output_directory (output_basename ++ "-" ++ name)%string)
          end
        else st_ret tt) ;;
  if visualize then show f else st_ret tt.

(** vv.py:378-445 [_plot_temporal_data] *)
Definition plot_temporal_data_ (data : record) (block_name : string) (args : option out_args)
    (visualize print : bool) : st world unit :=
  if visualize && print then st_lift (Raise ValueError)
  else if negb visualize && negb print then st_ret tt
  else
    previous <~ (if print then p <~ on_settings setup_pgf_plotting ;; st_ret (Some p) else st_ret None) ;;
    t <~ st_lift (np_shape (series "t" data)) ;;
    energy <~ st_lift (np_shape (series "energy" data)) ;;
    _ <~ st_lift (plt_plot t energy) ;;
    _ <~ emit args visualize print "energy"
           (mkFigure (series "t" data) (series "energy" data) "energy") ;;
    _ <~ st_for (fun kv =>
           if do_plotting block_name (fst kv) then
             vals <~ st_lift (np_shape (snd kv)) ;;
             _ <~ st_lift (plot_values t vals) ;;
             label <~ (if print then st_lift (escape_latex_special_characters (fst kv)) else st_ret (fst kv)) ;;
             emit args visualize print (fst kv) (mkFigure (series "t" data) (snd kv) label)
           else st_ret tt) data ;;
    match previous with
    | Some (backend, rcsettings) => on_settings (reset_pgf_plotting backend rcsettings)
    | None => st_ret tt
    end.

(** The options used by vv.py:448-455 ([args.viz], [args.save_figures]). *)
Record viz_args : Type := mkViz { v_viz : bool; v_save_figures : bool; v_out : out_args }.

(** vv.py:448-455 [plot_temporal_data] *)
Definition plot_temporal_data (data : record) (block_name : string) (args : option viz_args) : st world unit :=
  match args with
  | None => plot_temporal_data_ data block_name None true false
  | Some a =>
      _ <~ (if v_viz a then plot_temporal_data_ data block_name (Some (v_out a)) true false else st_ret tt) ;;
      if v_save_figures a then plot_temporal_data_ data block_name (Some (v_out a)) false true else st_ret tt
  end.

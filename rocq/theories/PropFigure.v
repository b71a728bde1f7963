(** C103 to C106: text in LaTeX, saved figures, plot settings and curves over time. *)
From Coq Require Import String Ascii List Arith Bool Lia Reals.
From Verif Require Import Base HooksModel FigureModel FigureSpec FigureTextProofs FigureFileProofs FigureFileProofs2
  FigureTemporalProofs FigureExample.
Import ListNotations.
Open Scope string_scope.
Open Scope nat_scope.
Open Scope list_scope.

(** ** C103 *)

(** Printable text does not always appear as it is: two hyphens become a dash. *)
Theorem C103_appears_refuted : exists text source,
  (forall c, In c (list_ascii_of_string text) -> 32 <= nat_of_ascii c <= 126) /\
  escape_latex_special_characters text = Ok source /\ ~ appears_as source text.
Proof.
  exists "a--b", "a--b". split.
  - cbn. intros c H. repeat destruct H as [<-|H]; try contradiction; cbn; lia.
  - split; [reflexivity|]. vm_compute. discriminate.
Qed.
Print Assumptions C103_appears_refuted.

(** Printable text without two blanks in a row and without a pair LaTeX joins appears as it is. *)
Theorem C103_appears_partial : forall text, plain_text text ->
  exists source, escape_latex_special_characters text = Ok source /\ appears_as source text.
Proof. exact escape_appears. Qed.
Print Assumptions C103_appears_partial.

Example C103_case : plain_text "#pars_{x} = 50% of <10^3> \ ~5 & more$" /\
  escape_latex_special_characters "10% of x_1^2" = Ok "10\% of x\_1\^{}2".
Proof. split; [repeat split; try reflexivity; discriminate|reflexivity]. Qed.

(** Without escaping such text does not appear. *)
Example C103_needed : latex "10% of x_1" = None /\ ~ appears_as "a_b" "a_b".
Proof. split; [reflexivity|vm_compute; discriminate]. Qed.

(** Different texts stay different. *)
Theorem C103_injective : forall a b s,
  escape_latex_special_characters a = Ok s -> escape_latex_special_characters b = Ok s -> a = b.
Proof. exact escape_injective. Qed.
Print Assumptions C103_injective.

(** Texts can be escaped part by part. *)
Theorem C103_concatenation : forall a b sa sb,
  escape_latex_special_characters a = Ok sa -> escape_latex_special_characters b = Ok sb ->
  escape_latex_special_characters (a ++ b)%string = Ok (sa ++ sb)%string.
Proof. exact escape_concatenation. Qed.
Print Assumptions C103_concatenation.

(** Text without special characters is not changed. *)
Theorem C103_unchanged : forall s, (forall c, In c (list_ascii_of_string s) -> ~ special c) ->
  escape_latex_special_characters s = Ok s.
Proof. exact escape_unchanged. Qed.
Print Assumptions C103_unchanged.

Example C103_case_more :
  escape_latex_special_characters "a_b" = Ok "a\_b" /\ escape_latex_special_characters "time = 0.5" = Ok "time = 0.5".
Proof. split; reflexivity. Qed.

(** ** C104 *)

(** Saving fails where a directory below a missing one is given, and for the working
    directory written as the empty path. *)
Theorem C104_saves_refuted : exists (s : files nat) dir name, simple_name name /\
  (forall p, file_at p s = None) /\ dir <> "" /\
  save_all_formats 0 dir name s = (s, Raise OSError) /\ save_all_formats 0 "" name s = (s, Raise OSError).
Proof.
  exists (mkFiles [] []), "results/run1", "loss". split; [exact simple_loss|].
  split; [reflexivity|]. split; [discriminate|]. split; [apply ex_nested|apply ex_current].
Qed.
Print Assumptions C104_saves_refuted.

(** If the directory exists or its parent does, and no directory has the name of one of
    the files, the figure is saved in three formats and nothing else changes. *)
Theorem C104_saves_partial : forall (F : Type) (fig : F) dir name (s : files F),
  dir <> "" -> simple_name name -> usable dir s ->
  (forall f, In f ["png"; "pdf"; "pgf"] -> is_dir (in_directory dir name f) s = false) ->
  exists s', save_all_formats fig dir name s = (s', Ok tt) /\ saved fig dir name s s'.
Proof. exact @save_ok. Qed.
Print Assumptions C104_saves_partial.

Example C104_case : simple_name "loss" /\ usable "results/" (@mkFiles nat [] [(["a.png"], (3, "png"))]) /\
  save_all_formats 7 "results/" "loss" (mkFiles [] [(["a.png"], (3, "png"))]) =
  (mkFiles [["results"]] [(["results"; "loss.pgf"], (7, "pgf")); (["results"; "loss.pdf"], (7, "pdf"));
                          (["results"; "loss.png"], (7, "png")); (["a.png"], (3, "png"))], Ok tt).
Proof. split; [exact simple_loss|]. split; [right; split; reflexivity|reflexivity]. Qed.

(** Without a name, or with one made of dots only, there is no extension: three png files are written, none in another format. *)
Theorem C104_nameless_partial : forall (F : Type) (fig : F) dir name (s : files F),
  dir <> "" -> only_dots name -> is_dir (parse_path dir) s = true ->
  (forall f, In f ["png"; "pdf"; "pgf"] -> is_dir (in_directory dir (name ++ "." ++ f) "png") s = false) ->
  exists s', save_all_formats fig dir name s = (s', Ok tt) /\ saved_as_png fig dir name s s'.
Proof. exact @save_dots. Qed.
Print Assumptions C104_nameless_partial.

Example C104_nameless_case : only_dots "" /\ only_dots ".." /\
  save_all_formats 7 "results" "" (mkFiles [["results"]] []) =
  (mkFiles [["results"]] [(["results"; ".pgf.png"], (7, "png")); (["results"; ".pdf.png"], (7, "png"));
                          (["results"; ".png.png"], (7, "png"))], Ok tt).
Proof. split; [intros c []|]. split; [intros c [<-|[<-|[]]]; reflexivity|reflexivity]. Qed.

(** ** C105 *)

(** Resetting restores the backend and the five settings, whatever happened since, and
    keeps all other settings. *)
Theorem C105_round_trip : forall s s1 backend rc, setup_pgf_plotting s = (s1, Ok (backend, rc)) ->
  forall u, exists s', reset_pgf_plotting backend rc u = (s', Ok tt) /\ restored s u s'.
Proof. exact round_trip. Qed.
Print Assumptions C105_round_trip.

(** The settings in between. *)
Theorem C105_setup : forall s s1 p, setup_pgf_plotting s = (s1, Ok p) ->
  s_backend s1 = "pgf" /\
  map (fun k => sd_get k (s_rc s1)) pgf_keys =
    [Some (RText "pdflatex"); Some (RText "serif"); Some (RFlag true); Some (RFlag false);
     Some (RTexts ["\usepackage{amsmath}"; "\usepackage{amssymb}"])] /\
  (forall k, ~ In k pgf_keys -> sd_get k (s_rc s1) = sd_get k (s_rc s)).
Proof. exact setup_effect. Qed.
Print Assumptions C105_setup.

(** Setting up fails exactly if one of the settings does not exist; then nothing has
    been changed. *)
Theorem C105_missing : forall s, (exists k, In k pgf_keys /\ sd_get k (s_rc s) = None) <->
  setup_pgf_plotting s = (s, Raise KeyError).
Proof. exact setup_fails. Qed.
Print Assumptions C105_missing.

Example C105_case : (exists s1 p, setup_pgf_plotting ex_settings = (s1, Ok p)) /\
  setup_pgf_plotting (mkSettings "agg" []) = (mkSettings "agg" [], Raise KeyError).
Proof. split; [eexists _, _; vm_compute; reflexivity|reflexivity]. Qed.

(** Plotting does not leave the settings as they were when it fails in between. *)
Theorem C105_plotting_refuted : exists data block args w w' e,
  plot_temporal_data data block args w = (w', Raise e) /\ ~ same_settings (w_settings w) (w_settings w').
Proof.
  destruct ex_not_restored as (s & f & E & B). eexists _, _, _, _, _, _. split; [exact E|].
  intros [H _]. cbn [w_settings] in H. rewrite B in H. discriminate H.
Qed.
Print Assumptions C105_plotting_refuted.

(** When plotting returns, the settings are as before. *)
Theorem C105_plotting_partial : forall data block args w w',
  plot_temporal_data data block args w = (w', Ok tt) -> same_settings (w_settings w) (w_settings w').
Proof. exact temporal_restores. Qed.
Print Assumptions C105_plotting_partial.

Example C105_plotting_case : exists w',
  plot_temporal_data ex_record "sblock" (Some (mkViz true true ("results", "base"))) ex_world = (w', Ok tt).
Proof. eexists. vm_compute. reflexivity. Qed.

(** ** C106 *)

(** A recorded parameter whose name happens to begin with the letter t gets no figure. *)
Theorem C106_every_curve_refuted : exists calls data block k,
  run_hook ex_norm ex_norm calls (HRecord []) = (Ok tt, HRecord data) /\ recorded 2 data /\
  In k (map fst data) /\ ~ expected_out block k /\
  forall w, w_shown w = [] -> exists w', plot_temporal_data_ data block None true false w = (w', Ok tt) /\
    forall fig, In fig (w_shown w') -> fig_ylabel fig <> k.
Proof.
  exists [ex_call 0; ex_call 1], ex_record, "sblock", "transform.weight".
  split; [exact ex_record_is|]. split; [exact ex_recorded|]. split; [right; left; reflexivity|].
  split; [|exact ex_missing].
  intros [H|[H|(x & X & r & H)]]; try discriminate H.
Qed.
Print Assumptions C106_every_curve_refuted.

(** With one recorded evaluation the first array raises. *)
Theorem C106_single_evaluation_refuted : exists data block,
  (forall k l, In (k, l) data -> curves 1 l) /\
  forall w, snd (plot_temporal_data_ data block None true false w) = Raise ValueError.
Proof.
  exists ex_single, "sblock". split; [|intros w; rewrite ex_single_raises; reflexivity].
  intros k l I. repeat destruct I as [I|I]; try contradiction; injection I as _ <-; (split; [reflexivity|]);
    [exists []|exists []|exists [2; 1; 2]];
    (split; [intros v V; repeat destruct V as [<-|V]; try contradiction; reflexivity|cbn; lia]).
Qed.
Print Assumptions C106_single_evaluation_refuted.

(** On screen: the energy and one figure for each name not left out, nothing else. *)
Theorem C106_shown_partial : forall T data block args w, recorded T data ->
  exists t e l, In ("t", t) data /\ In ("energy", e) data /\
    plot_temporal_data_ data block args true false w =
      (mkWorld (w_settings w) (w_files w) (w_shown w ++ mkFigure t e "energy" :: l), Ok tt) /\
    forall fig, In fig l <-> exists k vs, In (k, vs) data /\ ~ left_out block k /\ fig = mkFigure t vs k.
Proof. exact shown_spec. Qed.
Print Assumptions C106_shown_partial.

(** In files: the same figures, labels escaped, in three formats each. *)
Theorem C106_saved_partial : forall T data block dir base w, recorded T data ->
  dir <> "" -> ~ In "/"%char (list_ascii_of_string base) ->
  (forall k, In k (map fst data) -> ~ In "/"%char (list_ascii_of_string k)) ->
  usable dir (w_files w) ->
  (forall k f, In k (map fst data) -> In f ["png"; "pdf"; "pgf"] ->
     is_dir (figure_file dir base k f) (w_files w) = false) ->
  (forall k, In k pgf_keys -> exists v, sd_get k (s_rc (w_settings w)) = Some v) ->
  exists w', plot_temporal_data_ data block (Some (dir, base)) false true w = (w', Ok tt) /\
    same_settings (w_settings w) (w_settings w') /\ w_shown w' = w_shown w /\
    curves_saved data block dir base (w_files w) (w_files w').
Proof. exact printed. Qed.
Print Assumptions C106_saved_partial.

(** A call can be told to show or to save, not both. *)
Theorem C106_mode : forall data block args w,
  plot_temporal_data_ data block args true true w = (w, Raise ValueError) /\
  plot_temporal_data_ data block args false false w = (w, Ok tt).
Proof. intros. split; reflexivity. Qed.
Print Assumptions C106_mode.

Example C106_case : recorded 2 ex_record /\ usable "results" (w_files ex_world) /\
  ~ left_out "sblock" "sblock.state.q1" /\ left_out "sblock" "sblock.dot_state.q1" /\
  (forall k, In k pgf_keys -> exists v, sd_get k (s_rc (w_settings ex_world)) = Some v).
Proof.
  split; [exact ex_recorded|]. split; [right; split; reflexivity|]. split; [|split].
  - apply do_plotting_iff. reflexivity.
  - apply not_plotted. reflexivity.
  - intros k K. cbn in K. repeat destruct K as [<-|K]; try contradiction; eexists; reflexivity.
Qed.

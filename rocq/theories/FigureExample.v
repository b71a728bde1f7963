(** Data for the examples and witnesses about figures. *)
From Coq Require Import String Ascii List Arith Bool Lia Reals.
From Verif Require Import Base Tensor EnergyModel HooksModel FigureModel FigureSpec FigureTextProofs FigureFileProofs FigureTemporalProofs.
Import ListNotations.
Open Scope string_scope.
Open Scope nat_scope.
Open Scope list_scope.

(** matplotlib's default settings for the five names, and one more. *)
Definition ex_settings : settings :=
  mkSettings "agg" [("font.family", RTexts ["sans-serif"]); ("pgf.texsystem", RText "xelatex");
                    ("pgf.preamble", RText ""); ("pgf.rcfonts", RFlag true); ("text.usetex", RFlag false);
                    ("lines.linewidth", RNum 1)].

(** An empty working directory. *)
Definition ex_world : world := mkWorld ex_settings (mkFiles [] []) [].

Definition ex_tensor (x : R) : tensor R := mkT [2; 1; 2] [x; x; x; x].

(** A call of the recording hook for a block [sblock] with a layer called [transform]. *)
Definition ex_call (t : R) : hook_args :=
  mkArgs t [("sblock", [("q1", ex_tensor t)])] [("sblock", [("p_q1", ex_tensor t)])] [("sblock", [("q1", ex_tensor t)])]
    [("sblock", [("q1", ex_tensor t)])] [("sblock", [("p_q1", ex_tensor t)])] [("sblock", [("q1", ex_tensor t)])]
    [("transform", mkPobj [("weight", mkT [2; 2] [t; t; t; t])] [])].

Definition ex_norm : tensor R -> R := fun _ => 0%R.

Definition ex_record : record := Eval vm_compute in
  match snd (run_hook ex_norm ex_norm [ex_call 0; ex_call 1] (HRecord [])) with HRecord d => d | HOther => [] end.

Lemma ex_record_is : run_hook ex_norm ex_norm [ex_call 0; ex_call 1] (HRecord []) = (Ok tt, HRecord ex_record).
Proof. vm_compute. reflexivity. Qed.

Lemma ex_keys : map fst ex_record =
  ["t"; "transform.weight"; "energy"; "sblock.state.q1"; "sblock.costate.p_q1"; "sblock.data.q1";
   "sblock.dot_state.q1"; "sblock.dot_costate.p_q1"; "sblock.dot_data.q1";
   "sqr_frobenius_norm_transform.weight"; "sqr_nuclear_norm_transform.weight"; "sqr_spectral_norm_transform.weight";
   "sum_sqr_frobenius_norm"; "sum_sqr_nuclear_norm"; "sum_sqr_spectral_norm"].
Proof. reflexivity. Qed.

Lemma ex_shapes : map (fun kv => map shape_of (snd kv)) ex_record =
  [[[]; []]; [[2; 2]; [2; 2]]; [[]; []]; [[2; 1; 2]; [2; 1; 2]]; [[2; 1; 2]; [2; 1; 2]]; [[2; 1; 2]; [2; 1; 2]];
   [[2; 1; 2]; [2; 1; 2]]; [[2; 1; 2]; [2; 1; 2]]; [[2; 1; 2]; [2; 1; 2]];
   [[]; []]; [[]; []]; [[]; []]; [[]; []]; [[]; []]; [[]; []]].
Proof. reflexivity. Qed.

Lemma in_keys (k : string) (data : record) : In k (map fst data) -> exists l, In (k, l) data.
Proof. intros I. apply in_map_iff in I. destruct I as ([k' l] & <- & I). exists l. exact I. Qed.

Lemma ex_recorded : recorded 2 ex_record.
Proof.
  split; [lia|]. split.
  { rewrite ex_keys. repeat (constructor; [cbn; intros H; repeat destruct H as [H|H]; try discriminate H; contradiction|]). constructor. }
  split.
  - intros k K. cbn in K. destruct K as [<-|[<-|[]]].
    + eexists. split; [left; reflexivity|]. split; [reflexivity|].
      intros v V. repeat destruct V as [<-|V]; try contradiction; eexists; reflexivity.
    + eexists. split; [right; right; left; reflexivity|]. split; [reflexivity|].
      intros v V. repeat destruct V as [<-|V]; try contradiction; eexists; reflexivity.
  - intros k l I. repeat destruct I as [I|I]; try contradiction;
      injection I as _ <-; (split; [reflexivity|]);
      [exists []|exists [2; 2]|exists []|exists [2; 1; 2]..|exists []|exists []|exists []|exists []|exists []|exists []];
      (split; [intros v V; repeat destruct V as [<-|V]; try contradiction; reflexivity|cbn; lia]).
Qed.

(** Two parameter objects: the figure of the first one is missing. *)
Lemma ex_missing w : w_shown w = [] -> exists w',
  plot_temporal_data_ ex_record "sblock" None true false w = (w', Ok tt) /\
  forall fig, In fig (w_shown w') -> fig_ylabel fig <> "transform.weight".
Proof.
  intros E. destruct (shown_spec 2 ex_record "sblock" None w ex_recorded) as (t & e & l & _ & _ & P & S).
  rewrite E in P. eexists. split; [exact P|]. cbn [w_shown app]. intros fig [<-|I]; [discriminate|].
  apply S in I. destruct I as (k & vs & _ & LO & ->). cbn [fig_ylabel]. intros ->. apply LO.
  exists "t". split; [left; reflexivity|]. left. exists "ransform.weight". reflexivity.
Qed.

(** A record of one evaluation. *)
Definition ex_single : record :=
  [("t", [VNum 0]); ("energy", [VNum 0]); ("sblock.state.q1", [VTen (ex_tensor 0)])].

Lemma ex_single_raises w : plot_temporal_data_ ex_single "sblock" None true false w =
  (mkWorld (w_settings w) (w_files w) (w_shown w ++ [mkFigure [VNum 0] [VNum 0] "energy"]), Raise ValueError).
Proof. reflexivity. Qed.

(** Saving into a directory whose parent does not exist. *)
Lemma ex_nested {F} (fig : F) : save_all_formats fig "results/run1" "loss" (mkFiles [] []) = (mkFiles [] [], Raise OSError).
Proof. reflexivity. Qed.
Lemma ex_current {F} (fig : F) : save_all_formats fig "" "loss" (mkFiles [] []) = (mkFiles [] [], Raise OSError).
Proof. reflexivity. Qed.

Lemma ex_not_restored : exists s f, plot_temporal_data ex_record "sblock" (Some (mkViz false true ("results/run1", "base"))) ex_world =
    (mkWorld s f [], Raise OSError) /\ s_backend s = "pgf".
Proof. eexists _, _. split; [vm_compute; reflexivity|reflexivity]. Qed.

Lemma simple_loss : simple_name "loss".
Proof.
  split; [cbn; intros H; repeat destruct H as [H|H]; try discriminate H; contradiction|].
  exists "l"%char. split; [left; reflexivity|discriminate].
Qed.

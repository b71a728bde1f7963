(** Curves over time: which figures are made, and what is left unchanged. *)
From Coq Require Import String Ascii List Arith Bool Lia.
From Verif Require Import Base Tensor HooksModel CommandModel FigureModel FigureSpec FigureTextProofs FigureFileProofs.
Import ListNotations.
Open Scope string_scope.
Open Scope nat_scope.
Open Scope list_scope.

(** ** Which names are left out *)

Lemma prefix_iff x k : String.prefix x k = true <-> begins x k.
Proof.
  revert k. induction x as [|a x IH]; intros k.
  - split; [intros _; exists k; reflexivity|]. intros _. destruct k; reflexivity.
  - destruct k as [|b k]; [split; [discriminate|intros [r E]; discriminate E]|].
    cbn [String.prefix]. destruct (ascii_dec a b) as [->|N].
    + rewrite IH. split; intros [r E]; exists r; [rewrite E; reflexivity|injection E as E; exact E].
    + split; [discriminate|]. intros [r E]. injection E as E _. congruence.
Qed.

Lemma do_plotting_iff b k : do_plotting b k = true <-> ~ left_out b k.
Proof.
  unfold do_plotting.
  assert (G : forall l p, fold_left (fun p dnp => if String.prefix dnp k || String.prefix (b ++ "." ++ dnp)%string k
                                              then false else p) l p = true <->
              p = true /\ forall x, In x l -> ~ (begins x k \/ begins (b ++ "." ++ x)%string k)).
  { induction l as [|x l IH]; intros p; cbn [fold_left].
    - split; [intros ->; split; [reflexivity|intros x []]|intros [P _]; exact P].
    - rewrite IH. destruct (String.prefix x k || String.prefix (b ++ "." ++ x)%string k) eqn:E.
      + split; [intros [D _]; discriminate D|]. intros [_ N]. exfalso. apply (N x (or_introl eq_refl)).
        rewrite orb_true_iff, !prefix_iff in E. exact E.
      + split.
        * intros [P N]. split; [exact P|]. intros y [<-|Y]; [|apply N; exact Y].
          rewrite <- !prefix_iff, <- orb_true_iff. congruence.
        * intros [P N]. split; [exact P|]. intros y Y. apply N. right. exact Y. }
  rewrite G. split.
  - intros [_ N] (x & X & B). exact (N x X B).
  - intros N. split; [reflexivity|]. intros x X B. apply N. exists x. split; assumption.
Qed.

Lemma not_plotted b k : do_plotting b k = false <-> left_out b k.
Proof.
  split.
  - intros E. unfold do_plotting in E.
    assert (G : forall l p, fold_left (fun p dnp => if String.prefix dnp k || String.prefix (b ++ "." ++ dnp)%string k
                                              then false else p) l p = false ->
              p = false \/ exists x, In x l /\ (begins x k \/ begins (b ++ "." ++ x)%string k)).
    { induction l as [|x l IH]; intros p; cbn [fold_left]; [auto|]. intros H. apply IH in H.
      destruct H as [H|(y & Y & B)]; [|right; exists y; split; [right; exact Y|exact B]].
      destruct (String.prefix x k || String.prefix (b ++ "." ++ x)%string k) eqn:E'; [|left; exact H].
      right. exists x. rewrite orb_true_iff, !prefix_iff in E'. split; [left; reflexivity|exact E']. }
    apply G in E. destruct E as [E|E]; [discriminate E|exact E].
  - intros L. destruct (do_plotting b k) eqn:E; [|reflexivity]. apply do_plotting_iff in E. contradiction.
Qed.

(** ** Settings *)

Definition keeps {A} (m : st world A) : Prop := forall w, w_settings (fst (m w)) = w_settings w.

Lemma keeps_ret {A} (a : A) : keeps (st_ret a).
Proof. intros w. reflexivity. Qed.
Lemma keeps_lift {A} (r : result A) : keeps (st_lift r).
Proof. intros w. reflexivity. Qed.
Lemma keeps_bind {A B} (m : st world A) (f : A -> st world B) : keeps m -> (forall a, keeps (f a)) -> keeps (st_bind m f).
Proof.
  intros M F w. unfold st_bind. specialize (M w). destruct (m w) as [w1 [a|e]]; cbn [fst] in *; [|exact M].
  rewrite F. exact M.
Qed.
Lemma keeps_for {A} (f : A -> st world unit) l : (forall a, keeps (f a)) -> keeps (st_for f l).
Proof. intros F. induction l as [|a l IH]; [apply keeps_ret|]. cbn [st_for]. apply keeps_bind; [apply F|intros _; exact IH]. Qed.
Lemma keeps_files {A} (m : st (files figure) A) : keeps (on_files m).
Proof. intros w. unfold on_files, st_on. destruct (m (w_files w)). reflexivity. Qed.
Lemma keeps_emit args v p n f : keeps (emit args v p n f).
Proof.
  unfold emit. apply keeps_bind.
  - destruct p; [|apply keeps_ret]. destruct args as [[d b]|]; [apply keeps_files|apply keeps_lift].
  - intros _. destruct v; [intros w; reflexivity|apply keeps_ret].
Qed.

Lemma bind_ok {A B} (m : st world A) (f : A -> st world B) w w' b :
  st_bind m f w = (w', Ok b) -> exists w1 a, m w = (w1, Ok a) /\ f a w1 = (w', Ok b).
Proof.
  unfold st_bind. destruct (m w) as [w1 [a|e]]; [|discriminate]. intros E. exists w1, a. split; [reflexivity|exact E].
Qed.

Definition keeps_ok {A} (m : st world A) : Prop := forall w w' a, m w = (w', Ok a) -> same_settings (w_settings w) (w_settings w').

Lemma keeps_keeps_ok {A} (m : st world A) : keeps m -> keeps_ok m.
Proof. intros K w w' a E. specialize (K w). rewrite E in K. cbn [fst] in K. rewrite K. split; reflexivity. Qed.

(** The middle part of [plot_temporal_data_]. *)
Definition middle (data : record) (block_name : string) (args : option out_args) (visualize print : bool) : st world unit :=
  t <~ st_lift (np_shape (series "t" data)) ;;
  energy <~ st_lift (np_shape (series "energy" data)) ;;
  _ <~ st_lift (plt_plot t energy) ;;
  _ <~ emit args visualize print "energy" (mkFigure (series "t" data) (series "energy" data) "energy") ;;
  st_for (fun kv =>
    if do_plotting block_name (fst kv) then
      vals <~ st_lift (np_shape (snd kv)) ;;
      _ <~ st_lift (plot_values t vals) ;;
      label <~ (if print then st_lift (escape_latex_special_characters (fst kv)) else st_ret (fst kv)) ;;
      emit args visualize print (fst kv) (mkFigure (series "t" data) (snd kv) label)
    else st_ret tt) data.

Lemma keeps_middle data b args v p : keeps (middle data b args v p).
Proof.
  unfold middle. apply keeps_bind; [apply keeps_lift|]. intros t.
  apply keeps_bind; [apply keeps_lift|]. intros e. apply keeps_bind; [apply keeps_lift|]. intros _.
  apply keeps_bind; [apply keeps_emit|]. intros _. apply keeps_for. intros kv.
  destruct (do_plotting b (fst kv)); [|apply keeps_ret].
  apply keeps_bind; [apply keeps_lift|]. intros vals. apply keeps_bind; [apply keeps_lift|]. intros _.
  apply keeps_bind; [destruct p; [apply keeps_lift|apply keeps_ret]|]. intros l. apply keeps_emit.
Qed.

Lemma st_bind_assoc {A B C} (m : st world A) (f : A -> st world B) (g : B -> st world C) w :
  st_bind (st_bind m f) g w = st_bind m (fun a => st_bind (f a) g) w.
Proof. unfold st_bind. destruct (m w) as [w1 [a|e]]; [|reflexivity]. destruct (f a w1) as [w2 [x|e]]; reflexivity. Qed.

Lemma st_bind_ext {A B} (m : st world A) (f g : A -> st world B) w :
  (forall a w, f a w = g a w) -> st_bind m f w = st_bind m g w.
Proof. intros E. unfold st_bind. destruct (m w) as [w1 [a|e]]; [apply E|reflexivity]. Qed.

Lemma split_middle data b args v p (k : st world unit) w :
  (t <~ st_lift (np_shape (series "t" data)) ;;
   energy <~ st_lift (np_shape (series "energy" data)) ;;
   _ <~ st_lift (plt_plot t energy) ;;
   _ <~ emit args v p "energy" (mkFigure (series "t" data) (series "energy" data) "energy") ;;
   _ <~ st_for (fun kv =>
     if do_plotting b (fst kv) then
       vals <~ st_lift (np_shape (snd kv)) ;;
       _ <~ st_lift (plot_values t vals) ;;
       label <~ (if p then st_lift (escape_latex_special_characters (fst kv)) else st_ret (fst kv)) ;;
       emit args v p (fst kv) (mkFigure (series "t" data) (snd kv) label)
     else st_ret tt) data ;;
   k) w = (_ <~ middle data b args v p ;; k) w.
Proof.
  unfold middle. rewrite st_bind_assoc. apply st_bind_ext. intros t w1.
  rewrite st_bind_assoc. apply st_bind_ext. intros e w2.
  rewrite st_bind_assoc. apply st_bind_ext. intros [] w3.
  rewrite st_bind_assoc. reflexivity.
Qed.

Lemma print_ok data b args w w' :
  plot_temporal_data_ data b args false true w = (w', Ok tt) ->
  same_settings (w_settings w) (w_settings w').
Proof.
  unfold plot_temporal_data_. cbn [andb negb]. intros E.
  apply bind_ok in E. destruct E as (w1 & prev & E1 & E).
  apply bind_ok in E1. destruct E1 as (w0 & pv & E0 & E1). injection E1 as <- <-.
  rewrite split_middle in E. apply bind_ok in E. destruct E as (w2 & [] & E2 & E).
  unfold on_settings, st_on in E0.
  destruct (setup_pgf_plotting (w_settings w)) as [s1 r] eqn:SU. injection E0 as <- ->.
  destruct pv as [backend rc]. unfold on_settings, st_on in E.
  pose proof (keeps_middle data b args false true (mkWorld s1 (w_files w) (w_shown w))) as K.
  rewrite E2 in K. cbn [fst w_settings] in K. rewrite K in E.
  destruct (round_trip _ _ _ _ SU s1) as (s' & R & RB & RK & RO). rewrite R in E. injection E as <-.
  cbn [w_settings]. split; [exact RB|]. intros k.
  destruct (in_dec string_dec k pgf_keys) as [I|N]; [apply RK; exact I|].
  rewrite RO by exact N. destruct (setup_effect _ _ _ SU) as (_ & _ & O). apply O. exact N.
Qed.

Lemma show_keeps data b args w :
  w_settings (fst (plot_temporal_data_ data b args true false w)) = w_settings w.
Proof.
  unfold plot_temporal_data_. cbn [andb negb].
  unfold st_bind at 1. cbn [st_ret]. rewrite split_middle. unfold st_bind.
  pose proof (keeps_middle data b args true false w) as K.
  destruct (middle data b args true false w) as [w1 [[]|e]]; exact K.
Qed.

Lemma temporal_restores data b args w w' :
  plot_temporal_data data b args w = (w', Ok tt) -> same_settings (w_settings w) (w_settings w').
Proof.
  assert (SH : forall a w w', plot_temporal_data_ data b a true false w = (w', Ok tt) -> w_settings w' = w_settings w).
  { intros a u u' E. pose proof (show_keeps data b a u) as K. rewrite E in K. exact K. }
  unfold plot_temporal_data. destruct args as [a|]; [|intros E; rewrite (SH _ _ _ E); split; reflexivity].
  intros E. apply bind_ok in E. destruct E as (w1 & [] & E1 & E).
  assert (S1 : w_settings w1 = w_settings w).
  { destruct (v_viz a); [exact (SH _ _ _ E1)|]. injection E1 as <-. reflexivity. }
  rewrite <- S1. destruct (v_save_figures a); [exact (print_ok _ _ _ _ _ E)|].
  injection E as <-. split; reflexivity.
Qed.

(** ** Shapes *)

Lemma curves_shape T l : 2 <= T -> curves T l -> exists s, np_shape l = Ok (T :: s) /\
  List.length (filter (fun n => negb (Nat.eqb n 1)) s) <= 2.
Proof.
  intros G (L & s & A & B). exists s. split; [|exact B].
  assert (SA : forall v, In v l -> shape_of v = s).
  { intros v V. specialize (A v V). destruct v as [x|t]; cbn [shape_of]; [symmetry|]; exact A. }
  destruct l as [|v l]; [cbn in L; lia|]. unfold np_shape.
  replace (forallb _ (v :: l)) with true.
  - rewrite L, (SA v) by (left; reflexivity). reflexivity.
  - symmetry. apply forallb_forall. intros x X. rewrite (SA x X), (SA v (or_introl eq_refl)).
    destruct (list_eq_dec Nat.eq_dec s s); congruence.
Qed.

Lemma plot_curves T s : 2 <= T -> List.length (filter (fun n => negb (Nat.eqb n 1)) s) <= 2 ->
  plot_values [T] (T :: s) = Ok tt.
Proof.
  intros G L. unfold plot_values, squeeze. cbn [filter].
  destruct (Nat.eqb_spec T 1) as [E|_]; [lia|]. cbn [negb].
  destruct (filter (fun n => negb (n =? 1)) s) as [|a [|c [|d r]]].
  - unfold plt_plot. cbn. rewrite Nat.eqb_refl. reflexivity.
  - unfold plt_plot. cbn. rewrite Nat.eqb_refl. cbn. rewrite !andb_false_r. reflexivity.
  - induction (seq 0 c) as [|x l IH]; [reflexivity|]. cbn [foldM].
    unfold plt_plot at 1. cbn [hd List.length]. rewrite Nat.eqb_refl.
    cbn [negb Nat.ltb Nat.leb orb]. rewrite Nat.eqb_refl. cbn [negb]. rewrite !andb_false_r. exact IH.
  - cbn in L. lia.
Qed.

Lemma numbers_shape T l : 2 <= T -> List.length l = T -> (forall v, In v l -> exists x, v = VNum x) -> np_shape l = Ok [T].
Proof.
  intros G L A. destruct (curves_shape T l G) as (s & E & _).
  - split; [exact L|]. exists []. split; [|cbn; lia]. intros v V. destruct (A v V) as [x ->]. reflexivity.
  - destruct l as [|v l]; [cbn in L; lia|]. unfold np_shape in *.
    destruct (forallb _ (v :: l)); [|discriminate]. destruct (A v (or_introl eq_refl)) as [x ->].
    rewrite L in *. reflexivity.
Qed.

Lemma series_in k l data : NoDup (map fst data) -> In (k, l) data -> series k data = l.
Proof.
  unfold series, pd_get. induction data as [|[k' l'] data IH]; [contradiction|].
  cbn [map fst sd_get]. intros ND I. apply NoDup_cons_iff in ND. destruct ND as [N ND].
  destruct (String.eqb_spec k k') as [->|D].
  - destruct I as [[= ->]|I]; [reflexivity|]. exfalso. apply N. apply (in_map fst) in I. exact I.
  - destruct I as [[= E _]|I]; [congruence|]. apply IH; assumption.
Qed.

Lemma recorded_start T data : recorded T data ->
  np_shape (series "t" data) = Ok [T] /\ np_shape (series "energy" data) = Ok [T] /\ plt_plot [T] [T] = Ok tt.
Proof.
  intros (G & ND & N & _). split; [|split].
  - destruct (N "t") as (l & I & L & A); [cbn; tauto|]. rewrite (series_in _ _ _ ND I). apply numbers_shape; assumption.
  - destruct (N "energy") as (l & I & L & A); [cbn; tauto|]. rewrite (series_in _ _ _ ND I). apply numbers_shape; assumption.
  - unfold plt_plot. cbn. rewrite Nat.eqb_refl. reflexivity.
Qed.

(** ** On screen *)

Definition screen_figure (data : record) (kv : string * list val) : figure :=
  mkFigure (series "t" data) (snd kv) (fst kv).

Lemma shown_loop T data b args l w :
  2 <= T -> (forall k v, In (k, v) l -> curves T v) ->
  st_for (fun kv =>
    if do_plotting b (fst kv) then
      vals <~ st_lift (np_shape (snd kv)) ;;
      _ <~ st_lift (plot_values [T] vals) ;;
      label <~ (if false then st_lift (escape_latex_special_characters (fst kv)) else st_ret (fst kv)) ;;
      emit args true false (fst kv) (mkFigure (series "t" data) (snd kv) label)
    else st_ret tt) l w =
  (mkWorld (w_settings w) (w_files w)
     (w_shown w ++ map (screen_figure data) (filter (fun kv => do_plotting b (fst kv)) l)), Ok tt).
Proof.
  intros G. revert w. induction l as [|[k v] l IH]; intros w C.
  - cbn. rewrite app_nil_r. destruct w; reflexivity.
  - cbn [st_for filter fst snd]. unfold st_bind at 1. destruct (do_plotting b k) eqn:P.
    + destruct (curves_shape T v G (C k v (or_introl eq_refl))) as (s & E & L).
      unfold st_bind at 1, st_lift. rewrite E. unfold st_bind at 1. rewrite (plot_curves T s G L).
      cbn. rewrite IH by (intros k' v' I; apply (C k' v'); right; exact I).
      cbn [w_settings w_files w_shown]. rewrite <- app_assoc. reflexivity.
    + cbn [st_ret]. apply IH. intros k' v' I. apply (C k' v'). right. exact I.
Qed.

Lemma shown T data b args w : recorded T data ->
  plot_temporal_data_ data b args true false w =
  (mkWorld (w_settings w) (w_files w)
     (w_shown w ++ mkFigure (series "t" data) (series "energy" data) "energy" ::
                   map (screen_figure data) (filter (fun kv => do_plotting b (fst kv)) data)), Ok tt).
Proof.
  intros R. pose proof (recorded_start _ _ R) as (A & B & C). destruct R as (G & ND & _ & CU).
  unfold plot_temporal_data_. cbn [andb negb]. unfold st_bind at 1. cbn [st_ret].
  rewrite split_middle. unfold st_bind at 1. unfold middle.
  unfold st_bind at 1, st_lift. rewrite A. unfold st_bind at 1, st_lift. rewrite B.
  unfold st_bind at 1, st_lift. rewrite C. unfold st_bind at 1.
  cbn [emit st_bind st_ret show].
  rewrite (shown_loop T data b args data _ G CU).
  cbn [w_settings w_files w_shown]. rewrite <- app_assoc. reflexivity.
Qed.

Lemma shown_spec T data b args w : recorded T data ->
  exists t e l, In ("t", t) data /\ In ("energy", e) data /\
    plot_temporal_data_ data b args true false w =
      (mkWorld (w_settings w) (w_files w) (w_shown w ++ mkFigure t e "energy" :: l), Ok tt) /\
    forall fig, In fig l <-> exists k vs, In (k, vs) data /\ ~ left_out b k /\ fig = mkFigure t vs k.
Proof.
  intros R. pose proof R as (_ & ND & N & _).
  destruct (N "t") as (t & It & _); [cbn; tauto|]. destruct (N "energy") as (e & Ie & _); [cbn; tauto|].
  exists t, e, (map (screen_figure data) (filter (fun kv => do_plotting b (fst kv)) data)).
  split; [exact It|]. split; [exact Ie|]. split.
  - rewrite (shown T data b args w R), (series_in _ _ _ ND It), (series_in _ _ _ ND Ie). reflexivity.
  - intros fig. rewrite in_map_iff. split.
    + intros ([k vs] & <- & I). apply filter_In in I. destruct I as [I P]. exists k, vs.
      split; [exact I|]. split; [apply do_plotting_iff; exact P|].
      unfold screen_figure. rewrite (series_in _ _ _ ND It). reflexivity.
    + intros (k & vs & I & L & ->). exists (k, vs). split.
      * unfold screen_figure. rewrite (series_in _ _ _ ND It). reflexivity.
      * apply filter_In. split; [exact I|]. apply do_plotting_iff. exact L.
Qed.

(** ** In files *)

Lemma bind_lift {A B} (r : result A) (f : A -> st world B) w a : r = Ok a -> st_bind (st_lift r) f w = f a w.
Proof. intros ->. reflexivity. Qed.


Lemma app_same_length a b c d : String.length b = String.length d ->
  (a ++ b)%string = (c ++ d)%string -> a = c /\ b = d.
Proof.
  revert c. induction a as [|x a IH]; intros [|y c] L E; cbn [append] in *.
  - split; [reflexivity|exact E].
  - apply (f_equal String.length) in E. cbn in E. rewrite L in E.
    assert (Q : forall u v, String.length (u ++ v)%string = String.length u + String.length v)
      by (induction u; intros; cbn; auto). rewrite Q in E. lia.
  - apply (f_equal String.length) in E. cbn in E. rewrite <- L in E.
    assert (Q : forall u v, String.length (u ++ v)%string = String.length u + String.length v)
      by (induction u; intros; cbn; auto). rewrite Q in E. lia.
  - injection E as -> E. destruct (IH c L E) as [-> ->]. split; reflexivity.
Qed.

Lemma file_names dir base n n' f f' : In f formats -> In f' formats ->
  figure_file dir base n f = figure_file dir base n' f' -> n = n' /\ f = f'.
Proof.
  unfold figure_file, in_directory. intros F F' E. apply app_inj_tail in E. destruct E as [_ E].
  apply app_same_length in E.
  - destruct E as [E E']. injection E' as E'. split; [|exact E'].
    clear F F' E' f f'. revert E. induction base as [|x r IH]; intros [= E]; [exact E|exact (IH E)].
  - cbn in F, F'. destruct F as [<-|[<-|[<-|[]]]]; destruct F' as [<-|[<-|[<-|[]]]]; reflexivity.
Qed.

Definition no_slash (s : string) : Prop := ~ In "/"%char (list_ascii_of_string s).

Lemma base_name base n : no_slash base -> no_slash n -> simple_name (base ++ "-" ++ n).
Proof.
  intros A B. split.
  - rewrite !chars_app, !in_app_iff. intros [H|[H|H]]; [exact (A H)| |exact (B H)].
    cbn in H. destruct H as [H|[]]. discriminate H.
  - exists "-"%char. split; [|discriminate]. rewrite !chars_app, !in_app_iff. right. left. left. reflexivity.
Qed.

Lemma emit_saved dir base n f w s1 : save_all_formats f dir (base ++ "-" ++ n)%string (w_files w) = (s1, Ok tt) ->
  emit (Some (dir, base)) false true n f w = (mkWorld (w_settings w) s1 (w_shown w), Ok tt).
Proof. intros E. unfold emit, st_bind, on_files, st_on. rewrite E. reflexivity. Qed.

Lemma print_loop T data b dir base l w :
  2 <= T -> NoDup (map fst l) -> (forall k v, In (k, v) l -> curves T v) ->
  dir <> "" -> no_slash base -> (forall k, In k (map fst l) -> no_slash k) ->
  is_dir (parse_path dir) (w_files w) = true ->
  (forall k f, In k (map fst l) -> In f formats -> is_dir (figure_file dir base k f) (w_files w) = false) ->
  exists s', st_for (fun kv =>
    if do_plotting b (fst kv) then
      vals <~ st_lift (np_shape (snd kv)) ;;
      _ <~ st_lift (plot_values [T] vals) ;;
      label <~ (if true then st_lift (escape_latex_special_characters (fst kv)) else st_ret (fst kv)) ;;
      emit (Some (dir, base)) false true (fst kv) (mkFigure (series "t" data) (snd kv) label)
    else st_ret tt) l w = (mkWorld (w_settings w) s' (w_shown w), Ok tt) /\
    (forall p, is_dir p s' = true <-> is_dir p (w_files w) = true) /\
    (forall k v f, In (k, v) l -> ~ left_out b k -> In f formats ->
       file_at (figure_file dir base k f) s' = Some (mkFigure (series "t" data) v (esc k), f)) /\
    (forall p, (forall k f, In k (map fst l) -> ~ left_out b k -> In f formats -> p <> figure_file dir base k f) ->
       file_at p s' = file_at p (w_files w)).
Proof.
  intros G. revert w. induction l as [|[k v] l IH]; intros w ND C DE NB NS DD ND'.
  - exists (w_files w). cbn. split; [destruct w; reflexivity|]. split; [reflexivity|].
    split; [intros k v f []|]. reflexivity.
  - cbn [map fst] in *. apply NoDup_cons_iff in ND. destruct ND as [NI ND].
    cbn [st_for fst snd]. unfold st_bind at 1. destruct (do_plotting b k) eqn:P.
    + destruct (curves_shape T v G (C k v (or_introl eq_refl))) as (s & E & L).
      unfold st_bind at 1, st_lift. rewrite E. unfold st_bind at 1. rewrite (plot_curves T s G L).
      unfold st_bind at 1. rewrite escape_is.
      destruct (save_ok (mkFigure (series "t" data) v (esc k)) dir (base ++ "-" ++ k)%string (w_files w)) as (s1 & E1 & S1 & O1 & D1).
      { exact DE. } { apply base_name; [exact NB|apply NS; left; reflexivity]. } { left. exact DD. }
      { intros f F. apply (ND' k f); [left; reflexivity|exact F]. }
      rewrite (emit_saved _ _ _ _ _ _ E1).
      destruct (IH (mkWorld (w_settings w) s1 (w_shown w))) as (s2 & E2 & D2 & S2 & O2).
      { exact ND. } { intros k' v' I. apply (C k' v'). right. exact I. } { exact DE. } { exact NB. }
      { intros k' I. apply NS. right. exact I. } { cbn [w_files]. apply D1. left. exact DD. }
      { intros k' f I F. cbn [w_files]. destruct (is_dir (figure_file dir base k' f) s1) eqn:X; [|reflexivity].
        apply D1 in X. destruct X as [X|X]; [rewrite (ND' k' f (or_intror I) F) in X; discriminate|].
        exfalso. unfold figure_file, in_directory in X. apply (f_equal (@List.length _)) in X.
        rewrite app_length in X. cbn in X. lia. }
      cbn [w_files w_settings w_shown] in *. exists s2. split; [exact E2|]. split; [|split].
      * intros p. rewrite D2, D1. split; [intros [H| ->]; assumption|auto].
      * intros k' v' f [[= <- <-]|I] LO F; [|apply S2; assumption].
        rewrite O2; [apply S1; exact F|]. intros k' f' I _ F' E'.
        apply file_names in E'; [|exact F|exact F']. destruct E' as [-> _]. exact (NI I).
      * intros p Q. rewrite O2; [apply O1|].
        -- intros f F. apply (Q k f); [left; reflexivity|apply do_plotting_iff; exact P|exact F].
        -- intros k' f I LO F. apply Q; [right; exact I|exact LO|exact F].
    + cbn [st_ret]. destruct (IH w) as (s2 & E2 & D2 & S2 & O2); try assumption.
      { intros k' v' I. apply (C k' v'). right. exact I. } { intros k' I. apply NS. right. exact I. }
      { intros k' f I F. apply ND'; [right; exact I|exact F]. }
      exists s2. split; [exact E2|]. split; [exact D2|]. split.
      * intros k' v' f [[= <- <-]|I] LO F; [|apply S2; assumption].
        exfalso. apply LO. apply not_plotted. exact P.
      * intros p Q. apply O2. intros k' f I LO F. apply Q; [right; exact I|exact LO|exact F].
Qed.

Lemma printed T data b dir base w : recorded T data ->
  dir <> "" -> no_slash base -> (forall k, In k (map fst data) -> no_slash k) ->
  usable dir (w_files w) ->
  (forall k f, In k (map fst data) -> In f formats -> is_dir (figure_file dir base k f) (w_files w) = false) ->
  (forall k, In k pgf_keys -> exists v, sd_get k (s_rc (w_settings w)) = Some v) ->
  exists w', plot_temporal_data_ data b (Some (dir, base)) false true w = (w', Ok tt) /\
    same_settings (w_settings w) (w_settings w') /\ w_shown w' = w_shown w /\
    curves_saved data b dir base (w_files w) (w_files w').
Proof.
  intros R DE NB NS U ND' PK. pose proof (recorded_start _ _ R) as (A & B & C). pose proof R as (G & ND & NU & CU).
  assert (X : exists s1 backend rc, setup_pgf_plotting (w_settings w) = (s1, Ok (backend, rc))).
  { destruct (setup_cases (w_settings w)) as [[(k & I & N) _]|(a1 & a2 & a3 & a4 & a5 & _ & E)].
    - destruct (PK k I) as [v V]. congruence.
    - rewrite E. eexists _, _, _. reflexivity. }
  destruct X as (s1 & backend & rc & SU).
  assert (Ien : In "energy" (map fst data)).
  { destruct (NU "energy") as (l & I & _); [cbn; tauto|]. apply (in_map fst) in I. exact I. }
  assert (LE : left_out b "energy").
  { exists "energy". split; [cbn; tauto|]. left. exists "". reflexivity. }
  destruct (save_ok (mkFigure (series "t" data) (series "energy" data) "energy") dir (base ++ "-energy")%string (w_files w))
    as (f1 & E1 & S1 & O1 & D1).
  { exact DE. } { apply (base_name base "energy"); [exact NB|apply NS; exact Ien]. } { exact U. }
  { intros f F. apply (ND' "energy" f); [exact Ien|exact F]. }
  destruct (print_loop T data b dir base data (mkWorld s1 f1 (w_shown w)) G ND CU DE NB NS) as (f2 & E2 & D2 & S2 & O2).
  { cbn [w_files]. apply D1. right. reflexivity. }
  { intros k f I F. cbn [w_files]. destruct (is_dir (figure_file dir base k f) f1) eqn:X; [|reflexivity].
    apply D1 in X. destruct X as [X|X]; [rewrite (ND' k f I F) in X; discriminate|].
    exfalso. unfold figure_file, in_directory in X. apply (f_equal (@List.length _)) in X.
    rewrite app_length in X. cbn in X. lia. }
  destruct (round_trip _ _ _ _ SU s1) as (s' & RR & _).
  assert (E : plot_temporal_data_ data b (Some (dir, base)) false true w = (mkWorld s' f2 (w_shown w), Ok tt)).
  { unfold plot_temporal_data_. cbn [andb negb].
    unfold st_bind at 1. unfold st_bind at 1. unfold on_settings at 1, st_on. rewrite SU. cbn [st_ret].
    rewrite split_middle. unfold st_bind at 1. unfold middle.
    rewrite (bind_lift _ _ _ _ A), (bind_lift _ _ _ _ B), (bind_lift _ _ _ _ C). unfold st_bind at 1.
    rewrite (emit_saved dir base "energy" _ (mkWorld s1 (w_files w) (w_shown w)) _ E1).
    cbn [w_settings w_shown]. rewrite E2.
    cbn [w_settings w_shown w_files]. unfold on_settings, st_on. cbn [w_settings]. rewrite RR. reflexivity. }
  exists (mkWorld s' f2 (w_shown w)). split; [exact E|]. split; [exact (print_ok _ _ _ _ _ E)|].
  split; [reflexivity|]. cbn [w_files] in *. split; [|split].
  - intros f t e F It Ie. rewrite O2.
    + rewrite <- (series_in _ _ _ ND It), <- (series_in _ _ _ ND Ie). apply (S1 f F).
    + intros k f' I LO F' X. apply file_names in X; [|exact F|exact F']. destruct X as [<- _]. exact (LO LE).
  - intros f t k l label F It Ik LO EL. rewrite escape_is in EL. injection EL as <-.
    rewrite <- (series_in _ _ _ ND It). apply S2; assumption.
  - intros p Q. rewrite O2.
    + apply O1. intros f F. apply (Q f "energy" F). left. reflexivity.
    + intros k f I LO F. apply (Q f k F). right. split; assumption.
Qed.

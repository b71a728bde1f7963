(** The frames of the evolution over time and their animation. *)
From Coq Require Import String Ascii List Arith Bool Reals Lia.
From Verif Require Import Base Tensor TensorFacts HooksModel CommandModel FigureModel FigureSpec FigureFileProofs
  FigureTemporalProofs VizModel VizSpec VizStackProofs VizNameProofs.
Import ListNotations.
Open Scope string_scope.
Open Scope nat_scope.
Open Scope list_scope.

Lemma bind_lift {S A B} (r : result A) (f : A -> st S B) s a : r = Ok a -> st_bind (st_lift r) f s = f a s.
Proof. intros ->. reflexivity. Qed.

Lemma bind_run {S A B} (m : st S A) (f : A -> st S B) s s' a : m s = (s', Ok a) -> st_bind m f s = f a s'.
Proof. intros H. unfold st_bind. rewrite H. reflexivity. Qed.

(** ** One frame *)
Section Evolution.
Variables (data : record) (block : string) (T : nat) (t : list val) (q1 p1 q2 p2 d1 d2 : list (tensor R)) (nr : nat).
Hypothesis E : evolution data block T t q1 p1 q2 p2 d1 d2 nr.

Lemma series_times : series "t" data = t.
Proof. unfold series. pose proof (ev_times _ _ _ _ _ _ _ _ _ _ _ E) as X. unfold pd_get in *. rewrite X. reflexivity. Qed.

Lemma series_stack k l s : series_is data k l s -> List.length l = T ->
  exists a, convert_list_of_np_arrays_into_np_array (arrays k data) = Ok a /\ stack_of s l a.
Proof.
  intros [G H] L. unfold arrays, series, pd_get in *. rewrite G, map_map, map_id. apply stack_ok; [|exact H].
  pose proof (ev_one _ _ _ _ _ _ _ _ _ _ _ E). destruct l; [cbn in L; lia|discriminate].
Qed.

Definition pic (i : nat) : picture :=
  Frame i (nth i t (VNum 0)) (firstn (S i) d1) (nth i q1 (mkT [] [])) (nth i p1 (mkT [] []))
    (nth i q2 (mkT [] [])) (nth i p2 (mkT [] [])).

Lemma nth_get {A} (l : list A) d i : i < List.length l -> nth_error l i = Some (nth i l d).
Proof. apply nth_error_nth'. Qed.

Lemma pic_frame i : i < T -> is_frame t q1 p1 q2 p2 d1 i (pic i).
Proof.
  intros I. destruct (ev_lengths _ _ _ _ _ _ _ _ _ _ _ E) as [Lt F].
  repeat match goal with H : Forall _ (_ :: _) |- _ => inversion H; clear H; subst end.
  eexists _, _, _, _, _. split; [reflexivity|]. repeat split; apply nth_get; congruence || lia.
Qed.

Lemma draw_arrows_ok n f : 1 <= n -> 2 <= f -> draw_arrows n f n f = Ok tt.
Proof.
  intros N F. unfold draw_arrows. rewrite (proj2 (Nat.ltb_ge f 2) F), Nat.eqb_refl. cbn [orb negb].
  destruct n; [lia|reflexivity].
Qed.

Lemma higher_ok n f : 1 <= n -> 2 <= f -> plot_higher_order_state [n; 1; f] [n; 1; f] = Ok tt.
Proof.
  intros N F. cbn [plot_higher_order_state Nat.eqb negb]. destruct ((2 <? f) && (1 <? n)).
  - rewrite !Nat.eqb_refl. reflexivity.
  - apply draw_arrows_ok; assumption.
Qed.

Lemma particles_ok n m f : 1 <= n -> 1 <= m -> 2 <= f -> plot_particles [n; m; f] [n; m; f] = Ok tt.
Proof.
  intros N M F. cbn [plot_particles]. destruct m; [lia|]. cbn [Nat.eqb orb]. apply draw_arrows_ok; assumption.
Qed.

Lemma lines_ok number times n m f : number <= n -> 1 <= m -> 2 <= f -> drawable_lines number [times; n; m; f] = Ok tt.
Proof.
  intros A B C. cbn [drawable_lines]. apply Nat.leb_le in A, B, C. rewrite A, B, C, orb_true_r. reflexivity.
Qed.

Lemma trajectories_ok val_y times m f : comparable val_y nr -> 1 <= m -> 2 <= f ->
  plot_trajectories val_y (Some [times; nr; m; f]) None None None None = Ok tt.
Proof.
  intros C M F. unfold plot_trajectories, draw_pair. destruct val_y as [y|]; [|reflexivity].
  destruct C as (times' & n & m' & f' & -> & N & M' & F'). cbn [second_axis list_item].
  unfold second_axis, list_item. cbn [nth_error bind]. rewrite lines_ok by (assumption || lia). cbn [bind].
  rewrite lines_ok by assumption. reflexivity.
Qed.

Section Drawing.
Variables (val_y : option (list nat)) (Q1 P1 Q2 P2 D1 : tensor R).
Hypothesis C : comparable val_y nr.
Hypothesis SQ1 : forall n m f, series_is data (block ++ ".state.q1") q1 [n; m; f] -> stack_of [n; m; f] q1 Q1.
Hypothesis SP1 : forall n m f, series_is data (block ++ ".costate.p_q1") p1 [n; m; f] -> stack_of [n; m; f] p1 P1.
Hypothesis SQ2 : forall n f, series_is data (block ++ ".state.q2") q2 [n; 1; f] -> stack_of [n; 1; f] q2 Q2.
Hypothesis SP2 : forall n f, series_is data (block ++ ".costate.p_q2") p2 [n; 1; f] -> stack_of [n; 1; f] p2 P2.
Hypothesis SD1 : forall m f, series_is data (block ++ ".data.q1") d1 [nr; m; f] -> stack_of [nr; m; f] d1 D1.

Lemma frame_ok i : i < T -> frame val_y t Q1 P1 Q2 P2 D1 i = Ok (pic i).
Proof.
  intros I. destruct (ev_lengths _ _ _ _ _ _ _ _ _ _ _ E) as [Lt L].
  destruct (ev_q1 _ _ _ _ _ _ _ _ _ _ _ E) as (n & m & f & N & M & F & Hq & Hp).
  destruct (ev_q2 _ _ _ _ _ _ _ _ _ _ _ E) as (n' & f' & N' & F' & Hq2 & Hp2).
  destruct (ev_d1 _ _ _ _ _ _ _ _ _ _ _ E) as (m'' & f'' & M'' & F'' & Hd).
  inversion L as [|? ? L1 L']; subst. inversion L' as [|? ? L2 L'']; subst. inversion L'' as [|? ? L3 L3']; subst.
  inversion L3' as [|? ? L4 L4']; subst. inversion L4' as [|? ? L5 L5']; subst.
  unfold frame. rewrite (rows_stack _ _ _ _ (proj2 Hd) (SD1 _ _ Hd)) by lia. cbn [bind].
  pose proof (nth_get q1 (mkT [] []) i ltac:(lia)) as G1. pose proof (nth_get p1 (mkT [] []) i ltac:(lia)) as G2.
  pose proof (nth_get q2 (mkT [] []) i ltac:(lia)) as G3. pose proof (nth_get p2 (mkT [] []) i ltac:(lia)) as G4.
  pose proof (nth_get t (VNum 0) i ltac:(lia)) as G5.
  rewrite (slice_stack _ _ _ _ _ (proj2 Hq) (SQ1 _ _ _ Hq) G1). cbn [bind].
  rewrite (slice_stack _ _ _ _ _ (proj2 Hp) (SP1 _ _ _ Hp) G2). cbn [bind].
  rewrite (slice_stack _ _ _ _ _ (proj2 Hq2) (SQ2 _ _ Hq2) G3). cbn [bind].
  rewrite (slice_stack _ _ _ _ _ (proj2 Hp2) (SP2 _ _ Hp2) G4). cbn [bind].
  unfold list_item. rewrite G5. cbn [bind].
  rewrite (proj1 (SD1 _ _ Hd)). cbn [tl].
  rewrite trajectories_ok by assumption. cbn [bind].
  rewrite (proj1 (proj2 Hq _ (nth_error_In _ _ G1))), (proj1 (proj2 Hp _ (nth_error_In _ _ G2))).
  rewrite particles_ok by assumption. cbn [bind].
  rewrite (proj1 (proj2 Hq2 _ (nth_error_In _ _ G3))), (proj1 (proj2 Hp2 _ (nth_error_In _ _ G4))).
  rewrite higher_ok by assumption. reflexivity.
Qed.
End Drawing.

(** ** The loop *)

Lemma on_files_run {A} (m : st (files picture) A) s f sh s' (a : A) : m f = (s', Ok a) ->
  on_v_files m (mkVworld s f sh) = (mkVworld s s' sh, Ok a).
Proof. intros H. unfold on_v_files, st_on. cbn [v_files]. rewrite H. reflexivity. Qed.

Lemma saved_loop draw dir prefix max : ~ In "/"%char (list_ascii_of_string prefix) -> T <= 10 ^ 5 ->
  (forall i, i < T -> draw i = Ok (pic i)) ->
  forall n k s f sh, k + n = T -> is_dir (parse_path dir) f = true ->
  (forall i, i < T -> is_dir (in_directory dir (frame_file prefix i) "png") f = false) ->
  exists f', frames_loop draw (Some dir) prefix max (seq k n) (mkVworld s f sh) = (mkVworld s f' sh, Ok tt) /\
    f_dirs f' = f_dirs f /\
    (forall i, k <= i < T -> file_at (in_directory dir (frame_file prefix i) "png") f' = Some (pic i, "png")) /\
    (forall p, (forall i, k <= i < T -> p <> in_directory dir (frame_file prefix i) "png") -> file_at p f' = file_at p f).
Proof.
  intros NS B Dr. induction n as [|n IH]; intros k s f sh K D ND; cbn [seq frames_loop].
  - exists f. split; [reflexivity|]. split; [reflexivity|]. split; [lia|]. intros; reflexivity.
  - rewrite (bind_lift _ _ _ _ (Dr k ltac:(lia))).
    replace (prefix ++ "-" ++ padded 5 k ++ ".png")%string with (frame_file prefix k ++ "." ++ "png")%string
      by (unfold frame_file; rewrite padded_five, !app_str_assoc by lia; reflexivity).
    destruct (savefig_ok (pic k) dir (frame_file prefix k) "png" f (frame_simple prefix k NS) (or_introl eq_refl)
                (ND k ltac:(lia)) D) as (f1 & E1 & D1 & G1 & O1).
    rewrite (bind_run _ _ _ _ _ (on_files_run _ s f sh _ _ E1)).
    destruct (IH (S k) s f1 sh ltac:(lia)) as (f2 & E2 & D2 & G2 & O2).
    + rewrite (is_dir_dirs _ f1 f D1). exact D.
    + intros i I. rewrite (is_dir_dirs _ f1 f D1). apply ND. exact I.
    + exists f2. split; [exact E2|]. split; [congruence|]. split.
      * intros i I. destruct (Nat.eq_dec i k) as [->|N]; [|apply G2; lia].
        rewrite O2; [exact G1|]. intros j J X. unfold in_directory in X. apply app_inj_tail in X.
        destruct X as [_ X]. apply (png_inj prefix k j) in X; lia.
      * intros p P. rewrite O2; [|intros i I; apply P; lia]. apply O1. apply P. lia.
Qed.

Lemma shown_loop draw prefix max : (forall i, i < T -> draw i = Ok (pic i)) ->
  forall n k s f sh, k + n = T -> k <= max ->
  frames_loop draw None prefix max (seq k n) (mkVworld s f sh) =
    (mkVworld s f (sh ++ map pic (seq k (Nat.min n (S max - k)))), Ok tt).
Proof.
  intros Dr. induction n as [|n IH]; intros k s f sh K M; cbn [seq frames_loop].
  - rewrite app_nil_r. reflexivity.
  - rewrite (bind_lift _ _ _ _ (Dr k ltac:(lia))). unfold v_show, st_bind at 1. cbn [v_settings v_files v_shown].
    destruct (Nat.leb_spec max k).
    + replace (S max - k) with 1 by lia. rewrite Nat.min_r by lia. reflexivity.
    + rewrite IH by lia. replace (S max - k) with (S (S max - S k)) by lia. cbn [Nat.min seq map].
      rewrite <- app_assoc. reflexivity.
Qed.

(** ** The animation *)

Lemma remove_other p q s : p <> q -> file_at p (remove q s) = file_at p s.
Proof. intros N. unfold file_at, remove. cbn [f_files]. rewrite find_filter by exact N. reflexivity. Qed.

Lemma flat_map_some {A B} (g : A -> option (B * string)) (h : nat -> B) (name : nat -> A) l :
  (forall i, In i l -> exists x, g (name i) = Some (h i, x)) ->
  flat_map (fun n => match g n with Some c => [fst c] | None => [] end) (map name l) = map h l.
Proof.
  induction l as [|i l IH]; intros H; [reflexivity|]. cbn [map flat_map].
  destruct (H i (or_introl eq_refl)) as [x ->]. cbn [fst app]. f_equal. apply IH. intros j J. apply H. right. exact J.
Qed.

Lemma gif_name prefix : ~ In "/"%char (list_ascii_of_string prefix) ->
  parse_path ("animated-" ++ prefix ++ ".gif") = [("animated-" ++ prefix ++ ".gif")%string].
Proof.
  intros N. set (g := ("animated-" ++ prefix ++ ".gif")%string).
  assert (NG : ~ In "/"%char (list_ascii_of_string g)).
  { unfold g. rewrite !chars_app, !in_app_iff. intros [H|[H|H]]; [|exact (N H)|];
      cbn in H; repeat destruct H as [H|H]; try discriminate H; contradiction. }
  assert (Fg : fits g) by (split; [exact NG|split; discriminate]).
  unfold parse_path. rewrite (prefix_slash _ NG), (split_none _ _ NG). cbn [app]. apply filter_name. exact Fg.
Qed.

Lemma png_not_gif prefix i p : p ++ [(frame_file prefix i ++ ".png")%string] <> [("animated-" ++ prefix ++ ".gif")%string].
Proof.
  intros H. apply (f_equal (fun l => last l "")) in H. rewrite last_last in H. cbn [last] in H.
  change "animated-" with ("animated-" ++ "")%string in H. rewrite <- app_str_assoc in H.
  assert (X : substring (String.length (frame_file prefix i)) 4 (frame_file prefix i ++ ".png") = ".png")
    by (exact (substring_end _ ".png")).
  assert (Y : substring (String.length (("animated-" ++ "") ++ prefix)) 4 ((("animated-" ++ "") ++ prefix) ++ ".gif") = ".gif")
    by (exact (substring_end _ ".gif")).
  rewrite H in X. pose proof (f_equal String.length H) as L. rewrite !length_app in L. cbn in L.
  replace (String.length (frame_file prefix i)) with (String.length (("animated-" ++ "") ++ prefix)) in X
    by (rewrite !length_app; cbn; lia).
  rewrite Y in X. discriminate.
Qed.

Lemma gif_ok dir prefix s : ~ In "/"%char (list_ascii_of_string prefix) -> T <= 10 ^ 5 ->
  (forall i, i < T -> file_at (in_directory dir (frame_file prefix i) "png") s = Some (pic i, "png")) ->
  (forall x, file_at (in_directory dir (prefix ++ "-" ++ x) "png") s <> None -> exists i, i < T /\ five_digits i = x) ->
  is_dir [("animated-" ++ prefix ++ ".gif")%string] s = false ->
  exists s', create_animated_gif true (parse_path dir) prefix (parse_path ("animated-" ++ prefix ++ ".gif")) s = (s', Ok tt) /\
    f_dirs s' = f_dirs s /\
    file_at [("animated-" ++ prefix ++ ".gif")%string] s' = Some (Animation (map pic (seq 0 T)), "gif") /\
    (forall p, p <> [("animated-" ++ prefix ++ ".gif")%string] -> file_at p s' = file_at p s).
Proof.
  intros NS B G O ND. rewrite (gif_name prefix NS). set (g := [("animated-" ++ prefix ++ ".gif")%string]) in *.
  unfold create_animated_gif.
  assert (NG : forall i, in_directory dir (frame_file prefix i) "png" <> g) by (intros i; apply png_not_gif).
  assert (X : expand (parse_path dir) prefix (remove g s) = map (png prefix) (seq 0 T)).
  { apply increasing_unique; [apply expand_increasing|rewrite <- (Nat.sub_0_r T); apply pngs_increasing; exact B|].
    intros n. rewrite expand_in, in_map_iff. split.
    - intros [(x & ->) Fx]. destruct (list_eq_dec string_dec (parse_path dir ++ [(prefix ++ "-" ++ x ++ ".png")%string]) g) as [Eg|Ng].
      + exfalso. revert Fx. rewrite Eg. unfold file_at, remove. cbn [f_files].
        destruct (find (fun f => path_eqb g (fst f)) (filter (fun f => negb (path_eqb g (fst f))) (f_files s))) as [[p c]|] eqn:Fd; [|congruence].
        apply find_some in Fd. destruct Fd as [Fi Fe]. apply filter_In in Fi. destruct Fi as [_ Fi].
        rewrite Fe in Fi. discriminate.
      + rewrite remove_other in Fx by exact Ng. destruct (O x) as (i & I & <-).
        * unfold in_directory. rewrite !app_str_assoc. exact Fx.
        * exists i. split; [unfold png, frame_file; rewrite !app_str_assoc; reflexivity|apply in_seq; lia].
    - intros (i & <- & I). apply in_seq in I. split.
      + exists (five_digits i). unfold png, frame_file. rewrite !app_str_assoc. reflexivity.
      + change (parse_path dir ++ [png prefix i]) with (in_directory dir (frame_file prefix i) "png").
        rewrite remove_other by apply NG. rewrite G by lia. discriminate. }
  rewrite X.
  rewrite (flat_map_some (fun n => file_at (parse_path dir ++ [n]) (remove g s)) pic (png prefix) (seq 0 T)).
  2: { intros i I. apply in_seq in I. exists "png".
       change (parse_path dir ++ [png prefix i]) with (in_directory dir (frame_file prefix i) "png").
       rewrite remove_other by apply NG. apply G. lia. }
  pose proof (ev_one _ _ _ _ _ _ _ _ _ _ _ E) as T1.
  destruct (map pic (seq 0 T)) as [|p0 ps] eqn:Ps; [destruct T; [lia|discriminate Ps]|]. rewrite <- Ps.
  assert (ND' : is_dir g (remove g s) = false) by (rewrite <- ND; apply is_dir_dirs; reflexivity).
  destruct (write_ok g (Animation (map pic (seq 0 T)), "gif") (remove g s) ND') as (s' & W & D & Ga & Go).
  { unfold g. reflexivity. }
  rewrite W. cbn [fst]. exists s'. split; [reflexivity|]. split; [rewrite D; reflexivity|]. split; [exact Ga|].
  intros p P. rewrite Go by exact P. apply remove_other. exact P.
Qed.

(** ** Together *)

Lemma start_ok has_convert val_y max dir prefix w : comparable val_y nr ->
  exists Q1 P1 Q2 P2 D1, (forall i, i < T -> frame val_y t Q1 P1 Q2 P2 D1 i = Ok (pic i)) /\
  visualize_time_evolution has_convert val_y data block max dir prefix w =
  st_bind (match dir with
        | Some d => on_v_files (fun s => if path_exists d s then (s, Ok tt) else mkdir d s)
        | None => st_ret tt
        end) (fun _ => st_bind (frames_loop (frame val_y t Q1 P1 Q2 P2 D1) dir prefix max (seq 0 T)) (fun _ =>
        match dir with
        | Some d => on_v_files (create_animated_gif has_convert (parse_path d) prefix
                            (parse_path ("animated-" ++ prefix ++ ".gif")%string))
        | None => st_ret tt
        end)) w.
Proof.
  intros C. destruct (ev_lengths _ _ _ _ _ _ _ _ _ _ _ E) as [Lt L].
  apply Forall_cons_iff in L. destruct L as [L1 L]. apply Forall_cons_iff in L. destruct L as [L2 L].
  apply Forall_cons_iff in L. destruct L as [L3 L]. apply Forall_cons_iff in L. destruct L as [L4 L].
  apply Forall_cons_iff in L. destruct L as [L5 L]. apply Forall_cons_iff in L. destruct L as [L6 _].
  pose proof (ev_one _ _ _ _ _ _ _ _ _ _ _ E) as T1.
  destruct (ev_q1 _ _ _ _ _ _ _ _ _ _ _ E) as (n & m & f & N & M & F & Hq & Hp).
  destruct (ev_q2 _ _ _ _ _ _ _ _ _ _ _ E) as (n' & f' & N' & F' & Hq2 & Hp2).
  destruct (ev_d1 _ _ _ _ _ _ _ _ _ _ _ E) as (m'' & f'' & M'' & F'' & Hd).
  destruct (ev_d2 _ _ _ _ _ _ _ _ _ _ _ E) as (sd & Hd2).
  destruct (series_stack _ _ _ Hq L1) as (Q1 & A1 & S1). destruct (series_stack _ _ _ Hp L2) as (P1 & A2 & S2).
  destruct (series_stack _ _ _ Hq2 L3) as (Q2 & A3 & S3). destruct (series_stack _ _ _ Hp2 L4) as (P2 & A4 & S4).
  destruct (series_stack _ _ _ Hd L5) as (D1 & A5 & S5). destruct (series_stack _ _ _ Hd2 L6) as (D2 & A6 & S6).
  assert (U : forall k l s s' a, 1 <= List.length l -> series_is data k l s -> stack_of s l a -> series_is data k l s' -> stack_of s' l a).
  { intros k l s s' a Ll [_ H] St [_ H']. destruct l as [|v l]; [cbn in Ll; lia|].
    destruct (H v (or_introl eq_refl)) as [<- _]. destruct (H' v (or_introl eq_refl)) as [<- _]. exact St. }
  exists Q1, P1, Q2, P2, D1. split.
  - intros i I. apply frame_ok; [exact C| | | | | |exact I].
    + intros. apply (U _ q1 _ _ _ ltac:(lia) Hq S1). assumption.
    + intros. apply (U _ p1 _ _ _ ltac:(lia) Hp S2). assumption.
    + intros. apply (U _ q2 _ _ _ ltac:(lia) Hq2 S3). assumption.
    + intros. apply (U _ p2 _ _ _ ltac:(lia) Hp2 S4). assumption.
    + intros. apply (U _ d1 _ _ _ ltac:(lia) Hd S5). assumption.
  - unfold visualize_time_evolution. rewrite series_times, Lt.
    rewrite (bind_lift _ _ _ _ A1), (bind_lift _ _ _ _ A2), (bind_lift _ _ _ _ A3), (bind_lift _ _ _ _ A4),
      (bind_lift _ _ _ _ A5), (bind_lift _ _ _ _ A6). reflexivity.
Qed.

Lemma evolution_shown has_convert val_y max prefix w : comparable val_y nr ->
  visualize_time_evolution has_convert val_y data block max None prefix w =
    (mkVworld (v_settings w) (v_files w) (v_shown w ++ map pic (seq 0 (Nat.min T (S max)))), Ok tt).
Proof.
  intros C. destruct (start_ok has_convert val_y max None prefix w C) as (Q1 & P1 & Q2 & P2 & D1 & Dr & ->).
  destruct w as [s f sh]. rewrite (bind_run _ _ _ (mkVworld s f sh) tt eq_refl).
  rewrite (bind_run _ _ _ _ _ (shown_loop _ prefix max Dr T 0 s f sh eq_refl (Nat.le_0_l _))). reflexivity.
Qed.

Lemma evolution_saved val_y max dir prefix w : comparable val_y nr ->
  dir <> "" -> ~ In "/"%char (list_ascii_of_string prefix) -> T <= 10 ^ 5 ->
  usable dir (v_files w) -> no_frames dir prefix (v_files w) ->
  (forall i, i < T -> is_dir (in_directory dir (frame_file prefix i) "png") (v_files w) = false) ->
  is_dir [("animated-" ++ prefix ++ ".gif")%string] (v_files w) = false ->
  parse_path dir <> [("animated-" ++ prefix ++ ".gif")%string] ->
  exists w', visualize_time_evolution true val_y data block max (Some dir) prefix w = (w', Ok tt) /\
    v_settings w' = v_settings w /\ v_shown w' = v_shown w /\
    (forall i, i < T -> file_at (in_directory dir (frame_file prefix i) "png") (v_files w') = Some (pic i, "png")) /\
    file_at [("animated-" ++ prefix ++ ".gif")%string] (v_files w') = Some (Animation (map pic (seq 0 T)), "gif") /\
    (forall p, p <> [("animated-" ++ prefix ++ ".gif")%string] ->
       (forall i, i < T -> p <> in_directory dir (frame_file prefix i) "png") -> file_at p (v_files w') = file_at p (v_files w)).
Proof.
  intros C NE NS B U NF ND NG NDG.
  destruct (start_ok true val_y max (Some dir) prefix w C) as (Q1 & P1 & Q2 & P2 & D1 & Dr & ->).
  destruct w as [s f sh]. cbn [v_files v_settings v_shown] in *. apply String.eqb_neq in NE.
  assert (P : exists f1, (if path_exists dir f then (f, Ok tt) else mkdir dir f) = (f1, Ok tt) /\
                f_files f1 = f_files f /\ (forall p, is_dir p f1 = true <-> is_dir p f = true \/ p = parse_path dir)).
  { unfold path_exists. rewrite NE. cbn [negb andb].
    destruct U as [U|[U V]].
    - rewrite U. cbn [orb]. exists f. split; [reflexivity|]. split; [reflexivity|].
      intros p. split; [auto|]. intros [H| ->]; assumption.
    - destruct (is_dir (parse_path dir) f) eqn:Ed; cbn [orb].
      + exists f. split; [reflexivity|]. split; [reflexivity|].
        intros p. split; [auto|]. intros [H| ->]; assumption.
      + rewrite U. unfold mkdir, path_exists. rewrite NE, U, V, Ed. cbn [negb andb orb].
        eexists. split; [reflexivity|]. split; [reflexivity|]. intros p. apply is_dir_add. }
  destruct P as (f1 & E1 & F1 & Di).
  rewrite (bind_run _ _ _ _ _ (on_files_run (fun s => if path_exists dir s then (s, Ok tt) else mkdir dir s) s f sh f1 tt E1)).
  destruct (saved_loop _ dir prefix max NS B Dr T 0 s f1 sh eq_refl) as (f2 & E2 & D2 & G2 & O2).
  { apply Di. right. reflexivity. }
  { intros i I. destruct (is_dir (in_directory dir (frame_file prefix i) "png") f1) eqn:Ed; [|reflexivity].
    apply Di in Ed. destruct Ed as [Ed|Ed]; [rewrite (ND i I) in Ed; discriminate|].
    exfalso. unfold in_directory in Ed. apply (f_equal (@List.length _)) in Ed. rewrite app_length in Ed. cbn in Ed. lia. }
  rewrite (bind_run _ _ _ _ _ E2).
  assert (Fs : forall p, file_at p f1 = file_at p f) by (intros p; unfold file_at; rewrite F1; reflexivity).
  destruct (gif_ok dir prefix f2 NS B) as (f3 & E3 & D3 & G3 & O3).
  - intros i I. apply G2. lia.
  - intros x X. destruct (Exists_dec (fun i => five_digits i = x) (seq 0 T) (fun i => string_dec _ _)) as [Y|Y].
    + apply Exists_exists in Y. destruct Y as (i & I & Y). exists i. apply in_seq in I. split; [lia|exact Y].
    + exfalso. apply X. rewrite O2, Fs; [apply NF|]. intros i I Z. apply Y. apply Exists_exists. exists i.
      split; [apply in_seq; lia|].
      apply (FigureTemporalProofs.file_names dir prefix x (five_digits i) "png" "png") in Z; [|left; reflexivity|left; reflexivity].
      symmetry. apply Z.
  - rewrite (is_dir_dirs _ f2 f1 D2).
    destruct (is_dir [("animated-" ++ prefix ++ ".gif")%string] f1) eqn:Ed; [|reflexivity].
    apply Di in Ed. destruct Ed as [Ed|Ed]; [rewrite NG in Ed; discriminate|]. congruence.
  - rewrite (on_files_run _ s f2 sh f3 tt E3). eexists. split; [reflexivity|]. cbn [v_settings v_shown v_files].
    split; [reflexivity|]. split; [reflexivity|]. split; [|split; [exact G3|]].
    + intros i I. rewrite O3 by apply png_not_gif. apply G2. lia.
    + intros p P1' P2'. rewrite O3 by exact P1'. rewrite O2; [apply Fs|]. intros i I. apply P2'. lia.
Qed.
End Evolution.

Lemma nth_pics data block T t q1 p1 q2 p2 d1 d2 nr n : evolution data block T t q1 p1 q2 p2 d1 d2 nr -> n <= T ->
  forall i f, nth_error (map (pic t q1 p1 q2 p2 d1) (seq 0 n)) i = Some f ->
    i < n /\ f = pic t q1 p1 q2 p2 d1 i /\ is_frame t q1 p1 q2 p2 d1 i f.
Proof.
  intros E L i f H. rewrite nth_error_map in H. destruct (nth_error (seq 0 n) i) as [j|] eqn:J; [|discriminate].
  assert (I : i < n) by (rewrite <- (seq_length n 0); apply nth_error_Some; congruence).
  rewrite nth_error_seq in J by exact I. injection J as <-. injection H as <-. cbn [Nat.add].
  split; [exact I|]. split; [reflexivity|]. apply (pic_frame _ _ _ _ _ _ _ _ _ _ _ E). lia.
Qed.

Lemma shown_frames data block T t q1 p1 q2 p2 d1 d2 nr has_convert val_y max prefix w :
  evolution data block T t q1 p1 q2 p2 d1 d2 nr -> comparable val_y nr ->
  exists frames, List.length frames = Nat.min T (S max) /\
    (forall i f, nth_error frames i = Some f -> is_frame t q1 p1 q2 p2 d1 i f) /\
    visualize_time_evolution has_convert val_y data block max None prefix w =
      (mkVworld (v_settings w) (v_files w) (v_shown w ++ frames), Ok tt).
Proof.
  intros E C. exists (map (pic t q1 p1 q2 p2 d1) (seq 0 (Nat.min T (S max)))).
  split; [rewrite map_length, seq_length; reflexivity|]. split.
  - intros i f H. apply (nth_pics _ _ _ _ _ _ _ _ _ _ _ _ E (Nat.le_min_l _ _) i f H).
  - apply (evolution_shown _ _ _ _ _ _ _ _ _ _ _ E). exact C.
Qed.

Lemma saved_frames data block T t q1 p1 q2 p2 d1 d2 nr val_y max dir prefix w :
  evolution data block T t q1 p1 q2 p2 d1 d2 nr -> comparable val_y nr ->
  dir <> "" -> ~ In "/"%char (list_ascii_of_string prefix) -> T <= 10 ^ 5 ->
  usable dir (v_files w) -> no_frames dir prefix (v_files w) ->
  (forall i, i < T -> is_dir (in_directory dir (frame_file prefix i) "png") (v_files w) = false) ->
  is_dir [("animated-" ++ prefix ++ ".gif")%string] (v_files w) = false ->
  parse_path dir <> [("animated-" ++ prefix ++ ".gif")%string] ->
  exists w' frames, visualize_time_evolution true val_y data block max (Some dir) prefix w = (w', Ok tt) /\
    v_settings w' = v_settings w /\ v_shown w' = v_shown w /\
    List.length frames = T /\ (forall i f, nth_error frames i = Some f -> is_frame t q1 p1 q2 p2 d1 i f /\
      file_at (in_directory dir (frame_file prefix i) "png") (v_files w') = Some (f, "png")) /\
    file_at [("animated-" ++ prefix ++ ".gif")%string] (v_files w') = Some (Animation frames, "gif") /\
    (forall p, p <> [("animated-" ++ prefix ++ ".gif")%string] ->
       (forall i, i < T -> p <> in_directory dir (frame_file prefix i) "png") -> file_at p (v_files w') = file_at p (v_files w)).
Proof.
  intros E C NE NS B U NF ND NG NDG.
  destruct (evolution_saved _ _ _ _ _ _ _ _ _ _ _ E val_y max dir prefix w C NE NS B U NF ND NG NDG)
    as (w' & R & S1 & S2 & G & A & O).
  exists w', (map (pic t q1 p1 q2 p2 d1) (seq 0 T)). split; [exact R|]. split; [exact S1|]. split; [exact S2|].
  split; [rewrite map_length, seq_length; reflexivity|]. split; [|split; [exact A|exact O]].
  intros i f H. destruct (nth_pics _ _ _ _ _ _ _ _ _ _ _ _ E (le_n _) i f H) as (I & -> & F).
  split; [exact F|apply G; exact I].
Qed.

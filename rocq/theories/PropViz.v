(** C107 to C109: stacked arrays, frames and animations, and figures of training. *)
From Coq Require Import String Ascii List Arith Bool Lia Reals.
From Verif Require Import Base Tensor HooksModel FigureModel FigureSpec VizModel VizSpec VizStackProofs VizNameProofs
  VizEvolutionProofs VizBasicProofs VizExample.
Import ListNotations.
Open Scope string_scope.
Open Scope nat_scope.
Open Scope list_scope.

(** ** C107 *)

(** Arrays of different shapes are not always rejected: a smaller one is repeated. *)
Theorem C107_rejected_refuted : exists l a, (exists u v, In u l /\ In v l /\ tshape u <> tshape v) /\
  convert_list_of_np_arrays_into_np_array l = Ok a.
Proof.
  exists ex_rows, (mkT [2; 2] [1; 2; 3; 3]%R). split; [|exact ex_rows_stacked].
  exists (mkT [2] [1; 2]%R), (mkT [1] [3]%R). split; [left; reflexivity|]. split; [right; left; reflexivity|discriminate].
Qed.
Print Assumptions C107_rejected_refuted.

(** They are if an axis has neither the extent of the first array nor extent one. *)
Theorem C107_rejected_partial : forall v0 l v, In v l -> List.length (tshape v) = List.length (tshape v0) ->
  ~ Forall2 (fun m n => m = n \/ m = 1) (tshape v) (tshape v0) ->
  convert_list_of_np_arrays_into_np_array (v0 :: l) = Raise ValueError.
Proof. exact stack_rejects. Qed.
Print Assumptions C107_rejected_partial.

(** Arrays of one shape are stacked in order, unchanged. *)
Theorem C107_stacked : forall s l, l <> [] -> (forall v, In v l -> tshape v = s /\ twf v) ->
  exists a, convert_list_of_np_arrays_into_np_array l = Ok a /\ stack_of s l a.
Proof. exact stack_ok. Qed.
Print Assumptions C107_stacked.

(** Arrays of different shapes are stacked onto the shape of the first when all of them can be repeated to
    it, and every entry then is the one repeated. *)
Theorem C107_broadcast : forall v0 l, (forall v, In v (v0 :: l) -> twf v /\ repeatable (rev (tshape v)) (rev (tshape v0))) ->
  exists a, convert_list_of_np_arrays_into_np_array (v0 :: l) = Ok a
    /\ tshape a = S (List.length l) :: tshape v0 /\ twf a
    /\ forall i v idx, nth_error (v0 :: l) i = Some v -> valid_idx (tshape v0) idx ->
         exists j, repeats (rev (tshape v)) (rev (tshape v0)) (rev idx) (rev j) /\ tget a (i :: idx) = tget v j /\ tget v j <> None.
Proof. exact stack_mixed. Qed.
Print Assumptions C107_broadcast.

(** They are rejected when one of them cannot be repeated. *)
Theorem C107_fits : forall v0 l v, In v l -> ~ repeatable (rev (tshape v)) (rev (tshape v0)) ->
  convert_list_of_np_arrays_into_np_array (v0 :: l) = Raise ValueError.
Proof. exact stack_mixed_rejects. Qed.
Print Assumptions C107_fits.

Example C107_broadcast_case : (forall v, In v ex_mixed -> twf v /\ repeatable (rev (tshape v)) (rev [2])) /\
  convert_list_of_np_arrays_into_np_array ex_mixed = Ok (mkT [3; 2] [1; 2; 3; 3; 4; 5]%R) /\
  ~ repeatable (rev [3]) (rev [2]).
Proof. exact ex_mixed_case. Qed.

(** Nothing cannot be stacked. *)
Theorem C107_empty : convert_list_of_np_arrays_into_np_array [] = Raise IndexError.
Proof. exact stack_empty. Qed.
Print Assumptions C107_empty.

Example C107_case : (forall v, In v ex_q1 -> tshape v = [2; 1; 2] /\ twf v) /\
  convert_list_of_np_arrays_into_np_array ex_q1 = Ok (mkT [2; 2; 1; 2] [0; 0; 0; 0; 1; 1; 1; 1]%R) /\
  convert_list_of_np_arrays_into_np_array [mkT [2] [1; 2]%R; mkT [3] [1; 2; 3]%R] = Raise ValueError.
Proof.
  split; [|split; reflexivity]. intros v V. repeat destruct V as [<-|V]; try contradiction; split; reflexivity.
Qed.

(** ** C108 *)

(** The animation does not only show what was recorded: frames of an earlier run with
    more evaluations are still in the directory. *)
Theorem C108_only_recorded_refuted : exists data t q1 p1 q2 p2 d1 d2 dir prefix w w' frames f,
  evolution data "simple" 2 t q1 p1 q2 p2 d1 d2 2 /\
  visualize_time_evolution true None data "simple" 10 (Some dir) prefix w = (w', Ok tt) /\
  file_at [("animated-" ++ prefix ++ ".gif")%string] (v_files w') = Some (Animation frames, "gif") /\
  In f frames /\ forall i, ~ is_frame t q1 p1 q2 p2 d1 i f.
Proof.
  destruct ex_stale_shown as (w' & p0 & p1 & E & A).
  exists ex_evolution, ex_times, ex_q1, ex_q1, ex_q2, ex_q2, ex_q1, ex_q2, "result", "evolution", ex_used, w',
    [p0; p1; ex_stale], ex_stale.
  split; [exact ex_is_evolution|]. split; [exact E|]. split; [exact A|]. split; [right; right; left; reflexivity|].
  intros i (ti & a & b & c & d & F & _). discriminate F.
Qed.
Print Assumptions C108_only_recorded_refuted.

(** On screen one figure more than asked for is shown. *)
Theorem C108_limit_refuted : exists data t q1 p1 q2 p2 d1 d2 max w w',
  evolution data "simple" 2 t q1 p1 q2 p2 d1 d2 2 /\ v_shown w = [] /\
  visualize_time_evolution true None data "simple" max None "evolution" w = (w', Ok tt) /\
  max < List.length (v_shown w').
Proof.
  exists ex_evolution, ex_times, ex_q1, ex_q1, ex_q2, ex_q2, ex_q1, ex_q2, 0, ex_vworld.
  eexists. split; [exact ex_is_evolution|]. split; [reflexivity|].
  split; [apply (evolution_shown _ _ _ _ _ _ _ _ _ _ _ ex_is_evolution true None 0 "evolution" ex_vworld I)|].
  cbn. lia.
Qed.
Print Assumptions C108_limit_refuted.

(** On screen: the frames of the first evaluations, in order; nothing else happens. *)
Theorem C108_shown_partial : forall data block T t q1 p1 q2 p2 d1 d2 nr has_convert val_y max prefix w,
  evolution data block T t q1 p1 q2 p2 d1 d2 nr -> comparable val_y nr ->
  exists frames, List.length frames = Nat.min T (S max) /\
    (forall i f, nth_error frames i = Some f -> is_frame t q1 p1 q2 p2 d1 i f) /\
    visualize_time_evolution has_convert val_y data block max None prefix w =
      (mkVworld (v_settings w) (v_files w) (v_shown w ++ frames), Ok tt).
Proof. exact shown_frames. Qed.
Print Assumptions C108_shown_partial.

(** In a directory without other frames, for at most a hundred thousand evaluations: a
    file for each evaluation, and the animation shows all of them in order of time;
    other files and the settings are left alone. *)
Theorem C108_saved_partial : forall data block T t q1 p1 q2 p2 d1 d2 nr val_y max dir prefix w,
  evolution data block T t q1 p1 q2 p2 d1 d2 nr -> comparable val_y nr ->
  dir <> "" -> ~ In "/"%char (list_ascii_of_string prefix) -> T <= 10 ^ 5 ->
  usable dir (v_files w) -> no_frames dir prefix (v_files w) ->
  (forall i, i < T -> is_dir (in_directory dir (frame_file prefix i) "png") (v_files w) = false) ->
  is_dir [("animated-" ++ prefix ++ ".gif")%string] (v_files w) = false ->
  parse_path dir <> [("animated-" ++ prefix ++ ".gif")%string] ->
  exists w' frames, visualize_time_evolution true val_y data block max (Some dir) prefix w = (w', Ok tt) /\
    v_settings w' = v_settings w /\ v_shown w' = v_shown w /\
    List.length frames = T /\ (forall i f, nth_error frames i = Some f -> is_frame t q1 p1 q2 p2 d1 i f /\
      file_at (in_directory dir (frame_file prefix i) "png") (v_files w') = Some (f, "png")) /\
    file_at [("animated-" ++ prefix ++ ".gif")%string] (v_files w') = Some (Animation frames, "gif") /\
    (forall p, p <> [("animated-" ++ prefix ++ ".gif")%string] ->
       (forall i, i < T -> p <> in_directory dir (frame_file prefix i) "png") -> file_at p (v_files w') = file_at p (v_files w)).
Proof. exact saved_frames. Qed.
Print Assumptions C108_saved_partial.

(** Names of later frames sort behind those of earlier ones. *)
Theorem C108_order : forall prefix i j, j < 10 ^ 5 -> i < j ->
  str_lt (frame_file prefix i ++ ".png") (frame_file prefix j ++ ".png").
Proof. exact png_lt. Qed.
Print Assumptions C108_order.

(** With more evaluations they do not, and the animation is out of order. *)
Theorem C108_order_refuted : exists prefix i j, i < j /\
  str_lt (prefix ++ "-" ++ padded 5 j ++ ".png") (prefix ++ "-" ++ padded 5 i ++ ".png").
Proof. exists "evolution", (10 ^ 5 - 1), (10 ^ 5). split; [apply Nat.sub_lt; [apply Nat.le_succ_l, Nat.neq_0_lt_0, Nat.pow_nonzero; discriminate|apply Nat.lt_0_1]|exact ex_order]. Qed.
Print Assumptions C108_order_refuted.

Example C108_case : evolution ex_evolution "simple" 2 ex_times ex_q1 ex_q1 ex_q2 ex_q2 ex_q1 ex_q2 2 /\
  comparable (Some [11; 2; 1; 2]) 2 /\ usable "result" (v_files ex_vworld) /\ no_frames "result" "evolution" (v_files ex_vworld) /\
  frame_file "evolution" 12 = "evolution-00012".
Proof.
  split; [exact ex_is_evolution|]. split; [exists 11, 2, 1, 2; repeat split; lia|].
  split; [right; split; reflexivity|]. split; [intros x; reflexivity|reflexivity].
Qed.

(** ** C109 *)

(** A model with one state only, which the demo offers, cannot be visualised: the call
    raises, and if it was to save a figure, the settings are left changed. *)
Theorem C109_every_model_refuted : exists a w w', drawable a /\
  (exists n f, sd_get "q1" (ba_state_dict a) = Some [n; 1; f] /\ sd_get "p_q1" (ba_state_dict a) = Some [n; 1; f]) /\
  basic_visualize a None w = (w, Raise KeyError) /\
  basic_visualize a (Some (mkViz false true ("figures", "spiral"))) w = (w', Raise KeyError) /\
  ~ same_settings (v_settings w) (v_settings w').
Proof.
  destruct ex_simple_fails as (s & B & E1 & E2). exists ex_simple, ex_vworld, (mkVworld s (v_files ex_vworld) []).
  split; [exact ex_drawable_simple|]. split; [exists 15, 2; split; reflexivity|]. split; [exact E1|]. split; [exact E2|].
  intros [H _]. cbn [v_settings] in H. rewrite B in H. discriminate H.
Qed.
Print Assumptions C109_every_model_refuted.

(** Models with two states, and any model without its particles, are shown. *)
Theorem C109_shown_partial : forall a args w, drawable a ->
  (ba_uses_particles a = true -> second_order (ba_state_dict a)) ->
  basic_visualize_ a args true false w =
    (mkVworld (v_settings w) (v_files w)
       (v_shown w ++ [Basic (match ba_itr a with Some i => i | None => 0 end) (ba_uses_particles a)]), Ok tt).
Proof. exact drawable_shown. Qed.
Print Assumptions C109_shown_partial.

(** They are saved in three formats under a name with the iteration. *)
Theorem C109_saved_partial : forall a dir base itr w, drawable a ->
  (ba_uses_particles a = true -> second_order (ba_state_dict a)) -> ba_itr a = Some itr -> itr < 10 ^ 4 ->
  dir <> "" -> ~ In "/"%char (list_ascii_of_string base) -> usable dir (v_files w) ->
  (forall f, In f ["png"; "pdf"; "pgf"] -> is_dir (in_directory dir (iteration_file base itr) f) (v_files w) = false) ->
  (forall k, In k pgf_keys -> exists v, sd_get k (s_rc (v_settings w)) = Some v) ->
  exists w', basic_visualize_ a (Some (dir, base)) false true w = (w', Ok tt) /\
    same_settings (v_settings w) (v_settings w') /\ v_shown w' = v_shown w /\
    saved (Basic itr (ba_uses_particles a)) dir (iteration_file base itr) (v_files w) (v_files w').
Proof. exact drawable_saved. Qed.
Print Assumptions C109_saved_partial.

(** What is done follows the options: without options the figure is shown. *)
Theorem C109_options : forall a w,
  basic_visualize a None w = basic_visualize_ a None true false w /\
  (forall o, basic_visualize a (Some (mkViz false false o)) w = (w, Ok tt)) /\
  (forall o, basic_visualize a (Some (mkViz true false o)) w = basic_visualize_ a (Some o) true false w) /\
  (forall o, basic_visualize a (Some (mkViz false true o)) w = basic_visualize_ a (Some o) false true w).
Proof. exact basic_options. Qed.
Print Assumptions C109_options.

(** When the call returns the settings are as before. *)
Theorem C109_settings : forall a args w w', basic_visualize a args w = (w', Ok tt) ->
  same_settings (v_settings w) (v_settings w').
Proof. exact basic_restores. Qed.
Print Assumptions C109_settings.

Example C109_case : drawable ex_updown /\ second_order (ba_state_dict ex_updown) /\ ba_uses_particles ex_updown = true /\
  usable "figures" (v_files ex_vworld) /\ iteration_file "spiral" 20 = "basic-viz-spiral-iter-0020" /\
  exists w', basic_visualize ex_updown (Some (mkViz true true ("figures", "spiral"))) ex_vworld = (w', Ok tt) /\
    v_shown w' = [Basic 20 true].
Proof.
  split; [exact ex_drawable_updown|]. split; [exact ex_second_order|]. split; [reflexivity|].
  split; [right; split; reflexivity|]. split; [reflexivity|]. eexists. split; vm_compute; reflexivity.
Qed.

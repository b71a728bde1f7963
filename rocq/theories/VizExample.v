(** Data for the examples and witnesses about visualisations. *)
From Coq Require Import String Ascii List Arith Bool Lia Reals.
From Verif Require Import Base Tensor EnergyModel HooksModel FigureModel FigureSpec FigureExample VizModel VizSpec
  VizStackProofs VizNameProofs VizEvolutionProofs VizBasicProofs.
Import ListNotations.
Open Scope string_scope.
Open Scope nat_scope.
Open Scope list_scope.

(** Two particles of a second-order model with three numbers in the second state. *)
Definition ex_t2 (x : R) : tensor R := mkT [2; 1; 3] [x; x; 0; x; 0; x]%R.
Definition ex_viz_call (t : R) : hook_args :=
  mkArgs t [("simple", [("q1", ex_tensor t); ("q2", ex_t2 t)])] [("simple", [("p_q1", ex_tensor t); ("p_q2", ex_t2 t)])]
    [("simple", [("q1", ex_tensor t); ("q2", ex_t2 t)])]
    [("simple", [("q1", ex_tensor t); ("q2", ex_t2 t)])] [("simple", [("p_q1", ex_tensor t); ("p_q2", ex_t2 t)])]
    [("simple", [("q1", ex_tensor t); ("q2", ex_t2 t)])] [].

Definition ex_evolution : record := Eval vm_compute in
  match snd (run_hook ex_norm ex_norm [ex_viz_call 0; ex_viz_call 1] (HRecord [])) with HRecord d => d | HOther => [] end.

Lemma ex_evolution_is : run_hook ex_norm ex_norm [ex_viz_call 0; ex_viz_call 1] (HRecord []) = (Ok tt, HRecord ex_evolution).
Proof. vm_compute. reflexivity. Qed.

Definition ex_q1 : list (tensor R) := [ex_tensor 0; ex_tensor 1].
Definition ex_q2 : list (tensor R) := [ex_t2 0; ex_t2 1].
Definition ex_times : list val := [VNum 0; VNum 1].

Lemma ex_is_evolution : evolution ex_evolution "simple" 2 ex_times ex_q1 ex_q1 ex_q2 ex_q2 ex_q1 ex_q2 2.
Proof.
  assert (W1 : forall v, In v ex_q1 -> tshape v = [2; 1; 2] /\ twf v)
    by (intros v V; repeat destruct V as [<-|V]; try contradiction; split; reflexivity).
  assert (W2 : forall v, In v ex_q2 -> tshape v = [2; 1; 3] /\ twf v)
    by (intros v V; repeat destruct V as [<-|V]; try contradiction; split; reflexivity).
  constructor.
  - reflexivity.
  - split; [reflexivity|repeat constructor].
  - lia.
  - exists 2, 1, 2. repeat (split; [lia|]). split; (split; [reflexivity|exact W1]).
  - exists 2, 3. repeat (split; [lia|]). split; (split; [reflexivity|exact W2]).
  - exists 1, 2. repeat (split; [lia|]). split; [reflexivity|exact W1].
  - exists [2; 1; 3]. split; [reflexivity|exact W2].
Qed.

(** The working directory, with a frame left from an earlier and longer run. *)
Definition ex_stale : picture := Basic 0 false.
Definition ex_used : vworld :=
  mkVworld ex_settings (mkFiles [["result"]] [(["result"; "evolution-00002.png"], (ex_stale, "png"))]) [].
Definition ex_vworld : vworld := mkVworld ex_settings (mkFiles [] []) [].

Lemma ex_stale_shown : exists w' p0 p1,
  visualize_time_evolution true None ex_evolution "simple" 10 (Some "result") "evolution" ex_used = (w', Ok tt) /\
  file_at ["animated-evolution.gif"] (v_files w') = Some (Animation [p0; p1; ex_stale], "gif").
Proof. eexists _, _, _. split; [vm_compute; reflexivity|vm_compute; reflexivity]. Qed.

(** A first-order model: no second state. *)
Definition ex_simple : basic_args :=
  mkBasic [("p_q1", [15; 1; 2]); ("q1", [15; 1; 2])] (Some [11; 4; 1; 2]) (Some [11; 4; 1; 2])
    (Some [10; 100; 1; 2]) (Some [10; 100; 1; 2]) (Some 20) true
    (Some ["model_name"; "loss"; "sim_loss"; "norm_loss"; "par_norm"]) (Some ["overall"; "fixed"; "optimized"]).
Definition ex_updown : basic_args :=
  mkBasic [("p_q1", [15; 1; 2]); ("p_q2", [15; 1; 10]); ("q1", [15; 1; 2]); ("q2", [15; 1; 10])] (Some [11; 4; 1; 2]) (Some [11; 4; 1; 2])
    (Some [10; 100; 1; 2]) (Some [10; 100; 1; 2]) (Some 20) true
    (Some ["model_name"; "loss"; "sim_loss"; "norm_loss"; "par_norm"]) (Some ["overall"; "fixed"; "optimized"]).

Lemma ex_drawable_simple : drawable ex_simple.
Proof.
  constructor.
  - exists 4, 11, 11, 1, 2, 1, 2. repeat (split; [lia|]). split; reflexivity.
  - right. exists 100, 10, 10, 1, 2, 1, 2. repeat (split; [lia|]). split; reflexivity.
  - intros l [= <-] k K. exact K.
  - intros l [= <-] k K. exact K.
Qed.

Lemma ex_drawable_updown : drawable ex_updown.
Proof.
  constructor.
  - exists 4, 11, 11, 1, 2, 1, 2. repeat (split; [lia|]). split; reflexivity.
  - right. exists 100, 10, 10, 1, 2, 1, 2. repeat (split; [lia|]). split; reflexivity.
  - intros l [= <-] k K. exact K.
  - intros l [= <-] k K. exact K.
Qed.

Lemma ex_second_order : second_order (ba_state_dict ex_updown).
Proof. exists 15, 2, 10. repeat (split; [lia|]). repeat split. Qed.

Lemma ex_simple_fails : exists s, s_backend s = "pgf" /\
  basic_visualize ex_simple None ex_vworld = (ex_vworld, Raise KeyError) /\
  basic_visualize ex_simple (Some (mkViz false true ("figures", "spiral"))) ex_vworld =
    (mkVworld s (v_files ex_vworld) [], Raise KeyError).
Proof. eexists. split; [|split]; [|reflexivity|vm_compute; reflexivity]. reflexivity. Qed.

(** Different shapes. *)
Definition ex_rows : list (tensor R) := [mkT [2] [1; 2]%R; mkT [1] [3]%R].
Lemma ex_rows_stacked : convert_list_of_np_arrays_into_np_array ex_rows = Ok (mkT [2; 2] [1; 2; 3; 3]%R).
Proof. reflexivity. Qed.

(** Repeated columns and a leading axis of extent one. *)
Definition ex_mixed : list (tensor R) := [mkT [2] [1; 2]%R; mkT [1] [3]%R; mkT [1; 2] [4; 5]%R].
Lemma ex_mixed_case : (forall v, In v ex_mixed -> twf v /\ repeatable (rev (tshape v)) (rev [2])) /\
  convert_list_of_np_arrays_into_np_array ex_mixed = Ok (mkT [3; 2] [1; 2; 3; 3; 4; 5]%R) /\
  ~ repeatable (rev [3]) (rev [2]).
Proof.
  split; [|split; [reflexivity|]].
  - intros v V. destruct V as [<-|[<-|[<-|[]]]]; (split; [reflexivity|]); cbn; repeat constructor.
  - cbn. intros H. inversion H.
Qed.

(** The frame after the first hundred thousand. *)
Lemma ex_order : str_lt ("evolution" ++ "-" ++ padded 5 (10 ^ 5) ++ ".png") ("evolution" ++ "-" ++ padded 5 (10 ^ 5 - 1) ++ ".png").
Proof. unfold str_lt. vm_compute. reflexivity. Qed.

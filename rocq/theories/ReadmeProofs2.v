(** The training commands shown in the README. *)
From Coq Require Import List String Ascii ZArith QArith Qcanon Reals Bool Lia.
From Verif Require Import Base Tensor ShellSpec ReadmeSpec ReadmeModel ReadmeProofs ArgparseModel ExperimentModel VecModel VecFlow
  CirclesModel CirclesSpec CirclesProofs3 AutoencoderModel AutoencoderSpec ImagesModel ImagesSpec ImagesProofs3 ImagesProofs4.
Import ListNotations.
Open Scope string_scope.
Open Scope list_scope.
Open Scope nat_scope.

Lemma working_commands : forall c, In c [spiral; circles; rotation; bouncing] ->
  exists args ns, pasted (sc_text c) = Some ["python" :: sc_script c :: args] /\ shown (sc_text c) = "python" :: sc_script c :: args /\
    parse_args (sc_parser c) args = Some ns.
Proof.
  intros c [<-|[<-|[<-|[<-|[]]]]]; eexists _, _; (split; [vm_compute; reflexivity|]); (split; [vm_compute; reflexivity|]); vm_compute; reflexivity.
Qed.

Ltac the_usual P := vm_compute in P; injection P as <-; unfold usual, option_is; repeat split; try reflexivity; try discriminate;
  [intros q [= <-] H; discriminate H|intros z [= <-]; left; reflexivity].

Lemma circles_run : forall args, pasted cc_text = Some ["python" :: "cc.py" :: args] ->
  forall nonlinearity all writable unusual, (forall k, solver (e_prog (all k))) ->
  writable "model_20.pt" = true -> writable "model_20.pkl" = true -> writable "model_20_results_.pkl" = true ->
  exists tr, cc nonlinearity all writable unusual args =
      Some (Ok tt, [("model_20.pt", CModel); ("model_20.pkl", CTracker tr); ("model_20_results_.pkl", CResults 20)]) /\
    List.length tr = 20 /\
    forall i r, nth_error tr i = Some r -> recording 20 40 (evaluation_times (e_prog (all (S i * 49)))) r.
Proof.
  intros args H. vm_compute in H. injection H as <-. intros nonlinearity all writable unusual SO W1 W2 W3.
  match goal with |- context [cc _ _ _ _ ?a] => destruct (parse_args cc_parser a) as [ns|] eqn:E; [|vm_compute in E; discriminate E];
    destruct (runs nonlinearity all writable unusual SO a ns 2 20 20 128 20 "updown_universal" "model_20" E) as (tr & R & L & G) end.
  - the_usual E.
  - vm_compute in E; injection E as <-; reflexivity.
  - vm_compute in E; injection E as <-; reflexivity.
  - vm_compute in E; injection E as <-; reflexivity.
  - vm_compute in E; injection E as <-; reflexivity.
  - exact W1.
  - exact W2.
  - exact W3.
  - reflexivity.
  - reflexivity.
  - right. split; discriminate.
  - exists tr. split; [exact R|]. split; [exact L|exact G].
Qed.

Lemma rotation_run : forall args, pasted rot_text = Some ["python" :: "rot.py" :: args] ->
  forall value blocks shuffle order unusual X M p, (forall ns k m, 1 <= m -> block_gives (blocks ns k) 20 16 m) ->
  (forall k, shuffles (shuffle k)) -> orders 500 order -> twf X -> tshape X = [M; 16; 784] -> 500 < M -> no_single (M - 500) ->
  exists ns tr images, rot value blocks shuffle order unusual X (Some p) args =
    Some (Ok [((p ++ "/model.pt")%string, RModel); ((p ++ "/tracker.pkl")%string, RTracker tr);
              ((p ++ "/args.pkl")%string, RArgs ns); ((p ++ "/images.pkl")%string, RImages images)]) /\
    List.length tr = 500 /\ forall i t, nth_error tr i = Some t -> good_entry (M - 500) i t.
Proof.
  intros args H. vm_compute in H. injection H as <-. intros value blocks shuffle order unusual X M p B S O W T L N.
  match goal with |- context [rot _ _ _ _ _ _ _ ?a] => destruct (parse_args rot_parser a) as [ns|] eqn:E; [|vm_compute in E; discriminate E];
    destruct (rot_runs value blocks shuffle order unusual X M (Some p) a ns 20 100 10 500 4 3 true E) with (p := p) as (tr & im & R & G1 & G2) end.
  - the_usual E.
  - vm_compute in E; injection E as <-; reflexivity.
  - vm_compute in E; injection E as <-; reflexivity.
  - vm_compute in E; injection E as <-; reflexivity.
  - vm_compute in E; injection E as <-; reflexivity.
  - apply B.
  - exact S.
  - exact O.
  - exact W.
  - exact T.
  - exact L.
  - lia.
  - exact N.
  - lia.
  - reflexivity.
  - reflexivity.
  - exists ns, tr, im. split; [exact R|]. split; [exact G1|exact G2].
Qed.

Lemma bouncing_run : forall args, pasted balls_text = Some ["python" :: "balls.py" :: args] ->
  forall value blocks order unusual train test val M1 M2 M3 T1 T2 T3 exists_,
  (forall ns k m, 1 <= m -> block_gives (blocks ns k) 40 20 m) -> orders M1 order ->
  images train M1 T1 -> images test M2 T2 -> images val M3 T3 -> 20 <= T1 -> 20 <= T2 -> 20 <= T3 ->
  0 < M1 -> 0 < M2 -> 0 < M3 -> no_single M1 -> no_single M2 -> no_single M3 ->
  (exists_ "balls_experiment" = false -> exists file, balls value blocks order unusual train test val exists_ args = Some (Ok tt, Some file)) /\
  (exists_ "balls_experiment" = true -> balls value blocks order unusual train test val exists_ args = Some (Raise OSError, None)).
Proof.
  intros args H. vm_compute in H. injection H as <-.
  intros value blocks order unusual train test val M1 M2 M3 T1 T2 T3 exists_ B O I1 I2 I3 L1 L2 L3 P1 P2 P3 N1 N2 N3.
  match goal with |- context [balls _ _ _ _ _ _ _ _ ?a] => set (args := a) end.
  destruct (parse_args balls_parser args) as [ns|] eqn:E; [|vm_compute in E; discriminate E].
  assert (U : usual ns 40 100 20) by the_usual E.
  assert (Q : option_is ns "niters" (AInt 100) /\ option_is ns "evaluate_ahead" (AInt 10) /\ option_is ns "save_to" (AText "balls_experiment"))
    by (vm_compute in E; injection E as <-; repeat split).
  destruct Q as (Q1 & Q2 & Q3). split.
  - intros EX.
    destruct (proj2 (balls_exactly value blocks order unusual train test val M1 M2 M3 T1 T2 T3 exists_ args ns 40 100 20 100 10 "balls_experiment"
      E U Q1 Q2 Q3 (B ns) O I1 I2 I3 L1 L2 L3 ltac:(lia))) as (file & H).
    { repeat (split; [assumption|]). split; [lia|]. repeat (split; [assumption|]). assumption. }
    assert (S := balls_saves value blocks order unusual train test val M1 M2 M3 T1 T2 T3 exists_ args ns 40 100 20 100 10 "balls_experiment"
      E U Q1 Q2 Q3 (B ns) O I1 I2 I3 L1 L2 L3 ltac:(lia) file H).
    destruct file as [file|]; [exists file; exact H|]. discriminate (proj1 S eq_refl).
  - intros EX. exact (balls_existing _ _ _ _ _ _ _ _ _ ns 40 100 20 100 10 "balls_experiment" E U Q1 Q2 Q3 EX).
Qed.

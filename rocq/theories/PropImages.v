(** Properties C129, C131 and C132: the demos with images, rot.py and balls.py. *)
From Coq Require Import List String ZArith QArith Qcanon Lia Arith.
From Verif Require Import Base Tensor SchedulerModel LoopModel ArgparseModel AutoencoderModel AutoencoderSpec CirclesSpec
  ImagesModel ImagesSpec ImagesProofs ImagesProofs2 ImagesProofs3 ImagesProofs4 ImagesProofs5 ImagesExamples.
Import ListNotations.
Open Scope string_scope.
Open Scope list_scope.
Open Scope nat_scope.

(** C129 asks that [--evaluate_ahead k] gives the errors of the [k] images after the three given ones, or is refused.
    False: there are never more than 17, and none at all for 0. *)
Theorem C129_ahead_refuted : exists value blk inp, block_gives (blk 0) 2 20 2 /\ images inp 2 20 /\
  (exists rows, balls_errors value blk 2 25 0 inp = Ok rows /\ List.length rows = 2 /\ Forall (fun row => List.length row = 17) rows) /\
  balls_errors value blk 2 0 0 inp = Ok [[]; []].
Proof.
  exists (fun _ _ _ _ => 0%Qc), (zeros 2 20), (tfill 0%Qc [2; 20; 28; 28]).
  assert (B := zeros_gives 2 20 0 2 ltac:(lia)). assert (I := fill_images 2 20).
  split; [exact B|]. split; [exact I|]. split.
  - destruct (balls_errors_ok (fun _ _ _ _ => 0%Qc) (zeros 2 20) 2 0 2 20 _ I (le_n _) (le_n _) (le_n _) B 25) as (x & out & r & _ & _ & _ & _ & E).
    eexists. split; [exact E|]. split; [reflexivity|]. apply Forall_forall. intros row H. apply in_map_iff in H as (n & <- & _). apply map_length.
  - destruct (balls_errors_ok (fun _ _ _ _ => 0%Qc) (zeros 2 20) 2 0 2 20 _ I (le_n _) (le_n _) (le_n _) B 0) as (x & out & r & _ & _ & _ & _ & E).
    exact E.
Qed.
Print Assumptions C129_ahead_refuted.

(** The errors for every value, which is never refused: the mean squared differences to the decoded images, for the
    samples and the compared images: [k] of them for 1 to 17, 17 for more, none for 0 to -3 and below -19, and
    [20 + k] for other negative values.  The images are decoded from the first three only.
    Missing from the full statement: other values than 1 to 17. *)
Theorem C129_errors_partial : forall value blk d k N T inp, images inp N T -> 20 <= T -> 2 <= N -> 2 <= d -> block_gives (blk k) d 20 N ->
  forall ahead, exists x out r, tshape x = [N; 3; 28; 28] /\
    (forall n t i j, n < N -> t < 3 -> i < 28 -> j < 28 -> pixel x n t i j = pixel inp n t i j) /\
    forward (value k) (blk k) 16 d 20 x = Ok (out, r) /\ tshape r = [N; 20; 1; 28; 28] /\
    balls_errors value blk d ahead k inp =
      Ok (map (fun n => map (fun t => Fin (frame_error r inp n t)) (compared ahead)) (seq 0 N)).
Proof. exact balls_errors_ok. Qed.
Print Assumptions C129_errors_partial.

Example C129_errors_case :
  images (tfill 0%Qc [3; 40; 28; 28]) 3 40 /\ block_gives (zeros 5 20 7) 5 20 3 /\
  compared 4 = [3; 4; 5; 6] /\ compared 17 = seq 3 17 /\ compared 25 = seq 3 17 /\ compared 0 = [] /\ compared (-3) = [] /\
  compared (-17) = [3; 4; 5] /\ compared (-20) = [] /\
  frame_error (tfill (Q2Qc 3) [1; 1; 28; 28]) (tfill (Q2Qc 1) [1; 1; 1; 28; 28]) 0 0 = Q2Qc 4.
Proof.
  split; [apply fill_images|]. split; [apply zeros_gives; lia|]. repeat (split; [reflexivity|]). apply Qc_is_canon. vm_compute. reflexivity.
Qed.

(** C131 asks that every accepted command line of rot.py, with positive sizes, trains and saves.  False: for instance
    with [--n_skip 15] or one latent dimension the first training pass raises. *)
Theorem C131_accepted_refuted : exists value blocks shuffle order unusual X words ns, parse_args rot_parser words = Some ns /\ usual ns 20 25 5 /\
  (forall k m, 1 <= m -> block_gives (blocks ns k) 20 16 m) /\ (forall k, shuffles (shuffle k)) /\ orders 500 order /\
  twf X /\ tshape X = [600; 16; 784] /\
  forall directory, directory <> None -> ~ exists files, rot value blocks shuffle order unusual X directory words = Some (Ok files).
Proof.
  destruct (parse_args rot_parser ["--n_skip"; "15"]) as [ns|] eqn:E; [|vm_compute in E; discriminate E].
  exists (fun _ _ _ _ => 0%Qc), (fun _ => zeros 20 16), (fun _ _ l => l), (fun _ => seq 0 500), (Ok []), (tfill 0%Qc [600; 16; 784]), ["--n_skip"; "15"], ns.
  assert (U : usual ns 20 25 5).
  { vm_compute in E. injection E as <-. unfold usual, option_is. repeat split; try reflexivity; try discriminate.
    - intros q [= <-] H. discriminate H.
    - intros z [= <-]. left. reflexivity. }
  assert (O : option_is ns "niters" (AInt 500) /\ option_is ns "n_skip" (AInt 15) /\ option_is ns "i_eval" (AInt 4) /\ option_is ns "save" (AFlag false))
    by (vm_compute in E; injection E as <-; repeat split).
  destruct O as (O1 & O2 & O3 & O4).
  split; [exact E|]. split; [exact U|]. split; [apply zeros_gives|]. split; [apply no_shuffle|]. split; [apply same_order|].
  split; [apply fill_wf|]. split; [reflexivity|]. intros directory DN H.
  apply (proj1 (rot_exactly _ (fun _ => zeros 20 16) _ _ _ _ 600 directory _ ns 20 25 5 500 15 4 false E U O1 O2 O3 O4 (zeros_gives 20 16) no_shuffle (same_order 500)
    (fill_wf _) eq_refl DN)) in H. lia.
Qed.
Print Assumptions C131_accepted_refuted.

(** With positive sizes, a seed which numpy accepts and a block which works: a run ends well exactly if there are more than
    500 sequences, the test set leaves no batch of 25 with a single one, there are at least two latent dimensions and, unless
    there are no epochs, at most 14 skipped timepoints and one of the 16 timepoints to evaluate at.
    Missing from the full statement: the other accepted command lines. *)
Theorem C131_exactly_partial : forall value blocks shuffle order unusual X M directory words ns d N f n n_skip i_eval save,
  parse_args rot_parser words = Some ns -> usual ns d N f -> option_is ns "niters" (AInt n) -> option_is ns "n_skip" (AInt n_skip) ->
  option_is ns "i_eval" (AInt i_eval) -> option_is ns "save" (AFlag save) ->
  (forall k m, 1 <= m -> block_gives (blocks ns k) (Z.to_nat d) 16 m) -> (forall k, shuffles (shuffle k)) -> orders 500 order ->
  twf X -> tshape X = [M; 16; 784] -> directory <> None ->
  (exists files, rot value blocks shuffle order unusual X directory words = Some (Ok files)) <->
  500 < M /\ (2 <= d)%Z /\ no_single (M - 500) /\ ((1 <= n)%Z -> (0 <= n_skip <= 14)%Z /\ (0 <= i_eval <= 15)%Z).
Proof. exact rot_exactly. Qed.
Print Assumptions C131_exactly_partial.

(** Then, with [--save], four files are written, and the tracker has an entry for each epoch with the errors of all
    test sequences and their mean. *)
Theorem C131_runs_partial : forall value blocks shuffle order unusual X M directory words ns d N f n n_skip i_eval save,
  parse_args rot_parser words = Some ns -> usual ns d N f -> option_is ns "niters" (AInt n) -> option_is ns "n_skip" (AInt n_skip) ->
  option_is ns "i_eval" (AInt i_eval) -> option_is ns "save" (AFlag save) ->
  (forall k m, 1 <= m -> block_gives (blocks ns k) (Z.to_nat d) 16 m) -> (forall k, shuffles (shuffle k)) -> orders 500 order ->
  twf X -> tshape X = [M; 16; 784] ->
  500 < M -> (2 <= d)%Z -> no_single (M - 500) -> ((1 <= n)%Z -> (0 <= n_skip <= 14)%Z /\ (0 <= i_eval <= 15)%Z) -> save = true ->
  forall p, directory = Some p -> exists tr images, rot value blocks shuffle order unusual X directory words =
    Some (Ok [((p ++ "/model.pt")%string, RModel); ((p ++ "/tracker.pkl")%string, RTracker tr);
              ((p ++ "/args.pkl")%string, RArgs ns); ((p ++ "/images.pkl")%string, RImages images)]) /\
    List.length tr = Z.to_nat n /\ forall i t, nth_error tr i = Some t -> good_entry (M - 500) i t.
Proof. exact rot_runs. Qed.
Print Assumptions C131_runs_partial.

(** Without a directory to write to the same runs end with an error after the training, with [--save], and otherwise
    end well without files. *)
Theorem C131_no_directory_partial : forall value blocks shuffle order unusual X M directory words ns d N f n n_skip i_eval save,
  parse_args rot_parser words = Some ns -> usual ns d N f -> option_is ns "niters" (AInt n) -> option_is ns "n_skip" (AInt n_skip) ->
  option_is ns "i_eval" (AInt i_eval) -> option_is ns "save" (AFlag save) ->
  (forall k m, 1 <= m -> block_gives (blocks ns k) (Z.to_nat d) 16 m) -> (forall k, shuffles (shuffle k)) -> orders 500 order ->
  twf X -> tshape X = [M; 16; 784] ->
  500 < M -> (2 <= d)%Z -> no_single (M - 500) -> ((1 <= n)%Z -> (0 <= n_skip <= 14)%Z /\ (0 <= i_eval <= 15)%Z) -> directory = None ->
  rot value blocks shuffle order unusual X directory words = Some (if save then Raise OSError else Ok []).
Proof. exact rot_no_directory. Qed.
Print Assumptions C131_no_directory_partial.

Example C131_runs_case : let words := ["--niters=2"; "--save"; "--batch_size"; "7"] in
  exists ns, parse_args rot_parser words = Some ns /\ usual ns 20 25 5 /\ option_is ns "batch_size" (AInt 7) /\
  no_single (602 - 500) /\ ~ no_single (601 - 500 + 25) /\
  exists a b images, rot (fun _ _ _ _ => 0%Qc) (fun _ => zeros 20 16) (fun _ _ l => l) (fun _ => seq 0 500) (Ok [])
      (tfill 0%Qc [602; 16; 784]) (Some "runs/1") words =
    Some (Ok [("runs/1/model.pt", RModel); ("runs/1/tracker.pkl", RTracker [a; b]); ("runs/1/args.pkl", RArgs ns); ("runs/1/images.pkl", RImages images)]) /\
    good_entry 102 0 a /\ good_entry 102 1 b.
Proof.
  cbv zeta. set (words := ["--niters=2"; "--save"; "--batch_size"; "7"]).
  destruct (parse_args rot_parser words) as [ns|] eqn:E; [|vm_compute in E; discriminate E]. exists ns.
  assert (U : usual ns 20 25 5).
  { vm_compute in E. injection E as <-. unfold usual, option_is. repeat split; try reflexivity; try discriminate.
    - intros q [= <-] H. discriminate H.
    - intros z [= <-]. left. reflexivity. }
  assert (O : option_is ns "batch_size" (AInt 7) /\ option_is ns "niters" (AInt 2) /\ option_is ns "n_skip" (AInt 4) /\ option_is ns "i_eval" (AInt 4) /\
    option_is ns "save" (AFlag true)) by (vm_compute in E; injection E as <-; repeat split).
  destruct O as (O0 & O1 & O2 & O3 & O4). split; [reflexivity|]. split; [exact U|]. split; [exact O0|]. split; [discriminate|].
  split; [unfold no_single; intros H; apply H; reflexivity|].
  destruct (C131_runs_partial (fun _ _ _ _ => 0%Qc) (fun _ => zeros 20 16) (fun _ _ l => l) (fun _ => seq 0 500) (Ok []) (tfill 0%Qc [602; 16; 784]) 602
    (Some "runs/1") words ns 20 25 5 2 4 4 true E U O1 O2 O3 O4 (zeros_gives 20 16) no_shuffle (same_order 500) (fill_wf _) eq_refl ltac:(lia) ltac:(lia))
    with (p := "runs/1") as (tr & im & H & L & G); [discriminate|lia|reflexivity|reflexivity|].
  destruct tr as [|a [|b [|x tr]]]; try discriminate L. exists a, b, im. split; [exact H|].
  split; [exact (G 0 a eq_refl)|exact (G 1 b eq_refl)].
Qed.

Example C131_no_directory_case : rot (fun _ _ _ _ => 0%Qc) (fun _ => zeros 20 16) (fun _ _ l => l) (fun _ => seq 0 500) (Ok [])
  (tfill 0%Qc [602; 16; 784]) None ["--niters=2"; "--save"] = Some (Raise OSError).
Proof.
  destruct (parse_args rot_parser ["--niters=2"; "--save"]) as [ns|] eqn:E; [|vm_compute in E; discriminate E].
  assert (U : usual ns 20 25 5).
  { vm_compute in E. injection E as <-. unfold usual, option_is. repeat split; try reflexivity; try discriminate.
    - intros q [= <-] H. discriminate H.
    - intros z [= <-]. left. reflexivity. }
  assert (O : option_is ns "niters" (AInt 2) /\ option_is ns "n_skip" (AInt 4) /\ option_is ns "i_eval" (AInt 4) /\
    option_is ns "save" (AFlag true)) by (vm_compute in E; injection E as <-; repeat split).
  destruct O as (O1 & O2 & O3 & O4).
  apply (C131_no_directory_partial (fun _ _ _ _ => 0%Qc) (fun _ => zeros 20 16) (fun _ _ l => l) (fun _ => seq 0 500) (Ok []) (tfill 0%Qc [602; 16; 784]) 602
    None _ ns 20 25 5 2 4 4 true E U O1 O2 O3 O4 (zeros_gives 20 16) no_shuffle (same_order 500) (fill_wf _) eq_refl); try lia; discriminate || reflexivity.
Qed.

(** No epochs: the options for training do not matter. *)
Example C131_no_epochs_case : exists images ns, rot (fun _ _ _ _ => 0%Qc) (fun _ => zeros 20 16) (fun _ _ l => l) (fun _ => seq 0 500) (Ok [])
  (tfill 0%Qc [602; 16; 784]) (Some "runs/1") ["--niters=0"; "--n_skip=20"; "--save"] =
    Some (Ok [("runs/1/model.pt", RModel); ("runs/1/tracker.pkl", RTracker []); ("runs/1/args.pkl", RArgs ns); ("runs/1/images.pkl", RImages images)]).
Proof.
  destruct (parse_args rot_parser ["--niters=0"; "--n_skip=20"; "--save"]) as [ns|] eqn:E; [|vm_compute in E; discriminate E].
  assert (U : usual ns 20 25 5).
  { vm_compute in E. injection E as <-. unfold usual, option_is. repeat split; try reflexivity; try discriminate.
    - intros q [= <-] H. discriminate H.
    - intros z [= <-]. left. reflexivity. }
  assert (O : option_is ns "niters" (AInt 0) /\ option_is ns "n_skip" (AInt 20) /\ option_is ns "i_eval" (AInt 4) /\
    option_is ns "save" (AFlag true)) by (vm_compute in E; injection E as <-; repeat split).
  destruct O as (O1 & O2 & O3 & O4).
  destruct (C131_runs_partial (fun _ _ _ _ => 0%Qc) (fun _ => zeros 20 16) (fun _ _ l => l) (fun _ => seq 0 500) (Ok []) (tfill 0%Qc [602; 16; 784]) 602
    (Some "runs/1") _ ns 20 25 5 0 20 4 true E U O1 O2 O3 O4 (zeros_gives 20 16) no_shuffle (same_order 500) (fill_wf _) eq_refl ltac:(lia) ltac:(lia))
    with (p := "runs/1") as (tr & im & H & L & G); [discriminate|lia|reflexivity|reflexivity|].
  destruct tr as [|x tr]; [|discriminate L]. exists im, ns. exact H.
Qed.

(** The errors of a batch are those of the images at the chosen timepoint. *)
Theorem C131_errors_partial : forall value blk shuffle d, (forall k m, 1 <= m -> block_gives (blk k) d 16 m) -> (forall k, shuffles (shuffle k)) ->
  forall k n_skip i inp N, twf inp /\ tshape inp = [N; 16; 1; 28; 28] -> 2 <= N -> 2 <= d -> i < 16 ->
  exists x out r, first_frame inp = Ok x /\
    forward_masked (value k) (blk k) (shuffle k) 8 d 16 n_skip (Z.of_nat i) x false = Ok (out, None, r) /\ tshape r = [N; 16; 1; 28; 28] /\
    rot_errors value blk shuffle d n_skip (Z.of_nat i) k inp = Ok (map (fun n => Fin (frame_error r inp n i)) (seq 0 N)).
Proof. exact rot_errors_ok. Qed.
Print Assumptions C131_errors_partial.

Example C131_errors_case : let inp := tfill 0%Qc [25; 16; 1; 28; 28] in
  (forall k m, 1 <= m -> block_gives (zeros 3 16 k) 3 16 m) /\ (twf inp /\ tshape inp = [25; 16; 1; 28; 28]).
Proof. split; [apply zeros_gives|]. split; [apply fill_wf|reflexivity]. Qed.

(** [--batch_size] is without effect: two runs which differ in it have the same outcome and write the same files, but
    for the recorded options. *)
Theorem C131_batch_ignored : forall value blk shuffle order unusual X directory ns ns',
  (forall name, name <> "batch_size" -> pd_get name ns = pd_get name ns') ->
  let run := rot_main value (fun _ => blk) shuffle order unusual X directory in
  match run ns, run ns' with
  | Ok l, Ok l' => map (fun f => match snd f with RArgs _ => None | _ => Some f end) l = map (fun f => match snd f with RArgs _ => None | _ => Some f end) l'
  | Raise x, Raise y => x = y
  | _, _ => False
  end.
Proof. exact rot_batch_unused. Qed.
Print Assumptions C131_batch_ignored.

Example C131_batch_case : exists ns ns', parse_args rot_parser ["--save"; "--batch_size=7"] = Some ns /\ parse_args rot_parser ["--save"; "--batch_size=8"] = Some ns' /\
  ns <> ns' /\ forall name, name <> "batch_size" -> pd_get name ns = pd_get name ns'.
Proof.
  eexists _, _. split; [vm_compute; reflexivity|]. split; [vm_compute; reflexivity|]. split; [discriminate|].
  intros name H. unfold pd_get. cbn [sd_get].
  repeat match goal with |- context [String.eqb name ?x] => destruct (String.eqb_spec name x) as [->|?]; [try reflexivity; contradiction|] end. reflexivity.
Qed.

(** C132 asks that a run of balls.py which ends well leaves the saved model, and that the program can be started again.
    False: with [--evaluate_ahead 0] nothing is ever saved, and an existing directory (as after a first run) raises. *)
Theorem C132_saved_refuted : exists value blocks order unusual data words ns, parse_args balls_parser words = Some ns /\ usual ns 20 25 5 /\
  (forall k m, 1 <= m -> block_gives (blocks ns k) 20 20 m) /\ images data 50 20 /\ orders 50 order /\
  balls value blocks order unusual data data data (fun _ => false) words = Some (Ok tt, None) /\
  balls value blocks order unusual data data data (fun p => String.eqb p "runs/") words = Some (Raise OSError, None).
Proof.
  destruct (parse_args balls_parser ["--evaluate_ahead"; "0"]) as [ns|] eqn:E; [|vm_compute in E; discriminate E].
  exists (fun _ _ _ _ => 0%Qc), (fun _ => zeros 20 20), (fun _ => seq 0 50), (Ok tt, None), (tfill 0%Qc [50; 20; 28; 28]), ["--evaluate_ahead"; "0"], ns.
  assert (U : usual ns 20 25 5).
  { vm_compute in E. injection E as <-. unfold usual, option_is. repeat split; try reflexivity; try discriminate.
    - intros q [= <-] H. discriminate H.
    - intros z [= <-]. left. reflexivity. }
  assert (O : option_is ns "niters" (AInt 500) /\ option_is ns "evaluate_ahead" (AInt 0) /\ option_is ns "save_to" (AText "runs/"))
    by (vm_compute in E; injection E as <-; repeat split).
  destruct O as (O1 & O2 & O3). assert (I := fill_images 50 20).
  split; [exact E|]. split; [exact U|]. split; [apply zeros_gives|]. split; [exact I|]. split; [apply same_order|]. split.
  - destruct (proj2 (balls_exactly (fun _ _ _ _ => 0%Qc) (fun _ => zeros 20 20) (fun _ => seq 0 50) (Ok tt, None) _ _ _ 50 50 50 20 20 20 (fun _ => false) _ ns 20 25 5 500 0 "runs/"
      E U O1 O2 O3 (zeros_gives 20 20) (same_order 50) I I I (le_n _) (le_n _) (le_n _) ltac:(lia))) as (file & H).
    { unfold no_single. repeat split; try lia; discriminate. }
    rewrite H. f_equal. f_equal.
    apply (proj2 (balls_saves (fun _ _ _ _ => 0%Qc) (fun _ => zeros 20 20) (fun _ => seq 0 50) (Ok tt, None) _ _ _ 50 50 50 20 20 20 (fun _ => false) _ ns 20 25 5 500 0 "runs/"
      E U O1 O2 O3 (zeros_gives 20 20) (same_order 50) I I I (le_n _) (le_n _) (le_n _) ltac:(lia) file H)). reflexivity.
  - apply (balls_existing _ _ _ _ _ _ _ _ _ ns 20 25 5 500 0 "runs/" E U O1 O2 O3). reflexivity.
Qed.
Print Assumptions C132_saved_refuted.

(** Which runs end well, as for rot.py; here all three data sets are cut into batches of 25 and none may be left with a
    single sequence, and the directory must not exist. *)
Theorem C132_exactly_partial : forall value blocks order unusual train test val M1 M2 M3 T1 T2 T3 exists_ words ns d N f n ahead out,
  parse_args balls_parser words = Some ns -> usual ns d N f -> option_is ns "niters" (AInt n) -> option_is ns "evaluate_ahead" (AInt ahead) ->
  option_is ns "save_to" (AText out) -> (forall k m, 1 <= m -> block_gives (blocks ns k) (Z.to_nat d) 20 m) -> orders M1 order ->
  images train M1 T1 -> images test M2 T2 -> images val M3 T3 -> 20 <= T1 -> 20 <= T2 -> 20 <= T3 -> (1 <= n)%Z ->
  (exists file, balls value blocks order unusual train test val exists_ words = Some (Ok tt, file)) <->
  exists_ out = false /\ 0 < M1 /\ 0 < M2 /\ 0 < M3 /\ (2 <= d)%Z /\ no_single M1 /\ no_single M2 /\ no_single M3.
Proof. exact balls_exactly. Qed.
Print Assumptions C132_exactly_partial.

(** A run which ends well has saved a model exactly if there are compared images. *)
Theorem C132_saves_partial : forall value blocks order unusual train test val M1 M2 M3 T1 T2 T3 exists_ words ns d N f n ahead out,
  parse_args balls_parser words = Some ns -> usual ns d N f -> option_is ns "niters" (AInt n) -> option_is ns "evaluate_ahead" (AInt ahead) ->
  option_is ns "save_to" (AText out) -> (forall k m, 1 <= m -> block_gives (blocks ns k) (Z.to_nat d) 20 m) -> orders M1 order ->
  images train M1 T1 -> images test M2 T2 -> images val M3 T3 -> 20 <= T1 -> 20 <= T2 -> 20 <= T3 -> (1 <= n)%Z ->
  forall file, balls value blocks order unusual train test val exists_ words = Some (Ok tt, file) -> file = None <-> compared ahead = [].
Proof. exact balls_saves. Qed.
Print Assumptions C132_saves_partial.

(** The default of 10 images, a new directory, data of different lengths. *)
Example C132_runs_case : let words := ["--save_to=out"; "--niters"; "3"] in
  let train := tfill 0%Qc [75; 30; 28; 28] in let test := tfill 0%Qc [52; 20; 28; 28] in
  exists ns, parse_args balls_parser words = Some ns /\ usual ns 20 25 5 /\ compared 10 <> [] /\
  exists file, balls (fun _ _ _ _ => 0%Qc) (fun _ => zeros 20 20) (fun _ => seq 0 75) (Ok tt, None) train test test (String.eqb "runs/") words = Some (Ok tt, Some file).
Proof.
  cbv zeta. set (words := ["--save_to=out"; "--niters"; "3"]).
  destruct (parse_args balls_parser words) as [ns|] eqn:E; [|vm_compute in E; discriminate E]. exists ns.
  assert (U : usual ns 20 25 5).
  { vm_compute in E. injection E as <-. unfold usual, option_is. repeat split; try reflexivity; try discriminate.
    - intros q [= <-] H. discriminate H.
    - intros z [= <-]. left. reflexivity. }
  assert (O : option_is ns "niters" (AInt 3) /\ option_is ns "evaluate_ahead" (AInt 10) /\ option_is ns "save_to" (AText "out"))
    by (vm_compute in E; injection E as <-; repeat split).
  destruct O as (O1 & O2 & O3). split; [reflexivity|]. split; [exact U|]. split; [discriminate|].
  assert (I := fill_images 75 30). assert (J := fill_images 52 20).
  destruct (proj2 (C132_exactly_partial (fun _ _ _ _ => 0%Qc) (fun _ => zeros 20 20) (fun _ => seq 0 75) (Ok tt, None) _ _ _ 75 52 52 30 20 20 (String.eqb "runs/") words ns
    20 25 5 3 10 "out" E U O1 O2 O3 (zeros_gives 20 20) (same_order 75) I J J ltac:(lia) (le_n _) (le_n _) ltac:(lia))) as (file & H).
  { unfold no_single. repeat split; try lia; discriminate. }
  assert (S := C132_saves_partial (fun _ _ _ _ => 0%Qc) (fun _ => zeros 20 20) (fun _ => seq 0 75) (Ok tt, None) _ _ _ 75 52 52 30 20 20 (String.eqb "runs/") words ns
    20 25 5 3 10 "out" E U O1 O2 O3 (zeros_gives 20 20) (same_order 75) I J J ltac:(lia) (le_n _) (le_n _) ltac:(lia) file H).
  destruct file as [file|]; [exists file; exact H|]. discriminate (proj1 S eq_refl).
Qed.

(** What is saved: the number and the errors of the epoch with the smallest mean validation error, the last one of
    several.  In each epoch all batches of training, test and validation data are passed through, in this order. *)
Theorem C132_best_partial : forall value blocks order unusual train test val M1 M2 M3 T1 T2 T3 exists_ words ns d N f n ahead out,
  parse_args balls_parser words = Some ns -> usual ns d N f -> option_is ns "niters" (AInt n) -> option_is ns "evaluate_ahead" (AInt ahead) ->
  option_is ns "save_to" (AText out) -> (forall k m, 1 <= m -> block_gives (blocks ns k) (Z.to_nat d) 20 m) -> orders M1 order ->
  images train M1 T1 -> images test M2 T2 -> images val M3 T3 -> 20 <= T1 -> 20 <= T2 -> 20 <= T3 -> (1 <= n)%Z -> compared ahead <> [] ->
  forall file, balls value blocks order unusual train test val exists_ words = Some (Ok tt, Some file) ->
  let passes := fun e => e * ((M1 + 24) / 25 + (M2 + 24) / 25 + (M3 + 24) / 25) + (M1 + 24) / 25 in
  let errors := fun k X M => balls_evaluate value (blocks ns) (Z.to_nat d) ahead k (batches25 X (seq 0 M)) in
  exists trows vrows verr, (forall e, errors (passes e) test M2 = Ok (trows e) /\ errors (passes e + (M2 + 24) / 25) val M3 = Ok (vrows e) /\
      np_mean (List.concat (vrows e)) = Fin (verr e)) /\
    exists e, e < Z.to_nat n /\ file = (e, (Fin (verr e), vrows e), (np_mean (List.concat (trows e)), trows e)) /\
      forall i, i < Z.to_nat n -> (verr e <= verr i)%Qc /\ (e < i -> (verr e < verr i)%Qc).
Proof. exact balls_best. Qed.
Print Assumptions C132_best_partial.

Example C132_best_case : let train := tfill 0%Qc [75; 30; 28; 28] in let test := tfill 0%Qc [52; 20; 28; 28] in
  exists e rest, e < 3 /\
  balls (fun _ _ _ _ => 0%Qc) (fun _ => zeros 20 20) (fun _ => seq 0 75) (Ok tt, None) train test test (String.eqb "runs/") ["--save_to=out"; "--niters"; "3"] =
    Some (Ok tt, Some ((e, fst rest), snd rest)).
Proof.
  cbv zeta. destruct C132_runs_case as (ns & E & U & C & file & H).
  assert (O : option_is ns "niters" (AInt 3) /\ option_is ns "evaluate_ahead" (AInt 10) /\ option_is ns "save_to" (AText "out"))
    by (vm_compute in E; injection E as <-; repeat split).
  destruct O as (O1 & O2 & O3).
  destruct (C132_best_partial (fun _ _ _ _ => 0%Qc) (fun _ => zeros 20 20) (fun _ => seq 0 75) (Ok tt, None) _ _ _ 75 52 52 30 20 20 (String.eqb "runs/") _ ns
    20 25 5 3 10 "out" E U O1 O2 O3 (zeros_gives 20 20) (same_order 75) (fill_images 75 30) (fill_images 52 20) (fill_images 52 20) ltac:(lia) (le_n _) (le_n _) ltac:(lia) C file H)
    as (tr & vr & ve & _ & e & L & -> & _).
  exists e, ((Fin (ve e), vr e), (np_mean (List.concat (tr e)), tr e)). split; [exact L|exact H].
Qed.

(** C125: every accepted command line of cc.py trains and saves. *)
From Coq Require Import List String ZArith QArith Reals Bool Lia.
From Verif Require Import Base VecModel VecFlow ArgparseModel CirclesModel CirclesSpec CirclesProofs3 CirclesProofs4.
Import ListNotations.
Open Scope string_scope.
Open Scope list_scope.
Open Scope nat_scope.

(** For the examples: steps of Euler's method, random entries which depend on the pass, files can be written. *)
Definition some_entries (k : nat) : entries :=
  mkEntries (fun _ n i j => INR (n + j + k)) (fun _ n i j => INR (n * j)) (fun _ => (fun i j => INR (i + k), fun j => INR j))
    (fun _ => (fun i j => INR (i + j), fun j => 1%R)) (fun n i j => INR (n + k)) [Rhs 0 0; Combine (1%R, 0) [(1%R, 1)]].
Lemma some_solver : forall k, solver (e_prog (some_entries k)).
Proof. intros k. split; [cbn; repeat split; auto; repeat constructor|]. eexists. eexists. reflexivity. Qed.
Definition some_nonlinearity (name : string) : (R -> R) * (R -> R) := (fun x => x, fun _ => 1%R).
Definition small := ["--shooting_dim=2"; "--niters=3"; "--batch_size=700"; "--nr_of_particles=4"; "--save_model=m"].

(** The accepted command line without any option: training never starts. *)
Theorem C125_accepted_refuted : exists words, parse_args cc_parser words <> None /\
  forall nonlinearity all writable unusual, (forall k, solver (e_prog (all k))) ->
    cc nonlinearity all writable unusual words = Some (Raise RuntimeError, []).
Proof. exact default_fails. Qed.
Print Assumptions C125_accepted_refuted.

Example C125_accepted_case : exists nonlinearity all writable unusual,
  (forall k, solver (e_prog (all k))) /\ cc nonlinearity all writable unusual [] = Some (Raise RuntimeError, []).
Proof.
  exists some_nonlinearity, some_entries, (fun _ => true), (Ok tt, []). split; [exact some_solver|].
  destruct (parse_args cc_parser []) as [ns|] eqn:E; [|vm_compute in E; discriminate E].
  apply (wrong_dimension _ some_entries _ _ some_solver [] ns 20%Z 25%Z 5%Z 25%Z 500%Z "updown" "model" E);
    try (vm_compute in E; injection E as <-; reflexivity); try discriminate.
  vm_compute in E. injection E as <-. unfold usual, option_is. repeat split; try reflexivity; try discriminate.
  - intros q [= <-] H. discriminate H.
  - intros z [= <-]. left. reflexivity.
Qed.

(** With sizes of at least 1, a weight other than 0, a seed which numpy accepts and writable files, a run ends well
    exactly if the dimension is 2, batches have more than one point and, if there is an epoch at all, the last
    batch is not a single point (2999) and the model has a second layer for the hook. *)
Theorem C125_exactly_partial : forall nonlinearity all writable unusual, (forall k, solver (e_prog (all k))) ->
  forall words ns d N f bs n name out, parse_args cc_parser words = Some ns -> usual ns d N f ->
  option_is ns "batch_size" (AInt bs) -> option_is ns "niters" (AInt n) -> option_is ns "shooting_model" (AText name) ->
  option_is ns "save_model" (AText out) ->
  writable (out ++ ".pt")%string = true -> writable (out ++ ".pkl")%string = true -> writable (out ++ "_results_.pkl")%string = true ->
  (1 <= bs)%Z ->
  (exists files, cc nonlinearity all writable unusual words = Some (Ok tt, files)) <->
  d = 2%Z /\ (1 < bs)%Z /\ ((n <= 0)%Z \/ bs <> 2999%Z /\ name <> "simple").
Proof. exact exactly. Qed.
Print Assumptions C125_exactly_partial.

(** Then there is one recording for each epoch, complete, with the times at which the solver has evaluated in that
    pass: the epochs consist of the training and testing passes of all batches and one pass more. *)
Theorem C125_runs_partial : forall nonlinearity all writable unusual, (forall k, solver (e_prog (all k))) ->
  forall words ns d N f bs n name out, parse_args cc_parser words = Some ns -> usual ns d N f ->
  option_is ns "batch_size" (AInt bs) -> option_is ns "niters" (AInt n) -> option_is ns "shooting_model" (AText name) ->
  option_is ns "save_model" (AText out) ->
  writable (out ++ ".pt")%string = true -> writable (out ++ ".pkl")%string = true -> writable (out ++ "_results_.pkl")%string = true ->
  d = 2%Z -> (1 < bs)%Z -> (n <= 0)%Z \/ bs <> 2999%Z /\ name <> "simple" ->
  exists tr, cc nonlinearity all writable unusual words =
      Some (Ok tt, [((out ++ ".pt")%string, CModel); ((out ++ ".pkl")%string, CTracker tr);
                    ((out ++ "_results_.pkl")%string, CResults (Z.to_nat n))]) /\
    List.length tr = Z.to_nat n /\
    forall i r, nth_error tr i = Some r ->
      recording (Z.to_nat N) (2 * Z.to_nat f) (evaluation_times (e_prog (all (S i * (2 * Z.to_nat ((2999 + bs) / bs) + 1))%nat))) r.
Proof. exact runs. Qed.
Print Assumptions C125_runs_partial.

(** Three epochs with five batches each. *)
Example C125_runs_case : exists ns, parse_args cc_parser small = Some ns /\ usual ns 2 4 5 /\
  option_is ns "batch_size" (AInt 700) /\ option_is ns "niters" (AInt 3) /\ option_is ns "shooting_model" (AText "updown") /\
  option_is ns "save_model" (AText "m") /\
  exists a b c, cc some_nonlinearity some_entries (fun _ => true) (Ok tt, []) small =
      Some (Ok tt, [("m.pt", CModel); ("m.pkl", CTracker [a; b; c]); ("m_results_.pkl", CResults 3)]) /\
    series "t" a = [NTime 0] /\ recording 4 10 [0%R] b.
Proof.
  destruct (parse_args cc_parser small) as [ns|] eqn:E; [|vm_compute in E; discriminate E]. exists ns.
  assert (U : usual ns 2 4 5).
  { vm_compute in E. injection E as <-. unfold usual, option_is. repeat split; try reflexivity; try discriminate.
    - intros q [= <-] H. discriminate H.
    - intros z [= <-]. left. reflexivity. }
  assert (O : option_is ns "batch_size" (AInt 700) /\ option_is ns "niters" (AInt 3) /\ option_is ns "shooting_model" (AText "updown") /\
    option_is ns "save_model" (AText "m")) by (vm_compute in E; injection E as <-; repeat split).
  destruct O as (O1 & O2 & O3 & O4). split; [reflexivity|]. split; [exact U|]. repeat (split; [assumption|]).
  destruct (C125_runs_partial some_nonlinearity some_entries (fun _ => true) (Ok tt, []) some_solver small ns 2 4 5 700 3 "updown" "m" E U
    O1 O2 O3 O4 eq_refl eq_refl eq_refl eq_refl eq_refl) as (tr & H & L & R).
  { right. split; discriminate. }
  destruct tr as [|a [|b [|c [|x tr]]]]; try discriminate L. exists a, b, c. split; [exact H|]. split.
  - exact (proj1 (R 0 a eq_refl)).
  - exact (R 1 b eq_refl).
Qed.

(** Another dimension than 2: the points of the plane do not fit. *)
Theorem C125_dimension_partial : forall nonlinearity all writable unusual, (forall k, solver (e_prog (all k))) ->
  forall words ns d N f bs n name out, parse_args cc_parser words = Some ns -> usual ns d N f ->
  option_is ns "batch_size" (AInt bs) -> option_is ns "niters" (AInt n) -> option_is ns "shooting_model" (AText name) ->
  option_is ns "save_model" (AText out) -> (1 <= bs)%Z -> d <> 2%Z ->
  cc nonlinearity all writable unusual words = Some (Raise RuntimeError, []).
Proof. exact wrong_dimension. Qed.
Print Assumptions C125_dimension_partial.

Example C125_dimension_case : exists ns, parse_args cc_parser ["--shooting_dim"; "3"; "--shooting_model"; "simple"] = Some ns /\
  usual ns 3 25 5 /\ option_is ns "batch_size" (AInt 25) /\ option_is ns "shooting_model" (AText "simple").
Proof.
  eexists. split; [vm_compute; reflexivity|]. unfold usual, option_is. repeat split; try reflexivity; try discriminate.
  - intros q [= <-] H. discriminate H.
  - intros z [= <-]. left. reflexivity.
Qed.

(** The model with one layer is trained for one epoch; then the hook looks for the second layer, and nothing is
    saved. *)
Theorem C125_simple_partial : forall nonlinearity all writable unusual, (forall k, solver (e_prog (all k))) ->
  forall words ns d N f bs n name out, parse_args cc_parser words = Some ns -> usual ns d N f ->
  option_is ns "batch_size" (AInt bs) -> option_is ns "niters" (AInt n) -> option_is ns "shooting_model" (AText name) ->
  option_is ns "save_model" (AText out) -> d = 2%Z -> (1 < bs)%Z -> bs <> 2999%Z -> (1 <= n)%Z -> name = "simple" ->
  cc nonlinearity all writable unusual words = Some (Raise KeyError, []).
Proof. exact simple_fails. Qed.
Print Assumptions C125_simple_partial.

Example C125_simple_case : exists ns, parse_args cc_parser ["--shooting_dim=2"; "--shooting_model=simple"; "--pw"; "0.5"] = Some ns /\
  usual ns 2 25 5 /\ option_is ns "batch_size" (AInt 25) /\ option_is ns "niters" (AInt 500) /\
  option_is ns "shooting_model" (AText "simple") /\ option_is ns "save_model" (AText "model").
Proof.
  eexists. split; [vm_compute; reflexivity|]. unfold usual, option_is. repeat split; try reflexivity; try discriminate.
  - intros q [= <-] H. discriminate H.
  - intros z [= <-]. left. reflexivity.
Qed.

(** Batch sizes below 1 and seeds which numpy refuses raise an exception at once, batches of one point (BatchNorm)
    in the first pass, and a single point left over in the last batch at the end of the first epoch. *)
Theorem C125_batch_partial :
  (forall nonlinearity all writable unusual words ns bs, parse_args cc_parser words = Some ns ->
    option_is ns "batch_size" (AInt bs) -> (bs <= 0)%Z -> cc nonlinearity all writable unusual words = Some (Raise ValueError, [])) /\
  (forall nonlinearity all writable unusual words ns bs seed, parse_args cc_parser words = Some ns ->
    option_is ns "batch_size" (AInt bs) -> (1 <= bs)%Z -> option_is ns "seed" (AInt seed) -> seed <> (-1)%Z -> ~ (0 <= seed < 2 ^ 32)%Z ->
    cc nonlinearity all writable unusual words = Some (Raise ValueError, [])) /\
  (forall nonlinearity all writable unusual, (forall k, solver (e_prog (all k))) ->
   forall words ns d N f bs n name out, parse_args cc_parser words = Some ns -> usual ns d N f ->
    option_is ns "batch_size" (AInt bs) -> option_is ns "niters" (AInt n) -> option_is ns "shooting_model" (AText name) ->
    option_is ns "save_model" (AText out) -> d = 2%Z ->
    (bs = 1%Z -> cc nonlinearity all writable unusual words = Some (Raise ValueError, [])) /\
    (bs = 2999%Z -> (1 <= n)%Z -> cc nonlinearity all writable unusual words = Some (Raise ValueError, []))).
Proof. exact bad_batches. Qed.
Print Assumptions C125_batch_partial.

Example C125_batch_case :
  (exists ns, parse_args cc_parser ["--batch_size=-5"] = Some ns /\ option_is ns "batch_size" (AInt (-5))) /\
  (exists ns, parse_args cc_parser ["--seed=-2"] = Some ns /\ option_is ns "seed" (AInt (-2)) /\ option_is ns "batch_size" (AInt 25)) /\
  (exists ns, parse_args cc_parser ["--shooting_dim=2"; "--batch_size"; "2999"; "--use_particle_rnn_mode"] = Some ns /\ usual ns 2 25 5 /\
    option_is ns "batch_size" (AInt 2999) /\ option_is ns "niters" (AInt 500)).
Proof.
  split; [eexists; split; [vm_compute; reflexivity|reflexivity]|]. split; [eexists; split; [vm_compute; reflexivity|split; reflexivity]|].
  eexists. split; [vm_compute; reflexivity|]. unfold usual, option_is. repeat split; try reflexivity; try discriminate.
  - intros q [= <-] H. discriminate H.
  - intros z [= <-]. left. reflexivity.
Qed.

(** A run which ends well if all files can be written ends with an exception at the first which cannot, after the files
    before it. *)
Theorem C125_unwritable_partial : forall nonlinearity all unusual words ns d N f files, parse_args cc_parser words = Some ns -> usual ns d N f ->
  cc nonlinearity all (fun _ => true) unusual words = Some (Ok tt, files) ->
  forall writable i file, nth_error files i = Some file -> writable (fst file) = false ->
  (forall j g, j < i -> nth_error files j = Some g -> writable (fst g) = true) ->
  cc nonlinearity all writable unusual words = Some (Raise OSError, firstn i files).
Proof. exact unwritable. Qed.
Print Assumptions C125_unwritable_partial.

(** The recordings cannot be written: only the model is. *)
Example C125_unwritable_case : exists ns, parse_args cc_parser small = Some ns /\ usual ns 2 4 5 /\
  (exists tr, cc some_nonlinearity some_entries (fun _ => true) (Ok tt, []) small =
     Some (Ok tt, [("m.pt", CModel); ("m.pkl", CTracker tr); ("m_results_.pkl", CResults 3)])) /\
  cc some_nonlinearity some_entries (fun p => negb (String.eqb p "m.pkl")) (Ok tt, []) small = Some (Raise OSError, [("m.pt", CModel)]).
Proof.
  destruct C125_runs_case as (ns & P & U & _ & _ & _ & _ & a & b & c & H & _). exists ns. split; [exact P|]. split; [exact U|].
  split; [eexists; exact H|].
  refine (C125_unwritable_partial _ _ _ _ _ _ _ _ _ P U H (fun p => negb (String.eqb p "m.pkl")) 1 _ eq_refl eq_refl _).
  intros [|j] g J G; [injection G as <-; reflexivity|lia].
Qed.

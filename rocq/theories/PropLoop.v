(** Properties C84-C85: training loops of the demos. *)
From Coq Require Import List ZArith QArith Qcanon Bool Lia.
From Verif Require Import Base SchedulerModel LoopModel LoopSpec LoopProofs.
Import ListNotations.
Open Scope nat_scope.

(** C84, as expected by a user, asks that every loop trains in training mode in
    every epoch.  False for rot.py, which never returns to training mode after its
    first evaluation: with layers that count the batches seen in training mode,
    as batch normalisation does, two epochs count only one. *)
Theorem C84_training_mode_refuted :
  exists (step : bool -> nat -> unit -> nat * (Qc * Qc * Qc))
      (infer : bool -> nat -> unit -> nat * unit) errors_of sched batches testset w0 m tr im,
    (forall w b, fst (infer false w b) = w) /\ (forall k, batches k <> []) /\
    rot_main step infer errors_of sched batches testset w0 2 = Ok (m, tr, im) /\
    n_weights m = 1 /\ weights_after step sched (fun _ => true) batches w0 2 = 2.
Proof.
  pose (step := fun (t : bool) (w : nat) (_ : unit) => ((if t then S w else w), (0%Qc, 0%Qc, 0%Qc))).
  pose (infer := fun (_ : bool) (w : nat) (_ : unit) => (w, tt)).
  destruct (@rot_main_ok nat unit unit step infer (fun _ => []) (fun w => w) (fun _ _ => eq_refl)
              (fun _ => [tt]) [tt] 0 ltac:(discriminate) 2) as (m & tr & im & E & HW & _).
  exists step, infer, (fun _ => []), (fun w => w), (fun _ => [tt]), [tt], 0, m, tr, im.
  split; [reflexivity|]. split; [discriminate|]. split; [exact E|]. split; [exact HW|reflexivity].
Qed.
Print Assumptions C84_training_mode_refuted.

(** C84 for rot.py, exactly: the first epoch is run in training mode, all others in
    evaluation mode; every evaluation is in evaluation mode with the values after
    that epoch.  Missing from the full statement: training mode after the first
    epoch. *)
Theorem C84_rot_partial : forall (W B O : Type) (step : bool -> W -> B -> W * (Qc * Qc * Qc))
    (infer : bool -> W -> B -> W * O) errors_of sched,
  (forall w b, fst (infer false w b) = w) ->
  forall batches testset w0, (forall k, batches k <> []) ->
  forall n, exists m tracker images,
    rot_main step infer errors_of sched batches testset w0 n = Ok (m, tracker, images) /\
    let after := weights_after step sched (fun k => k =? 0) batches w0 in
    n_weights m = after n /\ length tracker = n /\
    images = map (fun b => snd (infer false (n_weights m) b)) testset /\
    forall k e, nth_error tracker k = Some e ->
      let ls := losses_on step (k =? 0) (after k) (batches k) in
      e_it e = k /\
      e_losses e = (mean (map (fun l => fst (fst l)) ls), mean (map (fun l => snd (fst l)) ls), mean (map snd ls)) /\
      e_eval e = map (fun b => snd (infer false (after (S k)) b)) testset.
Proof. exact @rot_main_ok. Qed.
Print Assumptions C84_rot_partial.

(** C84 for balls.py: every epoch is run in training mode. *)
Theorem C84_balls : forall (W B O : Type) (step : bool -> W -> B -> W * (Qc * Qc * Qc))
    (infer : bool -> W -> B -> W * O) errors_of sched batches testset valset w0,
  (forall w b, fst (infer false w b) = w) -> (forall k, batches k <> []) -> testset <> [] -> valset <> [] ->
  forall n, exists st,
    balls_main step infer errors_of sched batches testset valset w0 n = Ok st /\
    n_weights (b_net st) = weights_after step sched (fun _ => true) batches w0 n.
Proof. exact @balls_weights. Qed.
Print Assumptions C84_balls.

(** C84 for cc.py: every epoch is run in training mode, on its own draw of the
    batches; tests and recordings are in evaluation mode. *)
Theorem C84_cc : forall (W B O : Type) (step : bool -> W -> B -> W * (Qc * Qc * Qc))
    (infer : bool -> W -> B -> W * O) (sched : W -> W) (batches : nat -> list B) (testset : list B) (w0 : W) n,
  (forall w b, fst (infer false w b) = w) -> (forall k, batches k <> []) ->
  exists b r m rows, batches 0 = b :: r /\
    cc_main step infer sched batches testset w0 n = Ok (m, rows) /\
    let after := weights_after step sched (fun _ => true) (fun k => batches (1 + 2 * k)) (fst (infer true w0 b)) in
    n_weights m = after n /\ length rows = n /\
    forall k row, nth_error rows k = Some row ->
      let w := trained_on step true (after k) (batches (1 + 2 * k)) in
      r_test row = map (fun b => snd (infer false w b)) testset /\
      r_hook row = map (fun b => snd (infer false w b)) (firstn 1 (batches (2 + 2 * k))) /\
      r_train_loss row = mean (map snd (losses_on step true (after k) (batches (1 + 2 * k)))).
Proof. exact cc_main_ok. Qed.
Print Assumptions C84_cc.

(** A model with running statistics: (weight, statistics).  Three epochs of two
    batches; the statistics are only updated in training mode. *)
Example C84_case :
  let step := fun (t : bool) (w : nat * nat) (b : nat) =>
    ((fst w + b, if t then snd w + 1 else snd w), (0%Qc, 0%Qc, 0%Qc)) in
  let infer := fun (t : bool) (w : nat * nat) (b : nat) => ((fst w, if t then snd w + 1 else snd w), b + fst w) in
  (forall w b, fst (infer false w b) = w) /\
  weights_after step (fun w => w) (fun k => k =? 0) (fun k => [k; 1]) (0, 0) 3 = (6, 2) /\
  weights_after step (fun w => w) (fun _ => true) (fun k => [k; 1]) (0, 0) 3 = (6, 6).
Proof. cbv zeta. split; [intros [a s] b; reflexivity|split; reflexivity]. Qed.

(** C85, as expected by a user, asks that after training the model with the lowest
    validation error is on disk.  False: if the first error is NaN nothing is ever
    saved, however good the later ones. *)
Theorem C85_best_saved_refuted :
  exists (step : bool -> nat -> unit -> nat * (Qc * Qc * Qc))
      (infer : bool -> nat -> unit -> nat * num) errors_of sched batches testset valset st,
    (forall w b, fst (infer false w b) = w) /\ (forall k, batches k <> []) /\ testset <> [] /\ valset <> [] /\
    balls_main step infer errors_of sched batches testset valset 0 2 = Ok st /\ b_file st = None /\
    np_mean (flat_map errors_of (map (fun b => snd (infer false
      (weights_after step sched (fun _ => true) batches 0 2) b)) valset)) = Fin 0%Qc.
Proof.
  pose (step := fun (t : bool) (w : nat) (_ : unit) => (S w, (0%Qc, 0%Qc, 0%Qc))).
  pose (infer := fun (_ : bool) (w : nat) (_ : unit) => (w, if w =? 1 then NaN else Fin 0%Qc)).
  destruct (@balls_never nat unit num step infer (fun e => [e]) (fun w => w) (fun _ => [tt]) [tt] [tt] 0
              (fun _ _ => eq_refl) ltac:(discriminate) ltac:(discriminate) ltac:(discriminate) 2 eq_refl)
    as (st & E & F).
  exists step, infer, (fun e => [e]), (fun w => w), (fun _ => [tt]), [tt], [tt], st.
  split; [reflexivity|]. do 3 (split; [discriminate|]). split; [exact E|]. split; [exact F|].
  vm_compute. reflexivity.
Qed.
Print Assumptions C85_best_saved_refuted.

(** The same for every run with NaN after the first epoch. *)
Theorem C85_never_saved : forall (W B O : Type) (step : bool -> W -> B -> W * (Qc * Qc * Qc))
    (infer : bool -> W -> B -> W * O) errors_of sched batches testset valset w0,
  (forall w b, fst (infer false w b) = w) -> (forall k, batches k <> []) -> testset <> [] -> valset <> [] ->
  forall n,
  np_mean (flat_map errors_of (map (fun b => snd (infer false
    (weights_after step sched (fun _ => true) batches w0 1) b)) valset)) = NaN ->
  exists st, balls_main step infer errors_of sched batches testset valset w0 n = Ok st /\ b_file st = None.
Proof. exact @balls_never. Qed.
Print Assumptions C85_never_saved.

(** C85 when the first error is a number: the saved model has the values after the
    epoch with the lowest validation error (the last such epoch), in evaluation
    mode, together with that epoch's errors and outputs; later NaNs are harmless.
    Missing from the full statement: NaN after the first epoch. *)
Theorem C85_best_saved_partial : forall (W B O : Type) (step : bool -> W -> B -> W * (Qc * Qc * Qc))
    (infer : bool -> W -> B -> W * O) errors_of sched batches testset valset w0,
  (forall w b, fst (infer false w b) = w) -> (forall k, batches k <> []) -> testset <> [] -> valset <> [] ->
  forall n, 0 < n ->
  let after := weights_after step sched (fun _ => true) batches w0 in
  let outs := fun l k => map (fun b => snd (infer false (after (S k)) b)) l in
  let err := fun l k => np_mean (flat_map errors_of (outs l k)) in
  err valset 0 <> NaN -> exists st k f, k < n /\
    balls_main step infer errors_of sched batches testset valset w0 n = Ok st /\
    b_file st = Some f /\ s_net f = mkNet (after (S k)) false /\
    s_val f = err valset k /\ s_val_out f = outs valset k /\
    s_test f = err testset k /\ s_test_out f = outs testset k /\
    (forall j, j < n -> err valset j <> NaN -> le_num (err valset k) (err valset j)) /\
    (forall j, k < j < n -> ~ le_num (err valset j) (err valset k)).
Proof. exact @balls_saved. Qed.
Print Assumptions C85_best_saved_partial.

(** Four epochs with validation errors 3, 1, NaN, 1: the fourth is saved. *)
Example C85_case :
  let step := fun (t : bool) (w : nat) (_ : unit) => (S w, (0%Qc, 0%Qc, 0%Qc)) in
  let infer := fun (_ : bool) (w : nat) (_ : unit) => (w, nth (w - 1) [Fin (Q2Qc 3); Fin 1%Qc; NaN; Fin 1%Qc] PInf) in
  (forall w b, fst (infer false w b) = w) /\
  np_mean (flat_map (fun e => [e]) (map (fun b => snd (infer false
    (weights_after step (fun w => w) (fun _ => true) (fun _ => [tt]) 0 1) b)) [tt])) <> NaN /\
  match balls_main step infer (fun e => [e]) (fun w => w) (fun _ => [tt]) [tt] [tt] 0 4 with
  | Ok st => match b_file st with Some f => n_weights (s_net f) = 4 | None => False end
  | Raise _ => False
  end /\ le_num (Fin 1%Qc) (Fin (Q2Qc 3)) /\ ~ le_num (Fin (Q2Qc 3)) (Fin 1%Qc).
Proof.
  cbv zeta. split; [reflexivity|]. split; [discriminate|]. split; [vm_compute; reflexivity|].
  split; [constructor; apply Qclt_le_weak; reflexivity|].
  intros H. inversion H as [x y K| |]; subst. revert K. apply Qclt_not_le. reflexivity.
Qed.

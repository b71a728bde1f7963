(** Model of the training loops of the demos:
    demos/neurips20/rot.py ([rot.py]), demos/neurips20/balls.py ([balls.py]) and
    demos/neurips20/cc.py ([cc.py]).

    Simplifications: everything a training step changes (weights, running
    statistics of batch normalisation, optimiser state) is one value of type [W];
    a training step, a forward pass and a scheduler step are arbitrary functions,
    which see whether the model is in training mode.  A data loader is the list of
    its batches; a shuffled one gives another list each time it is iterated.
    Losses and errors are exact rationals, errors extended with infinities and
    NaN; printing, plotting and tensor devices are left out. *)
From Coq Require Import List ZArith QArith Qcanon Bool.
From Verif Require Import Base SchedulerModel.
Import ListNotations.
Open Scope nat_scope.

(** [a <= b] on floats (balls.py:404): false as soon as one is NaN. *)
Definition num_leb (a b : num) : bool :=
  match a, b with
  | NaN, _ | _, NaN => false
  | _, _ => negb (num_ltb b a)
  end.

(** [a + b] on floats. *)
Definition num_add (a b : num) : num :=
  match a, b with
  | NaN, _ | _, NaN => NaN
  | Fin x, Fin y => Fin (x + y)%Qc
  | PInf, NInf | NInf, PInf => NaN
  | PInf, _ | _, PInf => PInf
  | NInf, _ | _, NInf => NInf
  end.

(** The number [n] as a rational. *)
Definition qnat (n : nat) : Qc := Q2Qc (inject_Z (Z.of_nat n)).

(** [np.mean(errors)] (balls.py:398, 399) and [np.sum(errors)/len(errors)]
    (rot.py:379, 386; [ntotal] counts the appended errors): NaN for no errors. *)
Definition np_mean (l : list num) : num :=
  match l with
  | [] => NaN
  | _ => num_scale (fold_left num_add l (Fin 0%Qc)) (/ qnat (length l))%Qc
  end.

(** A Python float divided by [len(loader)] (rot.py:376, balls.py:421, cc.py:296). *)
Definition py_avg (total : Qc) (n : nat) : result Qc :=
  match n with O => Raise ZeroDivisionError | _ => Ok (total / qnat n)%Qc end.

Section Loop.
  Context {W B O : Type}.

  (** A model object: [training] is the flag of [nn.Module]. *)
  Record net : Type := mkNet { n_weights : W; n_training : bool }.

  (** [nn.Module.train()] (balls.py:364, cc.py:282). *)
  Definition set_train (m : net) : net := mkNet (n_weights m) true.
  (** [nn.Module.eval()] (rot.py:234, 390; balls.py:246; cc.py:300, 327). *)
  Definition set_eval (m : net) : net := mkNet (n_weights m) false.

  (** One pass through the body of the batch loop: forward, loss, backward and
      [optimizer.step()]; returns the new values and the three losses (similarity,
      norm penalty, sum) (rot.py:337-365, balls.py:371-385, cc.py:286-294). *)
  Variable step : bool -> W -> B -> W * (Qc * Qc * Qc).
  (** A forward pass outside training, with what is computed from its output. *)
  Variable infer : bool -> W -> B -> W * O.
  (** The errors of the samples of a batch (rot.py:242-244, balls.py:258-260). *)
  Variable errors_of : O -> list num.
  (** [scheduler.step()] (rot.py:370, balls.py:393, cc.py:416). *)
  Variable sched : W -> W.

  (** The losses added up over an epoch. *)
  Definition add3 (a b : Qc * Qc * Qc) : Qc * Qc * Qc :=
    match a, b with ((x, y), z), ((x', y'), z') => ((x + x')%Qc, (y + y')%Qc, (z + z')%Qc) end.

  (** rot.py:332-368, balls.py:365-391, cc.py:284-294: the loop over the batches
      of one epoch. *)
  Definition run_batches (m : net) (bs : list B) : net * (Qc * Qc * Qc) :=
    fold_left (fun acc b =>
      match acc with
      | (m, l) => let (w, l') := step (n_training m) (n_weights m) b in
                  (mkNet w (n_training m), add3 l l')
      end) bs (m, (0%Qc, 0%Qc, 0%Qc)).

  (** The forward passes over a loader (rot.py:237-245, balls.py:250-262,
      cc.py:304-309); the outputs are collected in order. *)
  Definition run_loader (m : net) (bs : list B) : net * list O :=
    fold_left (fun acc b =>
      match acc with
      | (m, os) => let (w, o) := infer (n_training m) (n_weights m) b in
                   (mkNet w (n_training m), os ++ [o])
      end) bs (m, []).

  (** rot.py:233-246 and balls.py:245-264 [evaluate], cc.py:299-311 [test]: always
      switch to evaluation mode first. *)
  Definition evaluate (m : net) (loader : list B) : net * list O :=
    run_loader (set_eval m) loader.

  (** [scheduler.step()] on the model's side. *)
  Definition sched_step (m : net) : net := mkNet (sched (n_weights m)) (n_training m).

  (** An entry of rot.py's [tracker] (rot.py:381-388). *)
  Record entry : Type := mkEntry {
    e_it : nat; e_losses : Qc * Qc * Qc; e_error : num; e_eval : list O }.

  (** Three averages over [n] batches (rot.py:376-378, 383-385). *)
  Definition avg3 (l : Qc * Qc * Qc) (n : nat) : result (Qc * Qc * Qc) :=
    match l with
    | ((x, y), z) => x' <- py_avg x n ;; y' <- py_avg y n ;; z' <- py_avg z n ;; Ok ((x', y'), z')
    end.

  (** rot.py:330-388, one epoch: no [model.train()]. *)
  Definition rot_epoch (batches : nat -> list B) (testset : list B)
      (st : net * list entry) (it : nat) : result (net * list entry) :=
    match st with
    | (m, tracker) =>
        let (m1, l) := run_batches m (batches it) in
        let m2 := sched_step m1 in
        let (m3, errors) := evaluate m2 testset in
        avg <- avg3 l (length (batches it)) ;;
        Ok (m3, tracker ++ [mkEntry it avg (np_mean (flat_map errors_of errors)) errors])
    end.

  (** rot.py:328-388: the loop over the epochs, with a model as constructed
      (in training mode). *)
  Definition rot_loop (batches : nat -> list B) (testset : list B) (w0 : W) (niters : nat) :
      result (net * list entry) :=
    foldM (rot_epoch batches testset) (seq 0 niters) (mkNet w0 true, []).

  (** rot.py:328-399: after the loop the test set is run once more in evaluation
      mode for the saved images. *)
  Definition rot_main (batches : nat -> list B) (testset : list B) (w0 : W) (niters : nat) :
      result (net * list entry * list O) :=
    '(m, tracker) <- rot_loop batches testset w0 niters ;;
    let (m', images) := run_loader (set_eval m) testset in
    Ok (m', tracker, images).

  (** What balls.py has on disk: the saved model and its errors (balls.py:407-417). *)
  Record saved : Type := mkSaved {
    s_net : net; s_val : num; s_val_out : list O; s_test : num; s_test_out : list O }.

  (** The state of balls.py's epoch loop. *)
  Record balls_state : Type := mkBalls { b_net : net; b_best : option num; b_file : option saved }.

  (** [np.mean(errors)] over the errors of all batches; [torch.cat] of no tensors
      raises (balls.py:264, 398, 399). *)
  Definition error_of (os : list O) : result num :=
    match os with [] => Raise RuntimeError | _ => Ok (np_mean (flat_map errors_of os)) end.

  (** balls.py:362-425, one epoch. *)
  Definition balls_epoch (batches : nat -> list B) (testset valset : list B)
      (st : balls_state) (it : nat) : result balls_state :=
    let m0 := set_train (b_net st) in
    let (m1, l) := run_batches m0 (batches it) in
    let m2 := sched_step m1 in
    let (m3, test_out) := evaluate m2 testset in
    test_error <- error_of test_out ;;
    let (m4, val_out) := evaluate m3 valset in
    val_error <- error_of val_out ;;
    let best := match b_best st with None => val_error | Some b => b end in
    let st' := if num_leb val_error best
               then mkBalls m4 (Some val_error) (Some (mkSaved m4 val_error val_out test_error test_out))
               else mkBalls m4 (Some best) (b_file st) in
    _ <- avg3 l (length (batches it)) ;;
    Ok st'.

  (** balls.py:358-425: the loop over the epochs. *)
  Definition balls_main (batches : nat -> list B) (testset valset : list B) (w0 : W) (niters : nat) :
      result balls_state :=
    foldM (balls_epoch batches testset valset) (seq 0 niters) (mkBalls (mkNet w0 true) None None).

  (** A row of cc.py's [results] with the batch outputs of [test] and the output
      seen by [hook_in] (cc.py:401-415). *)
  Record cc_row : Type := mkRow { r_train_loss : Qc; r_test : list O; r_hook : list O }.

  (** cc.py:281-296 [train]. *)
  Definition cc_train (m : net) (bs : list B) : result (net * Qc) :=
    let (m1, l) := run_batches (set_train m) bs in
    avg <- py_avg (snd l) (length bs) ;;
    Ok (m1, avg).

  (** cc.py:326-337 [hook_in]: one forward pass in evaluation mode on the first
      batch of a fresh iteration. *)
  Definition cc_hook (m : net) (bs : list B) : net * list O :=
    run_loader (set_eval m) (firstn 1 bs).

  (** cc.py:400-419, one epoch; the training loader is iterated twice, so its
      iterations 1+2k and 2+2k belong to epoch k (iteration 0: cc.py:388). *)
  Definition cc_epoch (batches : nat -> list B) (testset : list B)
      (st : net * list cc_row) (k : nat) : result (net * list cc_row) :=
    match st with
    | (m, rows) =>
        '(m1, train_loss) <- cc_train m (batches (1 + 2 * k)%nat) ;;
        let (m2, test_out) := evaluate m1 testset in
        let (m3, hook_out) := cc_hook m2 (batches (2 + 2 * k)%nat) in
        Ok (sched_step m3, rows ++ [mkRow train_loss test_out hook_out])
    end.

  (** cc.py:388-419: a first forward pass in training mode, then the epochs;
      [next] of an empty loader raises [StopIteration], shown as RuntimeError. *)
  Definition cc_main (batches : nat -> list B) (testset : list B) (w0 : W) (niters : nat) :
      result (net * list cc_row) :=
    match batches 0 with
    | [] => Raise RuntimeError
    | b :: _ =>
        let (m, _) := run_loader (mkNet w0 true) [b] in
        foldM (cc_epoch batches testset) (seq 0 niters) (m, [])
    end.
End Loop.

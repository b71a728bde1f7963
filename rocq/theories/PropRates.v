(** Property C136: learning rates. *)
From Coq Require Import List String ZArith QArith Qcanon Bool Reals Lia.
From Verif Require Import Base SchedulerModel FunctionalModel FunctionalSpec FunctionalProofs LoopModel RatesModel RatesSpec RatesProofs RatesProofs3 RatesProofs4 RatesProofs5.
Import ListNotations.
Open Scope list_scope.
Open Scope nat_scope.

(** C136 for rot.py: the training steps of epoch [k] have the rate lr * (1 + cos (pi k / niters)) / 2, and no step of the
    scheduler fails. *)
Theorem C136_rotation : forall (V B O : Type) (train : bool -> R -> V -> B -> V * (Qc * Qc * Qc)) (infer : bool -> V -> B -> V * O) errors_of (n : nat) (lr : R), 0 < n ->
  forall batches testset v m tr, rot_annealed train infer errors_of (Z.of_nat n) lr batches testset v = Ok (m, tr) ->
  exists v', n_weights m = (v', used_rates lr n batches, Ok (Z.of_nat n, 0%R)).
Proof. exact @rot_rates. Qed.
Print Assumptions C136_rotation.

(** C136 for balls.py. *)
Theorem C136_balls : forall (V B O : Type) (train : bool -> R -> V -> B -> V * (Qc * Qc * Qc)) (infer : bool -> V -> B -> V * O) errors_of (n : nat) (lr : R), 0 < n ->
  forall batches testset valset v st, balls_annealed train infer errors_of (Z.of_nat n) lr batches testset valset v = Ok st ->
  exists v', n_weights (b_net st) = (v', used_rates lr n batches, Ok (Z.of_nat n, 0%R)).
Proof. exact @balls_rates. Qed.
Print Assumptions C136_balls.

(** C136 for cc.py; the training loader is iterated twice per epoch, see LoopModel. *)
Theorem C136_circles : forall (V B O : Type) (train : bool -> R -> V -> B -> V * (Qc * Qc * Qc)) (infer : bool -> V -> B -> V * O) (n : nat) (lr : R), 0 < n ->
  forall batches testset v m rows, cc_annealed train infer (Z.of_nat n) lr batches testset v = Ok (m, rows) ->
  exists v', n_weights m = (v', used_rates lr n (fun k => batches (1 + 2 * k)), Ok (Z.of_nat n, 0%R)).
Proof. exact @cc_rates. Qed.
Print Assumptions C136_circles.

(** These rates start with the one given, fall from epoch to epoch, and are positive in all epochs. *)
Theorem C136_falling : forall (lr : R) (n : nat), (0 < lr)%R -> 0 < n ->
  annealed lr n 0 = lr /\ (forall k, k < n -> (0 < annealed lr n k)%R) /\ (forall k k', k < k' <= n -> (annealed lr n k' < annealed lr n k)%R).
Proof. exact (fun lr n L N => conj (annealed_first lr n N) (conj (fun k => annealed_positive lr n k L) (fun k k' => annealed_decreasing lr n k k' L))). Qed.
Print Assumptions C136_falling.

(** C136 for spiral.py asks that how often results are shown does not matter for the rates.  False: the scheduler is stepped
    after every evaluation, also those which come with a figure. *)
Theorem C136_display_refuted : exists viz viz' log log' loss, spiral_main (options 20 100 viz false false false false false (-1) false false) = Ok log /\
  spiral_main (options 20 100 viz' false false false false false (-1) false false) = Ok log' /\
  rates spiral_factor loss (new_plateau (Q2Qc (1 # 10))) log <> rates spiral_factor loss (new_plateau (Q2Qc (1 # 10))) log'.
Proof.
  exists 100%Z, 1%Z. eexists. eexists. exists (fun _ => Fin 1%Qc). split; [vm_compute; reflexivity|]. split; [vm_compute; reflexivity|].
  intros H. apply (f_equal (fun l => existsb (fun x => negb (Qeq_bool (this (snd x)) (1 # 10))) l)) in H. vm_compute in H. discriminate H.
Qed.
Print Assumptions C136_display_refuted.

(** True of simple_functional_mapping_example.py: only the frequency of tests, the number of epochs and the batch size count. *)
Theorem C136_display_partial : forall a a' log log' p loss, sfm_main a = Ok log -> sfm_main a' = Ok log' ->
  a_test_freq a = a_test_freq a' -> a_niters a = a_niters a' -> a_batch_size a = a_batch_size a' ->
  rates mapping_factor loss p log = rates mapping_factor loss p log'.
Proof. exact mapping_frequency. Qed.
Print Assumptions C136_display_partial.

(** Whatever the losses: the rate of a training step in epoch [k] is the given one times a power of the factor, and eleven
    evaluations before epoch [k] are needed for each reduction; one more if the first loss is a number. *)
Theorem C136_spiral_bound : forall a log lr loss k r es, spiral_main a = Ok log -> (0 <= lr)%Qc ->
  In (k, r) (rates spiral_factor loss (new_plateau lr) log) -> epochs_before (due a) k es ->
  exists j, r = (lr * Q2Qc (1 # 10) ^ j)%Qc /\ 11 * j <= List.length es /\ (forall q, loss 0%Z = Fin q -> 11 * j <= List.length es - 1).
Proof. exact spiral_bound. Qed.
Print Assumptions C136_spiral_bound.
Theorem C136_mapping_bound : forall a log lr loss k r es, sfm_main a = Ok log -> (0 <= lr)%Qc ->
  In (k, r) (rates mapping_factor loss (new_plateau lr) log) -> epochs_before (fun i => (a_test_freq a | i)%Z) k es ->
  exists j, r = (lr * Q2Qc (1 # 2) ^ j)%Qc /\ 11 * j <= List.length es /\ (forall q, loss 0%Z = Fin q -> 11 * j <= List.length es - 1).
Proof. exact mapping_bound. Qed.
Print Assumptions C136_mapping_bound.

(** While every evaluated loss is more than a ten-thousandth below all earlier ones, the rate stays. *)
Theorem C136_spiral_improving : forall a log lr loss k r value, spiral_main a = Ok log ->
  In (k, r) (rates spiral_factor loss (new_plateau lr) log) ->
  (forall i, (0 <= i)%Z -> due a i -> loss i = Fin (value i)) ->
  (forall i j, (0 <= i < j)%Z -> due a i -> due a j -> (value j < value i * (1 - Q2Qc (1 # 10000)))%Qc) -> r = lr.
Proof. exact spiral_improving. Qed.
Print Assumptions C136_spiral_improving.
Theorem C136_mapping_improving : forall a log lr loss k r value, sfm_main a = Ok log ->
  In (k, r) (rates mapping_factor loss (new_plateau lr) log) ->
  (forall i, (0 <= i)%Z -> (a_test_freq a | i)%Z -> loss i = Fin (value i)) ->
  (forall i j, (0 <= i < j)%Z -> (a_test_freq a | i)%Z -> (a_test_freq a | j)%Z -> (value j < value i * (1 - Q2Qc (1 # 10000)))%Qc) -> r = lr.
Proof. exact mapping_improving. Qed.
Print Assumptions C136_mapping_improving.

(** An improvement starts the count anew: with one among any eleven evaluations in a row the rate stays, however many of the
    others are not better. *)
Theorem C136_spiral_often : forall a log lr loss k r es value, spiral_main a = Ok log ->
  In (k, r) (rates spiral_factor loss (new_plateau lr) log) -> epochs_before (due a) k es ->
  (forall i, In i es -> loss i = Fin (value i)) -> often_improving value es -> r = lr.
Proof. exact spiral_often. Qed.
Print Assumptions C136_spiral_often.
Theorem C136_mapping_often : forall a log lr loss k r es value, sfm_main a = Ok log ->
  In (k, r) (rates mapping_factor loss (new_plateau lr) log) -> epochs_before (fun i => (a_test_freq a | i)%Z) k es ->
  (forall i, In i es -> loss i = Fin (value i)) -> often_improving value es -> r = lr.
Proof. exact mapping_often. Qed.
Print Assumptions C136_mapping_often.

(** Thirteen evaluations before the last epoch, of which the first and the sixth are improvements and eleven are not. *)
Example C136_case_often : exists log,
  spiral_main (options 13 1 1 false false false false false (-1) false false) = Ok log /\
  epochs_before (due (options 13 1 1 false false false false false (-1) false false)) 13 [0; 1; 2; 3; 4; 5; 6; 7; 8; 9; 10; 11; 12]%Z /\
  often_improving (fun i => if (i <? 5)%Z then Q2Qc 1 else Q2Qc (1 # 2)) [0; 1; 2; 3; 4; 5; 6; 7; 8; 9; 10; 11; 12]%Z /\
  last (map (fun x => (fst x, this (snd x))) (rates spiral_factor (fun i => Fin (if (i <? 5)%Z then Q2Qc 1 else Q2Qc (1 # 2))) (new_plateau (Q2Qc (1 # 10))) log)) (0%Z, 0%Q) = (13%Z, 1 # 10)%Q.
Proof.
  eexists. split; [vm_compute; reflexivity|]. split.
  - split.
    + repeat (constructor; [|repeat constructor]). constructor.
    + intros j. cbn [In]. split.
      * intros H. split; [lia|]. left. exists j. cbn. lia.
      * intros [H _]. lia.
  - split; [exact sixth_often|vm_compute; reflexivity].
Qed.

(** If the loss never gets more than a ten-thousandth below the first one, the rate is reduced with every eleventh evaluation
    after the first, as long as the reduction is more than 1e-8. *)
Theorem C136_spiral_stagnating : forall a log lr loss k r es value, spiral_main a = Ok log -> (0 <= lr)%Qc ->
  In (k, r) (rates spiral_factor loss (new_plateau lr) log) -> epochs_before (due a) k es ->
  (forall i, (0 <= i)%Z -> due a i -> loss i = Fin (value i)) ->
  (forall i, (0 < i)%Z -> due a i -> (value 0%Z * (1 - Q2Qc (1 # 10000)) <= value i)%Qc) ->
  (forall i, i < (List.length es - 1) / 11 -> (Q2Qc (1 # 100000000) < lr * Q2Qc (1 # 10) ^ i - lr * Q2Qc (1 # 10) ^ (S i))%Qc) ->
  r = (lr * Q2Qc (1 # 10) ^ ((List.length es - 1) / 11))%Qc.
Proof. exact spiral_stagnating. Qed.
Print Assumptions C136_spiral_stagnating.
Theorem C136_mapping_stagnating : forall a log lr loss k r es value, sfm_main a = Ok log -> (0 <= lr)%Qc ->
  In (k, r) (rates mapping_factor loss (new_plateau lr) log) -> epochs_before (fun i => (a_test_freq a | i)%Z) k es ->
  (forall i, (0 <= i)%Z -> (a_test_freq a | i)%Z -> loss i = Fin (value i)) ->
  (forall i, (0 < i)%Z -> (a_test_freq a | i)%Z -> (value 0%Z * (1 - Q2Qc (1 # 10000)) <= value i)%Qc) ->
  (forall i, i < (List.length es - 1) / 11 -> (Q2Qc (1 # 100000000) < lr * Q2Qc (1 # 2) ^ i - lr * Q2Qc (1 # 2) ^ (S i))%Qc) ->
  r = (lr * Q2Qc (1 # 2) ^ ((List.length es - 1) / 11))%Qc.
Proof. exact mapping_stagnating. Qed.
Print Assumptions C136_mapping_stagnating.

(** Thirteen evaluations: with a constant loss the last epoch has a tenth of the rate, with losses halved each time the full one. *)
Example C136_case_plateau : exists log,
  spiral_main (options 12 1 1 false false false false false (-1) false false) = Ok log /\
  epochs_before (due (options 12 1 1 false false false false false (-1) false false)) 12 [0; 1; 2; 3; 4; 5; 6; 7; 8; 9; 10; 11]%Z /\
  last (map (fun x => this (snd x)) (rates spiral_factor (fun _ => Fin 1%Qc) (new_plateau (Q2Qc (1 # 10))) log)) 0%Q = (1 # 100)%Q /\
  last (map (fun x => this (snd x)) (rates spiral_factor (fun i => Fin (Q2Qc (Qpower (1 # 2) i))) (new_plateau (Q2Qc (1 # 10))) log)) 0%Q = (1 # 10)%Q.
Proof.
  eexists. split; [vm_compute; reflexivity|]. split.
  - split.
    + repeat (constructor; [|repeat constructor]). constructor.
    + intros j. cbn [In]. split.
      * intros H. split; [lia|]. left. exists j. cbn. lia.
      * intros [H _]. lia.
  - split; vm_compute; reflexivity.
Qed.

(** Two epochs of one batch each in rot.py: the full rate, then half of it. *)
Example C136_case_cosine : exists m tr, rot_annealed (V := nat) (B := unit) (O := unit) (fun _ _ v _ => (S v, (0%Qc, 0%Qc, 0%Qc))) (fun _ v _ => (v, tt)) (fun _ => [])
    2 (1 / 10) (fun _ => [tt]) [tt] 0 = Ok (m, tr) /\ used_rates (1 / 10) 2 (fun _ : nat => [tt]) = [1 / 10; 1 / 20]%R.
Proof.
  assert (U : used_rates (1 / 10) 2 (fun _ : nat => [tt]) = [1 / 10; 1 / 20]%R).
  { unfold used_rates. cbn [seq flat_map repeat List.length app]. rewrite annealed_first by lia. unfold annealed.
    replace (PI * INR 1 / INR 2)%R with (PI / 2)%R by (cbn [INR]; field). rewrite cos_PI2. apply f_equal. apply f_equal2; [field|reflexivity]. }
  cut (exists x, rot_annealed (V := nat) (B := unit) (O := unit) (fun _ _ v _ => (S v, (0%Qc, 0%Qc, 0%Qc))) (fun _ v _ => (v, tt)) (fun _ => [])
    2 (1 / 10) (fun _ => [tt]) [tt] 0 = Ok x); [intros [[m tr] H]; exists m, tr; split; assumption|].
  unfold rot_annealed, rot_loop. change (Z.to_nat 2) with 2. cbn. destruct (Req_EM_T (1 + cos (PI * 0 / 2)) 0); cbn; eexists; reflexivity.
Qed.

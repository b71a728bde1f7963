(** Learning rates with cosine annealing. *)
From Coq Require Import List String ZArith QArith Qcanon Bool Lia Reals Lra.
From Verif Require Import Base SchedulerModel LoopModel RatesModel RatesSpec.
Import ListNotations.
Open Scope list_scope.
Open Scope R_scope.

Lemma angle n k : (k <= n)%nat -> (0 < n)%nat -> 0 <= PI * INR k / INR n <= PI.
Proof.
  intros K N. apply le_INR in K. apply lt_INR in N. cbn [INR] in N. pose proof PI_RGT_0. pose proof (pos_INR k). split.
  - apply Rmult_le_pos; [apply Rmult_le_pos; lra|]. left. apply Rinv_0_lt_compat. lra.
  - apply (Rmult_le_reg_r (INR n)); [lra|]. unfold Rdiv. rewrite Rmult_assoc, Rinv_l, Rmult_1_r by lra. apply Rmult_le_compat_l; lra.
Qed.
Lemma angle_lt n k k' : (k < k')%nat -> (0 < n)%nat -> PI * INR k / INR n < PI * INR k' / INR n.
Proof.
  intros K N. apply lt_INR in K. apply lt_INR in N. cbn [INR] in N. pose proof PI_RGT_0. unfold Rdiv.
  apply Rmult_lt_compat_r; [apply Rinv_0_lt_compat; lra|]. apply Rmult_lt_compat_l; lra.
Qed.
Lemma angle_end n : (0 < n)%nat -> PI * INR n / INR n = PI.
Proof. intros N. apply lt_INR in N. cbn [INR] in N. field. lra. Qed.

Lemma cos_above n k : (k < n)%nat -> 0 < 1 + cos (PI * INR k / INR n).
Proof.
  intros K. assert (N : (0 < n)%nat) by lia. pose proof (angle_lt n k n K N) as L. rewrite angle_end in L by exact N.
  destruct (angle n k ltac:(lia) N) as [A _]. pose proof (cos_decreasing_1 _ PI A ltac:(lra) ltac:(pose proof PI_RGT_0; lra) ltac:(lra) L) as C.
  rewrite cos_PI in C. lra.
Qed.

Lemma annealed_positive lr n k : 0 < lr -> (k < n)%nat -> 0 < annealed lr n k.
Proof. intros L K. pose proof (cos_above n k K). unfold annealed. apply Rmult_lt_0_compat; [|lra]. apply Rmult_lt_0_compat; assumption. Qed.
Lemma annealed_decreasing lr n k k' : 0 < lr -> (k < k' <= n)%nat -> annealed lr n k' < annealed lr n k.
Proof.
  intros L K. assert (N : (0 < n)%nat) by lia. destruct (angle n k ltac:(lia) N) as [A1 A2]. destruct (angle n k' ltac:(lia) N) as [B1 B2].
  pose proof (cos_decreasing_1 _ _ A1 A2 B1 B2 (angle_lt n k k' ltac:(lia) N)) as C. unfold annealed.
  apply Rmult_lt_compat_r; [lra|]. apply Rmult_lt_compat_l; lra.
Qed.
Lemma annealed_first lr n : (0 < n)%nat -> annealed lr n 0 = lr.
Proof. intros N. unfold annealed. cbn [INR]. unfold Rdiv at 2. rewrite Rmult_0_r, Rmult_0_l, cos_0. field. Qed.
Lemma annealed_last lr n : (0 < n)%nat -> annealed lr n n = 0.
Proof. intros N. unfold annealed. rewrite angle_end by exact N. rewrite cos_PI. field. Qed.

Lemma anneal_step lr n k : (k < n)%nat ->
  anneal (Z.of_nat n) lr (Z.of_nat k, annealed lr n k) = Ok (Z.of_nat (S k), annealed lr n (S k)).
Proof.
  intros K. unfold anneal. cbn [fst snd]. destruct (Z.eqb_spec (Z.of_nat k + 1) 0) as [E|_]; [lia|]. destruct (Z.eqb_spec (Z.of_nat n) 0) as [E|_]; [lia|].
  replace (Z.of_nat k + 1 - 1 - Z.of_nat n)%Z with ((Z.of_nat k + Z.of_nat n) + (-1) * (2 * Z.of_nat n))%Z by lia.
  rewrite Z.mod_add, Z.mod_small by lia. destruct (Z.eqb_spec (Z.of_nat k + Z.of_nat n) 0) as [E|_]; [lia|].
  replace (Z.of_nat k + 1 - 1)%Z with (Z.of_nat k) by lia. replace (Z.of_nat k + 1)%Z with (Z.of_nat (S k)) by lia. rewrite <- !INR_IZR_INZ.
  pose proof (cos_above n k K) as C. destruct (Req_EM_T _ 0) as [E|_]; [lra|]. unfold annealed. apply f_equal. apply f_equal2; [reflexivity|]. field. lra.
Qed.

Section Loops.
Context {V B O : Type}.
Variable train : bool -> R -> V -> B -> V * (Qc * Qc * Qc).
Variable infer : bool -> V -> B -> V * O.
Variable errors_of : O -> list num.
Variable n : nat.
Variable lr : R.
Hypothesis N : (0 < n)%nat.
Notation tstep := (train_step train).
Notation istep := (infer_step infer).
Notation sched := (sched_world (Z.of_nat n) lr).

(** Weights, with the rates used and the scheduler. *)
Definition at_ (k : nat) (used : list R) (m : net (W := @world V)) : Prop := exists v, n_weights m = (v, used, Ok (Z.of_nat k, annealed lr n k)).

Lemma batches_at k bs : forall m used l, at_ k used m -> exists m' l',
  fold_left (fun acc b => match acc with (m, l) => let (w, l') := tstep (n_training m) (n_weights m) b in (mkNet w (n_training m), add3 l l') end) bs (m, l) = (m', l') /\
  at_ k (used ++ repeat (annealed lr n k) (List.length bs)) m'.
Proof.
  induction bs as [|b bs IH]; intros m used l [v A].
  - exists m, l. split; [reflexivity|]. cbn [List.length repeat]. rewrite app_nil_r. exists v. exact A.
  - cbn [fold_left]. rewrite A. cbn [train_step]. destruct (train (n_training m) (annealed lr n k) v b) as [v' l1].
    destruct (IH (mkNet (v', used ++ [annealed lr n k], Ok (Z.of_nat k, annealed lr n k)) (n_training m)) (used ++ [annealed lr n k]) (add3 l l1)) as (m' & l' & E & A').
    + exists v'. reflexivity.
    + exists m', l'. split; [exact E|]. rewrite <- app_assoc in A'. exact A'.
Qed.
Lemma run_batches_at k bs m used : at_ k used m -> exists m' l, run_batches tstep m bs = (m', l) /\ at_ k (used ++ repeat (annealed lr n k) (List.length bs)) m'.
Proof. apply batches_at. Qed.

Lemma loader_at k bs : forall m used l, at_ k used m -> exists m' os,
  fold_left (fun acc b => match acc with (m, os) => let (w, o) := istep (n_training m) (n_weights m) b in (mkNet w (n_training m), os ++ [o]) end) bs (m, l) = (m', os) /\
  at_ k used m'.
Proof.
  induction bs as [|b bs IH]; intros m used os [v A]; [exists m, os; split; [reflexivity|]; exists v; exact A|].
  cbn [fold_left]. rewrite A. cbn [infer_step]. destruct (infer (n_training m) v b) as [v' o]. apply IH. exists v'. reflexivity.
Qed.
Lemma run_loader_at k bs m used : at_ k used m -> exists m' os, run_loader istep m bs = (m', os) /\ at_ k used m'.
Proof. apply loader_at. Qed.
Lemma evaluate_at k bs m used : at_ k used m -> exists m' os, evaluate istep m bs = (m', os) /\ at_ k used m'.
Proof. intros [v A]. apply run_loader_at. exists v. exact A. Qed.
Lemma train_at k m used : at_ k used m -> at_ k used (set_train m).
Proof. intros [v A]. exists v. exact A. Qed.
Lemma sched_at k m used : (k < n)%nat -> at_ k used m -> at_ (S k) used (sched_step sched m).
Proof. intros K [v A]. exists v. cbn [sched_step n_weights]. rewrite A. cbn [sched_world bind]. rewrite anneal_step by exact K. reflexivity. Qed.

(** Rates of the epochs before [k]. *)
Definition so_far (batches : nat -> list B) (k : nat) : list R :=
  flat_map (fun k => repeat (annealed lr n k) (List.length (batches k))) (seq 0 k).
Lemma so_far_S batches k : so_far batches (S k) = so_far batches k ++ repeat (annealed lr n k) (List.length (batches k)).
Proof. unfold so_far. rewrite seq_S, flat_map_app. cbn [flat_map]. rewrite app_nil_r. reflexivity. Qed.

Lemma start_at v flag : at_ 0 [] (mkNet (world0 lr v) flag).
Proof. exists v. cbn [n_weights world0]. rewrite annealed_first by exact N. reflexivity. Qed.

Lemma rot_at batches testset : forall m k st st', (k + m <= n)%nat -> at_ k (so_far batches k) (fst st) ->
  foldM (rot_epoch tstep istep errors_of sched batches testset) (seq k m) st = Ok st' -> at_ (k + m) (so_far batches (k + m)) (fst st').
Proof.
  induction m as [|m IH]; intros k [t tr] st' K A E; cbn [seq foldM] in E.
  - injection E as <-. rewrite Nat.add_0_r. exact A.
  - cbn [fst] in A. unfold rot_epoch at 1 in E. destruct (run_batches_at k (batches k) t _ A) as (m1 & l & E1 & A1). rewrite E1 in E.
    apply sched_at in A1; [|lia]. destruct (evaluate_at (S k) testset _ _ A1) as (m3 & os & E3 & A3). rewrite E3 in E.
    destruct (avg3 l (List.length (batches k))) as [avg|x]; [|discriminate E]. cbn [bind] in E.
    apply IH in E; [|lia|cbn [fst]; rewrite so_far_S; exact A3]. replace (k + S m)%nat with (S k + m)%nat by lia. exact E.
Qed.

Lemma rot_rates batches testset v m tr : rot_annealed train infer errors_of (Z.of_nat n) lr batches testset v = Ok (m, tr) ->
  exists v', n_weights m = (v', used_rates lr n batches, Ok (Z.of_nat n, 0)).
Proof.
  unfold rot_annealed, rot_loop. rewrite Nat2Z.id. intros E. apply (rot_at batches testset n 0) in E; [|lia|apply start_at].
  cbn [fst Nat.add] in E. destruct E as [v' E]. exists v'. rewrite E, annealed_last by exact N. reflexivity.
Qed.

Lemma balls_at batches testset valset : forall m k st st', (k + m <= n)%nat -> at_ k (so_far batches k) (b_net st) ->
  foldM (balls_epoch tstep istep errors_of sched batches testset valset) (seq k m) st = Ok st' -> at_ (k + m) (so_far batches (k + m)) (b_net st').
Proof.
  induction m as [|m IH]; intros k st st' K A E; cbn [seq foldM] in E.
  - injection E as <-. rewrite Nat.add_0_r. exact A.
  - unfold balls_epoch at 1 in E. apply train_at in A. destruct (run_batches_at k (batches k) _ _ A) as (m1 & l & E1 & A1). cbv zeta in E. rewrite E1 in E.
    apply sched_at in A1; [|lia]. destruct (evaluate_at (S k) testset _ _ A1) as (m3 & os & E3 & A3). rewrite E3 in E.
    destruct (error_of errors_of os) as [te|x]; [|discriminate E]. cbn [bind] in E.
    destruct (evaluate_at (S k) valset _ _ A3) as (m4 & os' & E4 & A4). rewrite E4 in E.
    destruct (error_of errors_of os') as [ve|x]; [|discriminate E]. cbn [bind] in E.
    destruct (avg3 l (List.length (batches k))) as [avg|x]; [|discriminate E]. cbn [bind] in E.
    apply IH in E; [replace (k + S m)%nat with (S k + m)%nat by lia; exact E|lia|]. rewrite so_far_S.
    destruct (num_leb _ _); exact A4.
Qed.

Lemma balls_rates batches testset valset v st : balls_annealed train infer errors_of (Z.of_nat n) lr batches testset valset v = Ok st ->
  exists v', n_weights (b_net st) = (v', used_rates lr n batches, Ok (Z.of_nat n, 0)).
Proof.
  unfold balls_annealed, balls_main. rewrite Nat2Z.id. intros E. apply (balls_at batches testset valset n 0) in E; [|lia|apply start_at].
  cbn [Nat.add] in E. destruct E as [v' E]. exists v'. rewrite E, annealed_last by exact N. reflexivity.
Qed.

Lemma cc_at batches testset : forall m k st st', (k + m <= n)%nat -> at_ k (so_far (fun k => batches (1 + 2 * k)%nat) k) (fst st) ->
  foldM (cc_epoch tstep istep sched batches testset) (seq k m) st = Ok st' -> at_ (k + m) (so_far (fun k => batches (1 + 2 * k)%nat) (k + m)) (fst st').
Proof.
  induction m as [|m IH]; intros k [t tr] st' K A E; cbn [seq foldM] in E.
  - injection E as <-. rewrite Nat.add_0_r. exact A.
  - cbn [fst] in A. unfold cc_epoch at 1, cc_train in E. apply train_at in A.
    destruct (run_batches_at k (batches (1 + 2 * k)%nat) _ _ A) as (m1 & l & E1 & A1). rewrite E1 in E.
    destruct (py_avg (snd l) (List.length (batches (1 + 2 * k)%nat))) as [avg|x]; [|discriminate E]. cbn [bind] in E.
    destruct (evaluate_at k testset _ _ A1) as (m2 & os & E2 & A2). rewrite E2 in E.
    unfold cc_hook in E. destruct (run_loader_at k (firstn 1 (batches (2 + 2 * k)%nat)) (set_eval m2) _ ltac:(destruct A2 as [v2 A2]; exists v2; exact A2)) as (m3 & os' & E3 & A3).
    rewrite E3 in E. cbn [bind] in E. apply sched_at in A3; [|lia].
    apply IH in E; [|lia|cbn [fst]; rewrite so_far_S; exact A3]. replace (k + S m)%nat with (S k + m)%nat by lia. exact E.
Qed.

Lemma cc_rates batches testset v m rows : cc_annealed train infer (Z.of_nat n) lr batches testset v = Ok (m, rows) ->
  exists v', n_weights m = (v', used_rates lr n (fun k => batches (1 + 2 * k)%nat), Ok (Z.of_nat n, 0)).
Proof.
  unfold cc_annealed, cc_main. rewrite Nat2Z.id. destruct (batches 0%nat) as [|b bs]; [discriminate|].
  destruct (run_loader_at 0 [b] _ _ (start_at v true)) as (m0 & os & E0 & A0). rewrite E0. intros E.
  apply (cc_at batches testset n 0) in E; [|lia|exact A0].
  cbn [fst Nat.add] in E. destruct E as [v' E]. exists v'. rewrite E, annealed_last by exact N. reflexivity.
Qed.
End Loops.

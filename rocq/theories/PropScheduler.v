(** Properties of the learning rate scheduler: C47-C51, C68. *)
From Coq Require Import List String ZArith QArith Qcanon Bool Lia.
From Verif Require Import Base SchedulerModel SchedulerSpec SchedulerProofs SchedulerProofs2 SchedulerProofs3.
Import ListNotations.
Open Scope string_scope.
Open Scope list_scope.

(** ** A scheduler used in the examples: two groups, factor 1/10, patience 2,
    cooldown 1, minimum 1/1000. *)
Definition ex_sched : sched :=
  match new_sched 2 "min" (Q2Qc (1#10)) 2 (Q2Qc (1#10000)) "rel" 1 (MinScalar (Q2Qc (1#1000))) (Q2Qc (1#100000000)) with
  | Ok s => s
  | Raise _ => mkSched 0 [] 0 0 0 "" 0 "" NaN 0 NaN (mkCmp "" "" 0) 0 0 false None
  end.
Definition ex_lrs : list Qc := [Q2Qc 1; Q2Qc (1#5)].
Definition const (q : Q) (n : nat) : list (num * option Z) := repeat (Fin (Q2Qc q), None) n.

Example ex_sched_exists :
  new_sched 2 "min" (Q2Qc (1#10)) 2 (Q2Qc (1#10000)) "rel" 1 (MinScalar (Q2Qc (1#1000))) (Q2Qc (1#100000000))
  = Ok ex_sched.
Proof. reflexivity. Qed.

(** ** C47 *)
Theorem C47_nonincreasing : forall ms sl,
  (0 <= s_eps (fst sl))%Qc -> all_le (snd (after ms sl)) (snd sl).
Proof. exact steps_nonincreasing. Qed.
Print Assumptions C47_nonincreasing.

Theorem C47_above_minimum : forall ms sl k mn,
  nth_error (s_min_lrs (fst sl)) k = Some mn ->
  (forall lr, nth_error (snd sl) k = Some lr -> (mn <= lr)%Qc) ->
  forall lr, nth_error (snd (after ms sl)) k = Some lr -> (mn <= lr)%Qc.
Proof. exact steps_above_minimum. Qed.
Print Assumptions C47_above_minimum.

(** Steps of a newly made scheduler on an optimizer with the same number of
    groups never raise. *)
Theorem C47_steps_do_not_raise : forall ms sl,
  List.length (snd sl) = List.length (s_min_lrs (fst sl)) ->
  exists sl', steps ms sl = (sl', Ok tt) /\ List.length (snd sl') = List.length (s_min_lrs (fst sl')).
Proof. exact steps_ok. Qed.
Print Assumptions C47_steps_do_not_raise.

Example C47_example :
  (0 <= s_eps ex_sched)%Qc /\ List.length ex_lrs = List.length (s_min_lrs ex_sched) /\
  map this (snd (after (const 3 4) (ex_sched, ex_lrs))) = [1#10; 1#50]%Q /\
  map this (snd (after (const 3 100) (ex_sched, ex_lrs))) = [1#1000; 1#1000]%Q.
Proof. split; [discriminate|]. split; [reflexivity|]. split; vm_compute; reflexivity. Qed.

(** ** C48.  [ms] is any history of a new scheduler, [m] the next step. *)
Theorem C48_only_after_patience :
  forall n mode f p th tm cd mn eps s0 l0 ms m sl,
  new_sched n mode f p th tm cd mn eps = Ok s0 -> (0 <= p)%Z ->
  steps ms (s0, l0) = (sl, Ok tt) ->
  snd (fst (step (fst m) (snd m) sl)) <> snd sl ->
  exists pre w, ms ++ [m] = pre ++ w /\ (p < Z.of_nat (List.length w))%Z /\
    bad_epochs mode tm th w (run_all pre (s0, l0)).
Proof. exact reduced_after_bad_epochs. Qed.
Print Assumptions C48_only_after_patience.

Theorem C48_reductions_far_apart :
  forall n mode f p th tm cd mn eps s0 l0 ms m1 mid m2 sl sl1 sl2,
  new_sched n mode f p th tm cd mn eps = Ok s0 -> (0 <= p)%Z -> (0 <= cd)%Z ->
  steps ms (s0, l0) = (sl, Ok tt) ->
  step (fst m1) (snd m1) sl = (sl1, Ok tt) -> snd sl1 <> snd sl ->
  steps mid sl1 = (sl2, Ok tt) ->
  snd (fst (step (fst m2) (snd m2) sl2)) <> snd sl2 ->
  (cd + p + 1 <= Z.of_nat (List.length (mid ++ [m2])))%Z.
Proof.
  intros n mode f p th tm cd mn eps s0 l0 ms m1 mid m2 sl sl1 sl2 E Hp Hc H1 H2 D1 H3 D2.
  destruct (new_sched_facts _ _ _ _ _ _ _ _ _ _ E) as (B & C & P & K & _). rewrite <- P, <- K in *.
  pose proof (changes_far_apart _ _ _ _ _ _ _ _ _ B C Hp Hc H1 H2 D1 H3 D2). rewrite app_length. simpl. lia.
Qed.
Print Assumptions C48_reductions_far_apart.

(** The four cases of a step: an improvement, a step in cooldown, a bad epoch
    within the patience, and one beyond it. *)
Theorem C48_step_cases :
  forall n mode f p th tm cd mn eps s0 l0 ms m e s l,
  new_sched n mode f p th tm cd mn eps = Ok s0 -> (0 <= p)%Z -> steps ms (s0, l0) = ((s, l), Ok tt) ->
  (improvement mode tm th m (s_best s) ->
     exists s', step m e (s, l) = ((s', l), Ok tt) /\ s_best s' = m /\ s_bad s' = 0%Z) /\
  (~ improvement mode tm th m (s_best s) -> (0 < s_cooldown_counter s)%Z ->
     exists s', step m e (s, l) = ((s', l), Ok tt) /\ s_best s' = s_best s /\ s_bad s' = 0%Z /\
       s_cooldown_counter s' = (s_cooldown_counter s - 1)%Z) /\
  (~ improvement mode tm th m (s_best s) -> (s_cooldown_counter s <= 0)%Z -> (s_bad s < p)%Z ->
     exists s', step m e (s, l) = ((s', l), Ok tt) /\ s_best s' = s_best s /\ s_bad s' = (s_bad s + 1)%Z) /\
  (~ improvement mode tm th m (s_best s) -> (s_cooldown_counter s <= 0)%Z -> (p <= s_bad s)%Z ->
     forall sl', step m e (s, l) = (sl', Ok tt) ->
       s_bad (fst sl') = 0%Z /\ s_cooldown_counter (fst sl') = cd).
Proof. exact step_cases. Qed.
Print Assumptions C48_step_cases.

(** Steps 4 and 8 reduce: after the first reduction there are one cooldown epoch
    (which becomes the new best) and patience+1 bad epochs. *)
Example C48_example :
  let sl n := after (const 3 n) (ex_sched, ex_lrs) in
  map (fun n => map this (snd (sl n))) [3; 4; 7; 8]%nat
  = [[1; 1#5]; [1#10; 1#50]; [1#10; 1#50]; [1#100; 1#500]]%Q /\
  map (fun n => s_bad (fst (sl n))) [1; 2; 3; 4]%nat = [0; 1; 2; 0]%Z /\
  improvement "min" "rel" (Q2Qc (1#10000)) (Fin (Q2Qc 3)) PInf /\
  improvement "max" "abs" (Q2Qc (1#10)) (Fin (Q2Qc 3)) (Fin (Q2Qc 2)) /\
  ~ improvement "max" "abs" (Q2Qc 2) (Fin (Q2Qc 3)) (Fin (Q2Qc 2)).
Proof.
  cbv zeta. split; [vm_compute; reflexivity|]. split; [vm_compute; reflexivity|].
  split; [apply better_improves; auto; reflexivity|]. split; [apply better_improves; auto; reflexivity|].
  apply not_better; auto.
Qed.

(** ** C49 *)
Theorem C49_sticky : forall ms sl,
  has_convergence_been_reached (fst sl) = true -> has_convergence_been_reached (fst (after ms sl)) = true.
Proof. exact steps_converged. Qed.
Print Assumptions C49_sticky.

Theorem C49_set_only_when_exhausted : forall m e sl,
  has_convergence_been_reached (fst sl) = false ->
  has_convergence_been_reached (fst (fst (step m e sl))) = true ->
  exists k old mn new, nth_error (snd sl) k = Some old /\ nth_error (s_min_lrs (fst sl)) k = Some mn /\
    reduced (s_factor (fst sl)) old mn new /\ (old - new <= s_eps (fst sl))%Qc.
Proof. exact converged_reason. Qed.
Print Assumptions C49_set_only_when_exhausted.

Example C49_example :
  map (fun n => has_convergence_been_reached (fst (after (const 3 n) (ex_sched, ex_lrs)))) [15; 16; 40]%nat
  = [false; true; true].
Proof. vm_compute. reflexivity. Qed.

(** ** C50 *)
Theorem C50_restore : forall n mode f p th tm cd mn eps s0 l0 hist s l other ms,
  new_sched n mode f p th tm cd mn eps = Ok s0 -> after hist (s0, l0) = (s, l) ->
  exists s1, load_state_dict (state_dict s) other = (s1, Ok tt) /\
    observable (after ms (s1, l)) = observable (after ms (s, l)) /\
    snd (steps ms (s1, l)) = snd (steps ms (s, l)).
Proof. exact restored_behaves. Qed.
Print Assumptions C50_restore.

(** Restored into a scheduler that was configured quite differently. *)
Example C50_example :
  exists other, new_sched 2 "max" (Q2Qc (1#2)) 7 0 "abs" 0 (MinScalar 0) 0 = Ok other /\
  let '(s, l) := after (const 3 6) (ex_sched, ex_lrs) in
  map this (snd (after (const 3 2) (fst (load_state_dict (state_dict s) other), l))) = [1#100; 1#500]%Q /\
  map this (snd (after (const 3 2) (other, l))) = [1#10; 1#50]%Q.
Proof. eexists. split; [reflexivity|]. vm_compute. split; reflexivity. Qed.

(** ** C51.  False for negative metrics: [best * (1 - threshold)] is then larger
    than [best], so a constant negative metric is an improvement in every epoch
    and the learning rate is never reduced. *)
Theorem C51_constant_is_bad_refuted :
  exists s0 l0, new_sched 1 "min" (Q2Qc (1#10)) 10 (Q2Qc (1#10000)) "rel" 0 (MinScalar 0)
                  (Q2Qc (1#100000000)) = Ok s0 /\
  forall n, let sl := after (repeat (Fin (Q2Qc (-1)), None) n) (s0, l0) in
    snd sl = l0 /\ has_convergence_been_reached (fst sl) = false.
Proof.
  eexists _, [Q2Qc 1]. split; [reflexivity|]. intro n. cbv zeta.
  match goal with |- context [after ?ms (?s, ?l)] =>
    apply (negative_never_reduced (Q2Qc (1#10000)) (Q2Qc (-1)) ms s l) end.
  - reflexivity.
  - reflexivity.
  - reflexivity.
  - left. split; reflexivity.
  - discriminate.
  - reflexivity.
  - apply Forall_forall. intros m H. apply repeat_spec in H. subst. reflexivity.
Qed.
Print Assumptions C51_constant_is_bad_refuted.

(** True for non-negative metrics: the first [patience]+1 epochs change nothing,
    the next one reduces every group's learning rate or reports convergence. *)
Theorem C51_constant_is_bad_partial :
  forall n f p t cd mn eps a s l ms e,
  (0 <= t)%Qc -> (t < 1)%Qc -> (0 <= a)%Qc -> (0 <= p)%Z -> (0 <= cd)%Z ->
  new_sched n "min" f p t "rel" cd mn eps = Ok s -> List.length l = n ->
  Forall (fun m => fst m = Fin a) ms -> Z.of_nat (List.length ms) = (p + 1)%Z ->
  snd (after ms (s, l)) = l /\
  let sl' := after (ms ++ [(Fin a, e)]) (s, l) in
  forall k old, nth_error l k = Some old ->
    exists mn cand new, nth_error (s_min_lrs s) k = Some mn /\ nth_error (snd sl') k = Some new /\
      reduced f old mn cand /\
      ((eps < old - cand)%Qc /\ new = cand \/
       (old - cand <= eps)%Qc /\ new = old /\ has_convergence_been_reached (fst sl') = true).
Proof. exact constant_metric_reduces. Qed.
Print Assumptions C51_constant_is_bad_partial.

Example C51_example :
  (0 <= Q2Qc (1#10000))%Qc /\ (Q2Qc (1#10000) < 1)%Qc /\ List.length ex_lrs = 2%nat /\
  map this (snd (after (const 3 3) (ex_sched, ex_lrs))) = [1; 1#5]%Q /\
  map this (snd (after (const 3 3 ++ [(Fin (Q2Qc 3), Some 7%Z)]) (ex_sched, ex_lrs))) = [1#10; 1#50]%Q.
Proof. split; [discriminate|]. split; [reflexivity|]. split; [reflexivity|]. split; vm_compute; reflexivity. Qed.

(** ** C68 *)
Theorem C68_constant_metric_converges : forall n f p t cd mn eps a s l,
  (0 <= t)%Qc -> (t < 1)%Qc -> (0 <= a)%Qc -> (0 <= p)%Z -> (0 <= cd)%Z -> (0 < eps)%Qc -> (0 < n)%nat ->
  new_sched n "min" f p t "rel" cd mn eps = Ok s -> List.length l = n ->
  exists N, forall ms, Forall (fun m => fst m = Fin a) ms -> (N <= List.length ms)%nat ->
    has_convergence_been_reached (fst (after ms (s, l))) = true.
Proof. exact constant_metric_converges. Qed.
Print Assumptions C68_constant_metric_converges.

Example C68_example :
  (0 < s_eps ex_sched)%Qc /\ (0 < 2)%nat /\
  has_convergence_been_reached (fst (after (const 3 16) (ex_sched, ex_lrs))) = true.
Proof. split; [reflexivity|]. split; [lia|]. vm_compute. reflexivity. Qed.

(** Runs which are ended by an exception. *)
From Coq Require Import List String Arith ZArith QArith Qcanon Lia Bool Sorting.Sorted.
From Verif Require Import Base IntegratorModel GridProofs FixedGridModel FixedGridSpec FixedGridProofs RecordModel RecordSpec RecordProofs.
Import ListNotations.
Open Scope string_scope.
Open Scope list_scope.
Open Scope nat_scope.

Section Failing.
Context {X : Type}.
Variable add : X -> X -> X.
Variable mul : Qc -> X -> X.
Variable g : Qc -> X -> result X.
Notation logged := (fun t y (log : list Qc) => (g t y, log ++ [t])).

(** The times of all evaluations are [T], or an exception came in between. *)
Definition traces {A} (m : eff (H := list Qc) A) (T : list Qc) : Prop := forall log,
  match m log with
  | (Ok _, l) => l = log ++ T
  | (Raise e, l) => exists pre t post, T = pre ++ t :: post /\ l = log ++ pre ++ [t] /\ exists y, g t y = Raise e
  end.

Lemma traces_give {A} (a : A) : traces (give a) [].
Proof. intros log. cbn. rewrite app_nil_r. reflexivity. Qed.

Lemma traces_then {A B} (m : eff A) (k : A -> eff B) T1 T2 : traces m T1 -> (forall a, traces (k a) T2) -> traces (then_ m k) (T1 ++ T2).
Proof.
  intros M K log. unfold then_. assert (ML := M log). destruct (m log) as [[a|e] l].
  - subst l. assert (KL := K a (log ++ T1)). destruct (k a (log ++ T1)) as [[b|e] l].
    + rewrite KL, app_assoc. reflexivity.
    + destruct KL as (pre & t & post & -> & -> & Y). exists (T1 ++ pre), t, post. rewrite <- !app_assoc. auto.
  - destruct ML as (pre & t & post & -> & -> & Y). exists pre, t, (post ++ T2). rewrite <- !app_assoc. auto.
Qed.

Lemma traces_call t y : traces (logged t y) [t].
Proof.
  intros log. cbn. destruct (g t y) as [v|e] eqn:E; [reflexivity|]. exists [], t, []. repeat split. exists y. exact E.
Qed.

Lemma traces_method name se : method_eff add mul logged name = Some se -> forall a b y, traces (se a (b - a)%Qc y) (stage_times name (a, b)).
Proof.
  unfold method_eff. intros ME a b y. destruct (third_half a b) as (E1 & E2 & E3 & E4). unfold stage_times.
  destruct (String.eqb name "euler"); [injection ME as <-|destruct (String.eqb name "midpoint"); [injection ME as <-|destruct (String.eqb name "rk4"); [injection ME as <-|discriminate ME]]].
  - unfold euler_eff. apply (traces_then _ _ [a] []); [apply traces_call|intros; apply traces_give].
  - unfold midpoint_eff. rewrite <- E1. apply (traces_then _ _ [a] [_]); [apply traces_call|intros k].
    apply (traces_then _ _ [_] []); [apply traces_call|intros; apply traces_give].
  - unfold rk4_eff. rewrite <- E2, <- E3. rewrite <- E4 at 3. apply (traces_then _ _ [a] [_; _; _]); [apply traces_call|intros k1].
    apply (traces_then _ _ [_] [_; _]); [apply traces_call|intros k2]. apply (traces_then _ _ [_] [_]); [apply traces_call|intros k3].
    apply (traces_then _ _ [_] []); [apply traces_call|intros; apply traces_give].
Qed.

Lemma traces_march name se : method_eff add mul logged name = Some se -> forall gr a y ts,
  traces (march_eff add mul se a gr y ts) (run_times name (a :: gr)).
Proof.
  intros ME. induction gr as [|b gr IH]; intros a y ts; [apply traces_give|].
  cbn [march_eff]. change (run_times name (a :: b :: gr)) with (stage_times name (a, b) ++ run_times name (b :: gr)).
  apply traces_then; [apply (traces_method name se ME)|]. intros dy.
  destruct (emit add mul a b y (add y dy) ts) as (o, ts').
  rewrite <- (app_nil_r (run_times name (b :: gr))). apply traces_then; [apply IH|intros; apply traces_give].
Qed.

Lemma failing_run name se h x t : method_eff add mul logged name = Some se ->
  (0 < h)%Qc -> 2 <= List.length t -> StronglySorted Qclt t ->
  exists gr, grid h (first t) (final_time t) gr /\ traces (fixed_grid_eff add mul se (Some h) x t) (run_times name gr).
Proof.
  intros ME Hh L S. destruct t as [|t0 ts]; [cbn in L; lia|]. cbn [first hd].
  assert (AE : (t0 <= final_time (t0 :: ts))%Qc) by (apply sorted_last, S).
  destruct (step_grid_walk h t0 _ Hh AE) as (n & C & SG).
  destruct (walk_sorted h _ Hh n t0 C) as (SW & LW).
  exists (t0 :: walk h t0 (final_time (t0 :: ts)) n).
  assert (LI : forall l (d : Qc), l <> [] -> last_item l = Ok (last l d)).
  { intros l d N. rewrite (app_removelast_last d N) at 1. apply last_item_app. }
  split.
  - destruct n as [|n].
    + exfalso. apply count_0_inv in C. destruct ts as [|s ts]; [cbn in L; lia|].
      assert (B := sorted_below t0 (s :: ts) S s 0%Qc (or_introl eq_refl)). unfold final_time in C. rewrite C in B.
      inversion S as [|? ? _ F]; subst. inversion F as [|? ? F1 _]; subst. qc.
    + exists n. split; [|destruct C as (C1 & _ & C3); split; [apply C3; lia|exact C1]].
      rewrite (walk_points h t0 _ Hh n C). f_equal. apply map_ext. intros i. ring.
  - intros log. unfold fixed_grid_eff. rewrite (proj2 (increasing_sorted _) S). cbn [negb].
    rewrite (LI (t0 :: ts) 0%Qc) by discriminate. fold (final_time (t0 :: ts)). cbn [bind]. rewrite SG. cbn [bind].
    rewrite (LI (t0 :: walk _ _ _ _) 0%Qc) by discriminate. rewrite LW. cbn [bind].
    rewrite !(proj2 (qc_eq_bool_true _ _) eq_refl). cbn [andb]. rewrite <- (app_nil_r (run_times name _)).
    apply traces_then; [apply (traces_march name se ME)|intros; apply traces_give].
Qed.

Lemma failing_runs name se h : method_eff add mul logged name = Some se -> (0 < h)%Qc -> forall runs, good_times (map snd runs) ->
  exists grids, Forall2 (fun r gr => grid h (first (snd r)) (final_time (snd r)) gr) runs grids /\
    traces (evaluations (fixed_grid_eff add mul se (Some h)) runs) (flat_map (run_times name) grids).
Proof.
  intros ME Hh. induction runs as [|(x, t) runs IH]; intros G.
  - exists []. split; [constructor|apply traces_give].
  - cbn [map snd] in G. inversion G as [|? ? (L & S) G']; subst. destruct (IH G') as (grids & F & T).
    destruct (failing_run name se h x t ME Hh L S) as (gr & Gr & Tr). exists (gr :: grids). split; [constructor; assumption|].
    cbn [evaluations flat_map]. apply traces_then; [exact Tr|]. intros v.
    rewrite <- (app_nil_r (flat_map _ grids)). apply traces_then; [exact T|intros; apply traces_give].
Qed.

Lemma failing_recordings name se h runs : method_eff add mul logged name = Some se -> (0 < h)%Qc -> good_times (map snd runs) ->
  exists grids, Forall2 (fun r gr => grid h (first (snd r)) (final_time (snd r)) gr) runs grids /\
    match evaluations (fixed_grid_eff add mul se (Some h)) runs [] with
    | (Ok _, times) => times = flat_map (run_times name) grids
    | (Raise e, times) => exists before t later, flat_map (run_times name) grids = before ++ t :: later /\
        times = before ++ [t] /\ exists y, g t y = Raise e
    end.
Proof.
  intros ME Hh G. destruct (failing_runs name se h ME Hh runs G) as (grids & F & T). exists grids. split; [exact F|]. exact (T []).
Qed.
End Failing.

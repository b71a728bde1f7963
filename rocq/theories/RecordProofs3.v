(** The complexity measure of recorded runs. *)
From Coq Require Import Lqa List String Arith ZArith QArith Qcanon Qreals Reals Lia Lra Bool Sorting.Sorted.
From Verif Require Import Base Tensor IntegratorModel GridProofs FixedGridModel FixedGridSpec FixedGridProofs.
From Verif Require Import EnergyModel HooksModel HooksSpec HooksProofs ComplexityModel ComplexitySpec ComplexityProofs RecordModel RecordSpec RecordProofs RecordProofs2.
Import ListNotations.
Open Scope string_scope.
Open Scope list_scope.
Open Scope nat_scope.

Lemma qr_le a b : (a <= b)%Qc -> (qr a <= qr b)%R.
Proof. apply Qle_Rle. Qed.

(** ** Times of one run *)
Lemma steps_cons a b g : steps (a :: b :: g) = (a, b) :: steps (b :: g).
Proof. reflexivity. Qed.

Lemma steps_snoc m a e : steps (m ++ [a; e]) = steps (m ++ [a]) ++ [(a, e)].
Proof.
  induction m as [|x m IH]; [reflexivity|]. destruct m as [|y m]; [reflexivity|]. cbn [app] in *. rewrite !steps_cons, IH. reflexivity.
Qed.

Lemma stage_bounds name a b : (a < b)%Qc -> StronglySorted Qcle (stage_times name (a, b)) /\
  Forall (fun s => (a <= s)%Qc /\ (s <= b)%Qc) (stage_times name (a, b)) /\ hd 0%Qc (stage_times name (a, b)) = a.
Proof.
  intros L. unfold stage_times.
  assert (H2 : (a <= (a + b) / Q2Qc 2)%Qc /\ ((a + b) / Q2Qc 2 <= b)%Qc).
  { unfold Qcdiv, Qcle in *. unfold Qclt in L. rewrite this_mult, this_plus. change (this (/ Q2Qc 2)%Qc) with (1 # 2)%Q. split; Lqa.lra. }
  assert (H3 : (a <= (Q2Qc 2 * a + b) / Q2Qc 3)%Qc /\ ((Q2Qc 2 * a + b) / Q2Qc 3 <= (a + Q2Qc 2 * b) / Q2Qc 3)%Qc /\ ((a + Q2Qc 2 * b) / Q2Qc 3 <= b)%Qc).
  { unfold Qcdiv, Qcle in *. unfold Qclt in L. rewrite !this_mult, !this_plus, !this_mult. change (this (/ Q2Qc 3)%Qc) with (1 # 3)%Q.
    change (this (Q2Qc 2)) with 2%Q. repeat split; Lqa.lra. }
  destruct H2 as (A1 & A2), H3 as (B1 & B2 & B3). assert (L' := Qclt_le_weak _ _ L).
  destruct (String.eqb name "euler"); [|destruct (String.eqb name "midpoint")].
  - split; [repeat (apply SSorted_cons || apply SSorted_nil || apply Forall_nil)|]. split; [|reflexivity].
    repeat (apply Forall_cons; [split; first [assumption|apply Qcle_refl]|]). apply Forall_nil.
  - split; [repeat (apply SSorted_cons || apply SSorted_nil || apply Forall_cons || apply Forall_nil); assumption|]. split; [|reflexivity].
    repeat (apply Forall_cons; [split; first [assumption|apply Qcle_refl]|]). apply Forall_nil.
  - set (u := ((Q2Qc 2 * a + b) / Q2Qc 3)%Qc) in *. set (v := ((a + Q2Qc 2 * b) / Q2Qc 3)%Qc) in *.
    assert (C1 : (a <= v)%Qc) by (apply (Qcle_trans _ u); assumption).
    assert (C2 : (u <= b)%Qc) by (apply (Qcle_trans _ v); assumption).
    split; [repeat (apply SSorted_cons || apply SSorted_nil || apply Forall_cons || apply Forall_nil); assumption|]. split; [|reflexivity].
    repeat (apply Forall_cons; [split; first [assumption|apply Qcle_refl]|]). apply Forall_nil.
Qed.

Lemma stage_nonempty name ab : stage_times name ab <> [].
Proof. destruct ab as (a, b). unfold stage_times. destruct (String.eqb name "euler"); [discriminate|]. destruct (String.eqb name "midpoint"); discriminate. Qed.

Lemma sorted_concat (R' : Qc -> Qc -> Prop) l1 : forall l2, StronglySorted R' l1 -> StronglySorted R' l2 ->
  (forall x y, In x l1 -> In y l2 -> R' x y) -> StronglySorted R' (l1 ++ l2).
Proof.
  induction l1 as [|x l1 IH]; intros l2 S1 S2 C; [exact S2|]. inversion S1 as [|? ? S F]; subst. cbn [app]. constructor.
  - apply IH; [exact S|exact S2|]. intros u v U V. apply C; [right; exact U|exact V].
  - apply Forall_app. split; [exact F|]. apply Forall_forall. intros y Y. apply C; [left; reflexivity|exact Y].
Qed.

Lemma run_times_sorted name g : forall a, StronglySorted Qclt (a :: g) ->
  StronglySorted Qcle (run_times name (a :: g)) /\ Forall (Qcle a) (run_times name (a :: g)).
Proof.
  induction g as [|b g IH]; intros a S; [split; constructor|]. unfold run_times in *. rewrite steps_cons. cbn [flat_map].
  inversion S as [|? ? S' F]; subst. inversion F as [|? ? L _]; subst. destruct (IH b S') as (S2 & F2).
  destruct (stage_bounds name a b L) as (T1 & T2 & _). split.
  - apply sorted_concat; [exact T1|exact S2|]. intros x y I J. apply (Qcle_trans _ b).
    + apply (proj1 (Forall_forall _ _) T2 _ I).
    + apply (proj1 (Forall_forall _ _) F2 _ J).
  - apply Forall_app. split; [eapply Forall_impl; [|exact T2]; intros s (U & _); exact U|].
    eapply Forall_impl; [|exact F2]. intros s U. apply (Qcle_trans _ b); [apply Qclt_le_weak, L|exact U].
Qed.

Lemma grid_sorted h t0 tl g : (0 < h)%Qc -> grid h t0 tl g -> StronglySorted Qclt g /\ hd 0%Qc g = t0 /\
  exists m n, g = m ++ [(t0 + times n h)%Qc; tl] /\ (t0 + times n h < tl)%Qc /\ (tl <= t0 + times (S n) h)%Qc.
Proof.
  intros H (n & -> & A & B). split; [|split].
  - apply sorted_concat.
    + exact (sorted_affine t0 h 0 (S n) H).
    + repeat constructor.
    + intros x y I [<-|[]]. apply in_map_iff in I as (i & <- & I). apply in_seq in I.
      destruct (Nat.eq_dec i n) as [->|N]; [exact A|]. assert (T := times_lt i n h H ltac:(lia)). qc.
  - cbn. rewrite times_0. ring.
  - rewrite map_seq_snoc. exists (map (fun i => (t0 + times i h)%Qc) (seq 0 n)), n. rewrite <- app_assoc. split; [reflexivity|]. auto.
Qed.

Lemma last_app_nonempty {A} (l1 l2 : list A) d : l2 <> [] -> last (l1 ++ l2) d = last l2 d.
Proof. intros N. rewrite (app_removelast_last d N), app_assoc, !last_last. reflexivity. Qed.

(** First and last evaluation. *)
Lemma run_ends name h t0 tl g : (0 < h)%Qc -> grid h t0 tl g ->
  run_times name g <> [] /\ hd 0%Qc (run_times name g) = t0 /\
  exists n, (t0 + times n h < tl)%Qc /\ (tl <= t0 + times (S n) h)%Qc /\
    last (run_times name g) 0%Qc = last (stage_times name ((t0 + times n h)%Qc, tl)) 0%Qc.
Proof.
  intros H G. destruct (grid_sorted _ _ _ _ H G) as (S & HD & m & n & E & A & B). split; [|split].
  - rewrite E. unfold run_times. rewrite steps_snoc, flat_map_app. cbn [flat_map]. rewrite app_nil_r. intros Z. apply app_eq_nil in Z as (_ & Z).
    apply (stage_nonempty _ _ Z).
  - destruct g as [|a [|b g]]; [destruct m; discriminate E|destruct m as [|? [|? ?]]; discriminate E|]. cbn [hd] in HD. subst a.
    unfold run_times. rewrite steps_cons. cbn [flat_map]. inversion S as [|? ? _ F]; subst. inversion F as [|? ? L _]; subst.
    destruct (stage_bounds name t0 b L) as (_ & _ & T3). destruct (stage_times name (t0, b)) eqn:Q; [destruct (stage_nonempty _ _ Q)|exact T3].
  - exists n. split; [exact A|]. split; [exact B|]. rewrite E. unfold run_times. rewrite steps_snoc, flat_map_app. cbn [flat_map].
    rewrite app_nil_r. apply last_app_nonempty, stage_nonempty.
Qed.

(** ** Recordings *)
Section Recorded.
Context {X : Type}.
Variable add : X -> X -> X.
Variable mul : Qc -> X -> X.
Variables nuc spec : tensor R -> R.
Variable f : Qc -> X -> X.
Variable args : Qc -> X -> hook_args.
Hypothesis usual : usual_arguments args.
Variables (name : string) (step : Qc -> Qc -> X -> X) (se : Qc -> Qc -> X -> eff (H := hook_data) X).
Hypothesis ME : method_eff add mul (hooked nuc spec f args) name = Some se.
Hypothesis M : method add mul f name = Some step.
Variable h : Qc.
Hypothesis Hh : (0 < h)%Qc.

(** All evaluations of the runs, step by step. *)
Let all_blocks (runs : list (X * list Qc)) (gs : list (list Qc)) : list (list (Qc * X)) :=
  flat_map (fun rg => blocks add mul f step name (first (snd (fst rg))) (snd rg) (fst (fst rg))) (combine runs gs).

Lemma all_blocks_times runs : forall gs, List.length gs = List.length runs ->
  map (map fst) (all_blocks runs gs) = flat_map (fun g => map (stage_times name) (steps g)) (map (fun rg => first (snd (fst rg)) :: snd rg) (combine runs gs)).
Proof.
  induction runs as [|(x, t) runs IH]; intros [|g gs] L; try discriminate L; [reflexivity|].
  unfold all_blocks in *. cbn [combine flat_map map fst snd]. rewrite map_app, blocks_times, IH by (cbn in L; lia). reflexivity.
Qed.

Lemma recorded_all runs : good_times (map snd runs) ->
  exists gs values d,
    Forall2 (fun r g => grid h (first (snd r)) (final_time (snd r)) (first (snd r) :: g)) runs gs /\
    Forall2 (fun r v => fixed_grid add mul step (Some h) (fst r) (snd r) = Ok v) runs values /\
    evaluations (fixed_grid_eff add mul se (Some h)) runs (HRecord []) = (Ok values, HRecord d) /\
    let calls := List.concat (all_blocks runs gs) in
    let norms n2 := map (fun c => VNum (sum_of_norms n2 (h_pars (args (fst c) (snd c))))) calls in
    series d "t" = map (fun c => VNum (qr (fst c))) calls /\
    series d "sum_sqr_frobenius_norm" = norms sum_squares /\
    series d "sum_sqr_nuclear_norm" = norms (fun t => nuc t ^ 2)%R /\
    series d "sum_sqr_spectral_norm" = norms (fun t => spec t ^ 2)%R.
Proof.
  intros GT.
  destruct (evaluations_calls add mul f step (fun hd => exists d, hd = HRecord d)
     (fun c hd => snd (parameter_evolution_hook nuc spec (args (fst c) (snd c)) hd)) (hooked nuc spec f args)
     ltac:(intros t y hd G; apply (hooked_ok nuc spec f args usual t y hd G)) name se h runs ME M Hh GT) as (gs & values & F1 & F2 & E).
  destruct (record_series nuc spec f args usual (List.concat (all_blocks runs gs))) as (d & D & S).
  exists gs, values, d. split; [exact F1|]. split; [exact F2|]. split; [|exact S].
  rewrite E by (eexists; reflexivity). f_equal. exact D.
Qed.

Lemma recorded_times runs : good_times (map snd runs) ->
  exists grids values d,
    Forall2 (fun r g => grid h (first (snd r)) (final_time (snd r)) g) runs grids /\
    Forall2 (fun r v => fixed_grid add mul step (Some h) (fst r) (snd r) = Ok v) runs values /\
    evaluations (fixed_grid_eff add mul se (Some h)) runs (HRecord []) = (Ok values, HRecord d) /\
    series d "t" = map (fun t => VNum (qr t)) (flat_map (run_times name) grids).
Proof.
  intros GT. destruct (recorded_all runs GT) as (gs & values & d & F1 & F2 & E & S & _).
  exists (map (fun rg => first (snd (fst rg)) :: snd rg) (combine runs gs)), values, d.
  split; [|split; [exact F2|split; [exact E|]]].
  - clear - F1. induction F1 as [|r g runs gs G F IH]; cbn; constructor; auto.
  - transitivity (map (fun t => VNum (qr t)) (map fst (List.concat (all_blocks runs gs)))); [rewrite map_map; exact S|]. f_equal.
    assert (L : List.length gs = List.length runs) by (clear - F1; induction F1; cbn; congruence).
    rewrite concat_map, all_blocks_times by exact L. clear. induction (combine runs gs) as [|rg l IH]; [reflexivity|].
    cbn [map flat_map]. rewrite concat_app, IH. f_equal. unfold run_times. rewrite flat_map_concat_map. reflexivity.
Qed.

(** The measure of all evaluations. *)
Definition norm_at (n2 : tensor R -> R) (c : Qc * X) : R := sum_of_norms n2 (h_pars (args (fst c) (snd c))).
Definition pair_at (n2 : tensor R -> R) (c : Qc * X) : R * R := (qr (fst c), norm_at n2 c).

Lemma positive_all l : Forall (fun x => 0 < x)%R l -> positive_means l.
Proof.
  induction l as [|x l IH]; intros F; [exact I|]. destruct l as [|y l]; [exact I|].
  inversion F as [|? ? F1 F2]; subst. inversion F2 as [|? ? F3 _]; subst. split; [lra|apply IH, F2].
Qed.

Lemma blocks_nonempty runs gs : Forall (fun b => b <> []) (all_blocks runs gs).
Proof.
  apply Forall_forall. intros b I. apply in_flat_map in I as ((r, g) & _ & I). cbn [fst snd] in I.
  revert I. generalize (first (snd r)) (fst r). induction g as [|c g IH]; intros a y I; [destruct I|].
  destruct I as [<-|I]; [|eapply IH; exact I]. intros Z. assert (T := step_calls_times add mul f name a c y). rewrite Z in T. cbn [map] in T. symmetry in T.
  apply (stage_nonempty _ _ T).
Qed.

Lemma measured runs : good_times (map snd runs) -> runs <> [] ->
  (forall t y, 0 < sum_of_norms sum_squares (h_pars (args t y)))%R ->
  (forall t y, 0 < sum_of_norms (fun t => nuc t ^ 2) (h_pars (args t y)))%R ->
  (forall t y, 0 < sum_of_norms (fun t => spec t ^ 2) (h_pars (args t y)))%R ->
  exists gs values d,
    Forall2 (fun r g => grid h (first (snd r)) (final_time (snd r)) (first (snd r) :: g)) runs gs /\
    evaluations (fixed_grid_eff add mul se (Some h)) runs (HRecord []) = (Ok values, HRecord d) /\
    let m n2 := EFin (cx (map (pair_at n2) (List.concat (all_blocks runs gs)))) in
    compute_complexity_measures (numeric d) = Ok (m sum_squares, m (fun t => nuc t ^ 2)%R, m (fun t => spec t ^ 2)%R).
Proof.
  intros GT N P1 P2 P3. destruct (recorded_all runs GT) as (gs & values & d & F1 & F2 & E & S0 & S1 & S2 & S3).
  exists gs, values, d. split; [exact F1|]. split; [exact E|]. intros m.
  set (calls := List.concat (all_blocks runs gs)) in *.
  assert (NC : calls <> []).
  { destruct F1 as [|r g runs gs G F1]; [congruence|]. unfold calls, all_blocks. cbn [combine flat_map]. rewrite concat_app.
    intros Z. apply app_eq_nil in Z as (Z & _). cbn [fst snd] in Z. destruct G as (n & G & _).
    destruct g as [|b g]; [apply (f_equal (@List.length Qc)) in G; rewrite app_length, map_length, seq_length in G; cbn in G; lia|].
    cbn [blocks List.concat] in Z. apply app_eq_nil in Z as (Z & _).
    assert (T := step_calls_times add mul f name (first (snd r)) b (fst r)). rewrite Z in T. symmetry in T. apply (stage_nonempty _ _ T). }
  assert (V : forall (q : Qc * X -> R), map (fun c => VNum (q c)) calls = map VNum (map q calls)) by (intros; rewrite map_map; reflexivity).
  assert (NE : forall (q : Qc * X -> R), map q calls <> []) by (intros q Z; apply map_eq_nil in Z; congruence).
  rewrite (V (fun c => qr (fst c))) in S0. rewrite V in S1. rewrite V in S2. rewrite V in S3.
  assert (CX : forall n2, cx (map (pair_at n2) calls) = complexity (map (fun c => qr (fst c)) calls) (map (norm_at n2) calls)).
  { intros n2. unfold cx. rewrite !map_map. reflexivity. }
  unfold m. rewrite !CX. apply complexity_spec.
  - apply numeric_get; [exact S0|apply NE].
  - apply numeric_get; [exact S1|apply NE].
  - apply numeric_get; [exact S2|apply NE].
  - apply numeric_get; [exact S3|apply NE].
  - rewrite !map_length. reflexivity.
  - rewrite !map_length. reflexivity.
  - rewrite !map_length. reflexivity.
  - apply positive_all, Forall_forall. intros x I. apply in_map_iff in I as (c & <- & _). apply P1.
  - apply positive_all, Forall_forall. intros x I. apply in_map_iff in I as (c & <- & _). apply P2.
  - apply positive_all, Forall_forall. intros x I. apply in_map_iff in I as (c & <- & _). apply P3.
Qed.
End Recorded.

(** The complexity measure: sums over steps, constant norms, chunks. *)
From Coq Require Import Lqa List String Arith ZArith QArith Qcanon Qreals Reals Lia Lra Bool Sorting.Sorted.
From Verif Require Import Base Tensor IntegratorModel GridProofs FixedGridModel FixedGridSpec FixedGridProofs.
From Verif Require Import EnergyModel HooksModel HooksSpec HooksProofs ComplexityModel ComplexitySpec ComplexityProofs RecordModel RecordSpec RecordProofs RecordProofs2 RecordProofs3.
From Verif Require Import SpiralModel SpiralSpec SpiralProofs.
Import ListNotations.
Open Scope string_scope.
Open Scope list_scope.
Open Scope nat_scope.

(** ** Steps one after the other *)
Fixpoint linked_steps (l : list (Qc * Qc)) : Prop :=
  match l with
  | p :: ((q :: _) as r) => (fst q <= snd p)%Qc /\ linked_steps r
  | _ => True
  end.

Lemma linked_join l1 : forall p q l2, linked_steps (l1 ++ [p]) -> (fst q <= snd p)%Qc -> linked_steps (q :: l2) -> linked_steps ((l1 ++ [p]) ++ q :: l2).
Proof.
  induction l1 as [|r l1 IH]; intros p q l2 L J R; [split; assumption|].
  destruct l1 as [|s l1]; cbn [app] in *; destruct L as (L1 & L2); (split; [exact L1|]).
  - split; assumption.
  - apply (IH p q l2 L2 J R).
Qed.

Lemma steps_linked g : linked_steps (steps g).
Proof.
  destruct g as [|a g]; [exact I|]. revert a. induction g as [|b g IH]; intros a; [exact I|].
  rewrite steps_cons. destruct g as [|c g]; [exact I|]. rewrite steps_cons. split; [cbn; apply Qcle_refl|]. rewrite <- steps_cons. apply IH.
Qed.

Lemma runs_linked h ts : forall grids, (0 < h)%Qc -> Forall2 (fun t g => grid h (first t) (final_time t) g) ts grids -> restarts ts ->
  linked_steps (flat_map steps grids).
Proof.
  induction ts as [|t ts IH]; intros grids H F R; inversion F as [|? g ? gs G F']; subst; [exact I|]. cbn [flat_map].
  destruct ts as [|t' ts]; [inversion F'; subst; cbn; rewrite app_nil_r; apply steps_linked|].
  destruct R as (R1 & R2). assert (L := IH gs H F' R2).
  inversion F' as [|? g' ? gs' G' F'']; subst. cbn [flat_map] in L |- *.
  destruct (grid_sorted _ _ _ _ H G) as (_ & _ & m & n & E & _). destruct (grid_sorted _ _ _ _ H G') as (_ & HD & m' & n' & E' & _).
  assert (LS := steps_linked g). rewrite E, steps_snoc in LS |- *.
  destruct g' as [|a [|b g']]; [destruct m'; discriminate E'|destruct m' as [|? [|? ?]]; discriminate E'|].
  rewrite steps_cons in L |- *. cbn [app] in L |- *. apply linked_join; [exact LS| |exact L]. cbn [fst snd hd] in HD |- *. rewrite HD. exact R1.
Qed.

Section Recorded.
Context {X : Type}.
Variable add : X -> X -> X.
Variable mul : Qc -> X -> X.
Variables nuc spec : tensor R -> R.
Variable f : Qc -> X -> X.
Variable args : Qc -> X -> hook_args.
Hypothesis usual : usual_arguments args.
Variable h : Qc.
Hypothesis Hh : (0 < h)%Qc.

Definition value (n2 : tensor R -> R) (c : Qc * X) : R := sum_of_norms n2 (h_pars (args (fst c) (snd c))).

Lemma rk4_linked n2 (bs : list (list (Qc * X))) sts : map (map fst) bs = map (stage_times "rk4") sts -> linked_steps sts ->
  linked_le (map (map (pair_at args n2)) bs).
Proof.
  revert sts. induction bs as [|b bs IH]; intros sts E L; [exact I|]. destruct sts as [|(a0, b0) sts]; [discriminate E|].
  cbn [map] in E |- *. injection E as E1 E2. destruct bs as [|b' bs]; [exact I|]. destruct sts as [|(a1, b1) sts]; [discriminate E2|].
  destruct L as (L1 & L2). specialize (IH _ E2 L2). cbn [map] in IH, E2 |- *. injection E2 as E2 _. split; [|exact IH].
  destruct b as [|c1 [|c2 [|c3 [|c4 [|? ?]]]]]; try discriminate E1. destruct b' as [|d1 [|d2 [|d3 [|d4 [|? ?]]]]]; try discriminate E2.
  cbn in E1, E2. injection E1 as _ _ _ E1. injection E2 as E2 _ _ _. unfold head_time, end_time, pair_at. cbn [map last hd fst].
  rewrite E1, E2. apply qr_le, L1.
Qed.

Lemma rk4_sum se step runs :
  method_eff add mul (hooked nuc spec f args) "rk4" = Some se -> method add mul f "rk4" = Some step ->
  good_times (map snd runs) -> restarts (map snd runs) -> runs <> [] ->
  (forall t y, 0 < sum_of_norms sum_squares (h_pars (args t y)))%R ->
  (forall t y, 0 < sum_of_norms (fun t => nuc t ^ 2) (h_pars (args t y)))%R ->
  (forall t y, 0 < sum_of_norms (fun t => spec t ^ 2) (h_pars (args t y)))%R ->
  exists grids bs values d,
    Forall2 (fun r g => grid h (first (snd r)) (final_time (snd r)) g) runs grids /\
    map (map fst) bs = map (stage_times "rk4") (flat_map steps grids) /\
    evaluations (fixed_grid_eff add mul se (Some h)) runs (HRecord []) = (Ok values, HRecord d) /\
    let m n2 := EFin (fold_right Rplus 0%R (map (fun b => complexity (map (fun c => qr (fst c)) b) (map (value n2) b)) bs)) in
    compute_complexity_measures (numeric d) = Ok (m sum_squares, m (fun t => nuc t ^ 2)%R, m (fun t => spec t ^ 2)%R).
Proof.
  intros ME M GT RS N P1 P2 P3.
  destruct (measured add mul nuc spec f args usual "rk4" step se ME M h Hh runs GT N P1 P2 P3) as (gs & values & d & F & E & C).
  set (bs := flat_map (fun rg : X * list Qc * list Qc => blocks add mul f step "rk4" (first (snd (fst rg))) (snd rg) (fst (fst rg))) (combine runs gs)) in *.
  set (grids := map (fun rg : X * list Qc * list Qc => first (snd (fst rg)) :: snd rg) (combine runs gs)).
  assert (FG : Forall2 (fun r g => grid h (first (snd r)) (final_time (snd r)) g) runs grids).
  { unfold grids. clear - F. induction F as [|r g runs gs G F IH]; cbn; constructor; auto. }
  assert (LG : List.length gs = List.length runs) by (clear - F; induction F; cbn; congruence).
  assert (T : map (map fst) bs = map (stage_times "rk4") (flat_map steps grids)).
  { unfold bs. rewrite (all_blocks_times add mul f "rk4" step runs gs LG). fold grids. clear. induction grids as [|g gr IH]; [reflexivity|].
    cbn [flat_map]. rewrite map_app, IH. reflexivity. }
  exists grids, bs, values, d. split; [exact FG|]. split; [exact T|]. split; [exact E|]. intros m. rewrite C.
  assert (LK : linked_steps (flat_map steps grids)).
  { apply (runs_linked h (map snd runs) grids Hh); [|exact RS]. clear - FG. induction FG; constructor; auto. }
  assert (NB := blocks_nonempty add mul f "rk4" step runs gs). fold bs in NB.
  assert (CX : forall n2, cx (map (pair_at args n2) (List.concat bs)) = fold_right Rplus 0%R (map (fun b => complexity (map (fun c => qr (fst c)) b) (map (value n2) b)) bs)).
  { intros n2. rewrite concat_map, cx_concat.
    - unfold sum. f_equal. rewrite map_map. apply map_ext. intros b. unfold cx. rewrite !map_map. reflexivity.
    - apply Forall_forall. intros l I. apply in_map_iff in I as (b & <- & I). intros Z. apply map_eq_nil in Z. subst. apply (proj1 (Forall_forall _ _) NB _ I). reflexivity.
    - apply (rk4_linked n2 bs _ T LK). }
  unfold m. rewrite !CX. reflexivity.
Qed.

(** ** Constant norms *)
Lemma sorted_qr l : StronglySorted Qcle l -> StronglySorted Rle (map qr l).
Proof.
  induction 1 as [|x l S IH F]; cbn; constructor; [exact IH|]. apply Forall_forall. intros y I. apply in_map_iff in I as (z & <- & I).
  apply qr_le, (proj1 (Forall_forall _ _) F _ I).
Qed.

Lemma last_map {A B} (q : A -> B) l d d' : l <> [] -> last (map q l) d' = q (last l d).
Proof. intros N. rewrite (app_removelast_last d N), map_app. cbn [map]. rewrite !last_last. reflexivity. Qed.

Lemma run_cx name step n2 c x t g :
  (forall t y, sum_of_norms n2 (h_pars (args t y)) = c) -> grid h (first t) (final_time t) (first t :: g) ->
  let l := map (pair_at args n2) (List.concat (blocks add mul f step name (first t) g x)) in
  l <> [] /\ head_time l = qr (first t) /\ end_time l = qr (last (run_times name (first t :: g)) 0%Qc) /\
  cx l = ((qr (last (run_times name (first t :: g)) 0%Qc) - qr (first t)) * (ln c / ln 2))%R.
Proof.
  intros K G l. destruct (grid_sorted _ _ _ _ Hh G) as (S & _).
  destruct (run_times_sorted name g (first t) S) as (ST & _). destruct (run_ends name h _ _ _ Hh G) as (NR & HD & _).
  assert (T : map fst l = map qr (run_times name (first t :: g))).
  { unfold l. rewrite map_map. unfold pair_at. cbn [fst].
    transitivity (map qr (map fst (List.concat (blocks add mul f step name (first t) g x)))); [rewrite map_map; reflexivity|].
    rewrite concat_map, blocks_times. unfold run_times. rewrite flat_map_concat_map. reflexivity. }
  assert (NL : l <> []).
  { intros Z. rewrite Z in T. cbn [map] in T. symmetry in T. apply map_eq_nil in T. contradiction. }
  assert (HT : head_time l = qr (first t)).
  { unfold head_time. destruct l as [|p l']; [congruence|]. destruct (run_times name (first t :: g)) as [|q r] eqn:Q; [congruence|].
    cbn [map] in T. injection T as T _. cbn [hd] in HD |- *. rewrite T, HD. reflexivity. }
  assert (ET : end_time l = qr (last (run_times name (first t :: g)) 0%Qc)).
  { unfold end_time. rewrite <- (last_map fst l (0, 0)%R 0%R NL), T. apply last_map, NR. }
  split; [exact NL|]. split; [exact HT|]. split; [exact ET|]. rewrite <- HT, <- ET. apply cx_constant; [| |exact NL].
  - apply Forall_forall. intros p I. unfold l in I. apply in_map_iff in I as (q & <- & _). apply K.
  - rewrite T. apply sorted_qr, ST.
Qed.

Lemma rk4_last g t : grid h (first t) (final_time t) (first t :: g) -> last (run_times "rk4" (first t :: g)) 0%Qc = final_time t.
Proof. intros G. destruct (run_ends "rk4" h _ _ _ Hh G) as (_ & _ & n & _ & _ & E). rewrite E. reflexivity. Qed.

Lemma rk4_constant se step runs c1 c2 c3 :
  method_eff add mul (hooked nuc spec f args) "rk4" = Some se -> method add mul f "rk4" = Some step ->
  good_times (map snd runs) -> restarts (map snd runs) -> runs <> [] ->
  (0 < c1)%R -> (0 < c2)%R -> (0 < c3)%R ->
  (forall t y, sum_of_norms sum_squares (h_pars (args t y)) = c1) ->
  (forall t y, sum_of_norms (fun t => nuc t ^ 2)%R (h_pars (args t y)) = c2) ->
  (forall t y, sum_of_norms (fun t => spec t ^ 2)%R (h_pars (args t y)) = c3) ->
  exists values d,
    evaluations (fixed_grid_eff add mul se (Some h)) runs (HRecord []) = (Ok values, HRecord d) /\
    let m c := EFin (total_time (map snd runs) * (ln c / ln 2))%R in
    compute_complexity_measures (numeric d) = Ok (m c1, m c2, m c3).
Proof.
  intros ME M GT RS N P1 P2 P3 K1 K2 K3.
  destruct (measured add mul nuc spec f args usual "rk4" step se ME M h Hh runs GT N) as (gs & values & d & F & E & C);
    [intros; rewrite K1; exact P1|intros; rewrite K2; exact P2|intros; rewrite K3; exact P3|].
  exists values, d. split; [exact E|]. intros m. rewrite C.
  assert (CX : forall n2 c, (forall t y, sum_of_norms n2 (h_pars (args t y)) = c) ->
    cx (map (pair_at args n2) (List.concat (flat_map (fun rg : X * list Qc * list Qc =>
      blocks add mul f step "rk4" (first (snd (fst rg))) (snd rg) (fst (fst rg))) (combine runs gs))))
    = (total_time (map snd runs) * (ln c / ln 2))%R).
  { clear - F RS Hh usual. intros n2 c K.
    set (part := fun rg : X * list Qc * list Qc => map (pair_at args n2) (List.concat (blocks add mul f step "rk4" (first (snd (fst rg))) (snd rg) (fst (fst rg))))).
    assert (EQ : map (pair_at args n2) (List.concat (flat_map (fun rg : X * list Qc * list Qc =>
      blocks add mul f step "rk4" (first (snd (fst rg))) (snd rg) (fst (fst rg))) (combine runs gs))) = List.concat (map part (combine runs gs))).
    { clear. induction (combine runs gs) as [|rg l IH]; [reflexivity|]. cbn [flat_map map List.concat]. rewrite concat_app, map_app, IH. reflexivity. }
    rewrite EQ. clear EQ. rewrite cx_concat.
    - unfold sum, total_time. induction F as [|r g runs gs G F IH]; [cbn; ring|].
      cbn [combine map fold_right]. rewrite IH; [|destruct runs; [exact I|apply RS]].
      destruct (run_cx "rk4" step n2 c (fst r) (snd r) g K G) as (_ & _ & _ & CV).
      unfold part at 1. cbn [fst snd]. cbv zeta in CV. rewrite CV, (rk4_last g (snd r) G). ring.
    - apply Forall_forall. intros l I. apply in_map_iff in I as (rg & <- & I). unfold part.
      assert (G : grid h (first (snd (fst rg))) (final_time (snd (fst rg))) (first (snd (fst rg)) :: snd rg)).
      { clear - F I. induction F as [|r g runs gs G F IH]; [destruct I|]. destruct I as [<-|I]; [exact G|apply IH, I]. }
      apply (run_cx "rk4" step n2 c (fst (fst rg)) (snd (fst rg)) (snd rg) K G).
    - induction F as [|r g runs gs G F IH]; [exact I|]. destruct F as [|r' g' runs gs G' F]; [exact I|].
      cbn [combine map] in RS, IH |- *. destruct RS as (R1 & R2). split; [|apply IH, R2]. unfold part. cbn [fst snd].
      destruct (run_cx "rk4" step n2 c (fst r) (snd r) g K G) as (_ & _ & -> & _).
      destruct (run_cx "rk4" step n2 c (fst r') (snd r') g' K G') as (_ & -> & _).
      rewrite (rk4_last g (snd r) G). apply qr_le, R1. }
  unfold m. rewrite (CX _ c1 K1), (CX _ c2 K2), (CX _ c3 K3). reflexivity.
Qed.

(** One run, any method: the time up to the last evaluation. *)
Lemma single_constant name se step x t c1 c2 c3 :
  method_eff add mul (hooked nuc spec f args) name = Some se -> method add mul f name = Some step ->
  good_times [t] ->
  (0 < c1)%R -> (0 < c2)%R -> (0 < c3)%R ->
  (forall t y, sum_of_norms sum_squares (h_pars (args t y)) = c1) ->
  (forall t y, sum_of_norms (fun t => nuc t ^ 2)%R (h_pars (args t y)) = c2) ->
  (forall t y, sum_of_norms (fun t => spec t ^ 2)%R (h_pars (args t y)) = c3) ->
  exists values d n,
    evaluations (fixed_grid_eff add mul se (Some h)) [(x, t)] (HRecord []) = (Ok values, HRecord d) /\
    let s := (first t + times n h)%Qc in
    (s < final_time t)%Qc /\ (final_time t <= first t + times (S n) h)%Qc /\
    let e := last (stage_times name (s, final_time t)) 0%Qc in
    let m c := EFin ((qr e - qr (first t)) * (ln c / ln 2))%R in
    compute_complexity_measures (numeric d) = Ok (m c1, m c2, m c3).
Proof.
  intros ME M GT P1 P2 P3 K1 K2 K3.
  destruct (measured add mul nuc spec f args usual name step se ME M h Hh [(x, t)] GT) as (gs & values & d & F & E & C);
    [discriminate|intros; rewrite K1; exact P1|intros; rewrite K2; exact P2|intros; rewrite K3; exact P3|].
  inversion F as [|? g ? gs' G F']; subst. inversion F'; subst. cbn [fst snd] in G.
  destruct (run_ends name h _ _ _ Hh G) as (_ & _ & n & A & B & EL).
  exists values, d, n. split; [exact E|]. intros s. split; [exact A|]. split; [exact B|]. intros e m. rewrite C.
  assert (CX : forall n2 c, (forall t y, sum_of_norms n2 (h_pars (args t y)) = c) ->
    cx (map (pair_at args n2) (List.concat (flat_map (fun rg : X * list Qc * list Qc =>
      blocks add mul f step name (first (snd (fst rg))) (snd rg) (fst (fst rg))) (combine [(x, t)] [g]))))
    = ((qr e - qr (first t)) * (ln c / ln 2))%R).
  { intros n2 c K. cbn [combine flat_map fst snd]. rewrite app_nil_r.
    destruct (run_cx name step n2 c x t g K G) as (_ & _ & _ & ->). rewrite EL. reflexivity. }
  unfold m. rewrite (CX _ c1 K1), (CX _ c2 K2), (CX _ c3 K3). reflexivity.
Qed.
End Recorded.

(** Recordings of fixed-step runs. *)
From Coq Require Import List String Arith ZArith QArith Qcanon Qreals Reals Lia Lra Bool Sorting.Sorted.
From Verif Require Import Base Tensor IntegratorModel GridProofs FixedGridModel FixedGridSpec FixedGridProofs.
From Verif Require Import HooksModel HooksSpec HooksProofs ComplexityModel ComplexitySpec RecordModel RecordSpec.
Import ListNotations.
Open Scope string_scope.
Open Scope list_scope.
Open Scope nat_scope.

Section Calls.
Context {X : Type}.
Variable add : X -> X -> X.
Variable mul : Qc -> X -> X.
Variable f : Qc -> X -> X.

(** The evaluations of one step. *)
Definition step_calls (name : string) (t dt : Qc) (y : X) : list (Qc * X) :=
  let third := (1 / Q2Qc 3)%Qc in
  if String.eqb name "euler" then [(t, y)]
  else if String.eqb name "midpoint" then [(t, y); ((t + dt / Q2Qc 2)%Qc, add y (mul (dt / Q2Qc 2)%Qc (f t y)))]
  else
    let k1 := f t y in
    let y2 := add y (mul (dt * third)%Qc k1) in
    let k2 := f (t + dt * third)%Qc y2 in
    let y3 := add y (mul dt (add (mul (- third)%Qc k1) k2)) in
    let k3 := f (t + dt * (Q2Qc 2 * third))%Qc y3 in
    let y4 := add y (mul dt (add (add k1 (mul (Q2Qc (-1)) k2)) k3)) in
    [(t, y); ((t + dt * third)%Qc, y2); ((t + dt * (Q2Qc 2 * third))%Qc, y3); ((t + dt)%Qc, y4)].

Lemma third_half (a b : Qc) :
  (a + (b - a) / Q2Qc 2 = (a + b) / Q2Qc 2)%Qc /\
  (a + (b - a) * (1 / Q2Qc 3) = (Q2Qc 2 * a + b) / Q2Qc 3)%Qc /\
  (a + (b - a) * (Q2Qc 2 * (1 / Q2Qc 3)) = (a + Q2Qc 2 * b) / Q2Qc 3)%Qc /\
  (a + (b - a) = b)%Qc.
Proof.
  assert (E2 : (Q2Qc 2 = 1 + 1)%Qc) by (apply Qc_is_canon; reflexivity).
  assert (E3 : (Q2Qc 3 = 1 + 1 + 1)%Qc) by (apply Qc_is_canon; reflexivity). rewrite E2, E3.
  assert (N2 : (1 + 1 <> 0)%Qc) by (intros E; discriminate E).
  assert (N3 : (1 + 1 + 1 <> 0)%Qc) by (intros E; discriminate E).
  repeat split; try (field; assumption).
Qed.

Lemma step_calls_times name a b y : map fst (step_calls name a (b - a)%Qc y) = stage_times name (a, b).
Proof.
  destruct (third_half a b) as (E1 & E2 & E3 & E4). unfold step_calls, stage_times.
  destruct (String.eqb name "euler"); [reflexivity|]. destruct (String.eqb name "midpoint"); cbn [map fst]; rewrite ?E1, ?E2, ?E3, ?E4; reflexivity.
Qed.

Variable step : Qc -> Qc -> X -> X.
(** The steps of one run, each with its evaluations. *)
Fixpoint blocks (name : string) (a : Qc) (g : list Qc) (y : X) : list (list (Qc * X)) :=
  match g with
  | [] => []
  | b :: g => step_calls name a (b - a)%Qc y :: blocks name b g (add y (step a (b - a)%Qc y))
  end.

Lemma blocks_times name g : forall a y, map (map fst) (blocks name a g y) = map (stage_times name) (steps (a :: g)).
Proof.
  induction g as [|b g IH]; intros a y; [reflexivity|]. unfold steps in *. cbn [blocks map tl combine].
  rewrite step_calls_times. f_equal. rewrite IH. cbn [tl]. destruct g; reflexivity.
Qed.

(** ** Effects *)
Context {H : Type}.
Variable good : H -> Prop.
Variable hook : Qc * X -> H -> H.
Variable fe : Qc -> X -> eff (H := H) X.
Hypothesis fe_ok : forall t y h, good h -> fe t y h = (Ok (f t y), hook (t, y) h) /\ good (hook (t, y) h).

Definition after (calls : list (Qc * X)) (h : H) : H := fold_left (fun h c => hook c h) calls h.

Lemma after_app c1 c2 h : after (c1 ++ c2) h = after c2 (after c1 h).
Proof. apply fold_left_app. Qed.

Lemma good_after calls : forall h, good h -> good (after calls h).
Proof.
  induction calls as [|(t, y) calls IH]; intros h G; [exact G|]. cbn. apply IH. apply (fe_ok t y h G).
Qed.

Lemma method_calls name se : method_eff add mul fe name = Some se -> method add mul f name = Some step ->
  forall t dt y h, good h -> se t dt y h = (Ok (step t dt y), after (step_calls name t dt y) h).
Proof.
  unfold method_eff, method, step_calls. intros ME M t dt y h G.
  destruct (String.eqb name "euler") eqn:E1; [|destruct (String.eqb name "midpoint") eqn:E2; [|destruct (String.eqb name "rk4") eqn:E3; [|discriminate M]]];
    injection ME as <-; injection M as <-.
  - unfold euler_eff, then_, give. destruct (fe_ok t y h G) as (-> & _). reflexivity.
  - unfold midpoint_eff, then_, give. destruct (fe_ok t y h G) as (-> & G1).
    destruct (fe_ok (t + dt / Q2Qc 2)%Qc (add y (mul (dt / Q2Qc 2)%Qc (f t y))) _ G1) as (-> & _). reflexivity.
  - unfold rk4_eff, then_, give. destruct (fe_ok t y h G) as (-> & G1).
    match goal with |- context [fe ?a ?b (hook (t, y) h)] => destruct (fe_ok a b _ G1) as (-> & G2) end.
    match goal with |- context [fe ?a ?b (hook ?c (hook (t, y) h))] => destruct (fe_ok a b _ G2) as (-> & G3) end.
    match goal with |- context [fe ?a ?b (hook ?c (hook ?d (hook (t, y) h)))] => destruct (fe_ok a b _ G3) as (-> & G4) end.
    reflexivity.
Qed.

Lemma march_calls name se : method_eff add mul fe name = Some se -> method add mul f name = Some step ->
  forall g a y ts h, good h ->
  march_eff add mul se a g y ts h = (Ok (march add mul step a g y ts), after (List.concat (blocks name a g y)) h).
Proof.
  intros ME M. induction g as [|b g IH]; intros a y ts h G; [reflexivity|].
  cbn [march_eff march blocks List.concat]. unfold then_. rewrite (method_calls name se ME M) by exact G.
  destruct (emit add mul a b y (add y (step a (b - a)%Qc y)) ts) as (o, ts') eqn:E.
  rewrite IH by (apply good_after, G). unfold give. rewrite after_app. reflexivity.
Qed.

Lemma run_calls name se h x t : method_eff add mul fe name = Some se -> method add mul f name = Some step ->
  (0 < h)%Qc -> 2 <= List.length t -> StronglySorted Qclt t ->
  exists g values, grid h (first t) (final_time t) (first t :: g) /\
    fixed_grid add mul step (Some h) x t = Ok values /\
    forall rec, good rec -> fixed_grid_eff add mul se (Some h) x t rec
      = (Ok values, after (List.concat (blocks name (first t) g x)) rec).
Proof.
  intros ME M Hh L S. destruct t as [|t0 ts]; [cbn in L; lia|]. cbn [first hd].
  assert (AE : (t0 <= final_time (t0 :: ts))%Qc) by (apply sorted_last, S).
  destruct (step_grid_walk h t0 _ Hh AE) as (n & C & SG).
  destruct (walk_sorted h _ Hh n t0 C) as (SW & LW).
  exists (walk h t0 (final_time (t0 :: ts)) n), (x :: march add mul step t0 (walk h t0 (final_time (t0 :: ts)) n) x ts).
  assert (LI : forall l (d : Qc), l <> [] -> last_item l = Ok (last l d)).
  { intros l d N. rewrite (app_removelast_last d N) at 1. apply last_item_app. }
  split; [|split].
  - destruct n as [|n].
    + exfalso. apply count_0_inv in C. destruct ts as [|s ts]; [cbn in L; lia|].
      assert (B := sorted_below t0 (s :: ts) S s 0%Qc (or_introl eq_refl)). unfold final_time in C. rewrite C in B.
      inversion S as [|? ? _ F]; subst. inversion F as [|? ? F1 _]; subst. qc.
    + exists n. split; [|destruct C as (C1 & _ & C3); split; [apply C3; lia|exact C1]].
      rewrite (walk_points h t0 _ Hh n C). f_equal. apply map_ext. intros i. ring.
  - unfold fixed_grid. rewrite (proj2 (increasing_sorted _) S). cbn [negb].
    rewrite (LI (t0 :: ts) 0%Qc) by discriminate. fold (final_time (t0 :: ts)). cbn [bind]. rewrite SG. cbn [bind].
    rewrite (LI (t0 :: walk _ _ _ _) 0%Qc) by discriminate. rewrite LW. cbn [bind].
    rewrite !(proj2 (qc_eq_bool_true _ _) eq_refl). reflexivity.
  - intros rec G. unfold fixed_grid_eff. rewrite (proj2 (increasing_sorted _) S). cbn [negb].
    rewrite (LI (t0 :: ts) 0%Qc) by discriminate. fold (final_time (t0 :: ts)). cbn [bind]. rewrite SG. cbn [bind].
    rewrite (LI (t0 :: walk _ _ _ _) 0%Qc) by discriminate. rewrite LW. cbn [bind].
    rewrite !(proj2 (qc_eq_bool_true _ _) eq_refl). cbn [andb]. unfold then_. rewrite (march_calls name se ME M) by exact G. reflexivity.
Qed.

(** Several runs. *)
Lemma evaluations_calls name se h runs : method_eff add mul fe name = Some se -> method add mul f name = Some step ->
  (0 < h)%Qc -> good_times (map snd runs) ->
  exists gs values,
    Forall2 (fun r g => grid h (first (snd r)) (final_time (snd r)) (first (snd r) :: g)) runs gs /\
    Forall2 (fun r v => fixed_grid add mul step (Some h) (fst r) (snd r) = Ok v) runs values /\
    forall rec, good rec -> evaluations (fixed_grid_eff add mul se (Some h)) runs rec
      = (Ok values, after (List.concat (flat_map (fun rg => blocks name (first (snd (fst rg))) (snd rg) (fst (fst rg))) (combine runs gs))) rec).
Proof.
  intros ME M Hh. induction runs as [|(x, t) runs IH]; intros GT.
  - exists [], []. split; [constructor|]. split; [constructor|]. intros rec G. reflexivity.
  - inversion GT as [|? ? (L & S) GT']; subst. destruct (IH GT') as (gs & values & F1 & F2 & E).
    cbn [snd] in L, S. destruct (run_calls name se h x t ME M Hh L S) as (g & v & G1 & G2 & G3).
    exists (g :: gs), (v :: values). split; [constructor; assumption|]. split; [constructor; assumption|].
    intros rec G. cbn [evaluations combine flat_map fst snd]. unfold then_. rewrite G3 by exact G.
    rewrite E by (apply good_after, G). unfold give. rewrite concat_app, after_app. reflexivity.
Qed.
End Calls.

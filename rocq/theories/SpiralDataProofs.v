(** The data of spiral.py along the spiral. *)
From Coq Require Import List String Arith ZArith QArith Qcanon Qreals Reals Lra Lia Bool Sorting.Sorted.
From Verif Require Import Base ArgparseModel ExperimentModel IntegratorModel SetupModel SetupProofs SetupProofs2 CirclesSpec
  GridProofs FixedGridModel FixedGridSpec FixedGridProofs FixedGridProofs2 FixedGridProofs3 SpiralModel SpiralDataModel SpiralDataSpec
  SpiralCurveProofs SpiralStepProofs.
Import ListNotations.
Open Scope string_scope.
Open Scope list_scope.
Open Scope R_scope.

(** ** The solver keeps what each step and each interpolation keeps *)
Section Keep.
Context {X : Type}.
Variable add : X -> X -> X.
Variable mul : Qc -> X -> X.
Variable step : Qc -> Qc -> X -> X.
Variable P Q : Qc -> X -> Prop.
Variable h : Qc.
Hypothesis H : (0 < h)%Qc.
Hypothesis keep : forall a b y, (a < b)%Qc -> (b - a <= h)%Qc -> P a y -> P b (add y (step a (b - a)%Qc y)).
Hypothesis between : forall a b y s, (a < b)%Qc -> (b - a <= h)%Qc -> P a y -> (a <= s)%Qc -> (s <= b)%Qc ->
  Q s (linear_interp add mul a b y (add y (step a (b - a)%Qc y)) s).
Hypothesis start : forall a y, P a y -> Q a y.

Lemma out_keeps e : forall n a y s, count h a e n -> P a y -> (a <= s)%Qc -> (s <= e)%Qc -> Q s (out add mul step a (walk h a e n) y s).
Proof.
  induction n as [|n IH]; intros a y s C Y L U.
  - apply count_0_inv in C. subst e. assert (s = a) as -> by (apply Qcle_antisym; assumption). apply start, Y.
  - destruct n as [|n].
    + cbn [walk out]. rewrite (proj2 (qle_spec s e) U). destruct C as (C1 & C2 & C3).
      assert (C4 := C3 0%nat ltac:(lia)). rewrite times_0 in C4. rewrite times_S, times_0 in C1.
      apply between; try assumption; qc.
    + change (walk h a e (S (S n))) with ((a + h)%Qc :: walk h (a + h)%Qc e (S n)). cbn [out].
      assert (LT : (a < a + h)%Qc) by qc. assert (GAP : (a + h - a <= h)%Qc) by qc.
      destruct (qle s (a + h)) eqn:B.
      * apply qle_spec in B. apply between; assumption.
      * apply qle_false in B. apply IH; [|apply keep; assumption|apply Qclt_le_weak, B|exact U].
        destruct C as (C1 & C2 & C3). split; [rewrite times_S in C1; qc|]. split; [qc|].
        intros m M. assert (X1 := C3 (S m) ltac:(lia)). rewrite times_S in X1. qc.
Qed.
End Keep.

Lemma apart_triangle a b c : apart a c <= apart a b + apart b c.
Proof.
  rewrite !apart_nrm. replace (fst a - fst c, snd a - snd c) with (fst (fst a - fst b, snd a - snd b) + fst (fst b - fst c, snd b - snd c),
    snd (fst a - fst b, snd a - snd b) + snd (fst b - fst c, snd b - snd c)) by (cbn [fst snd]; apply f_equal2; ring).
  apply nrm_triangle.
Qed.

Lemma nrm_scaled c u v : nrm (c * u, c * v) = Rabs c * nrm (u, v).
Proof. exact (nrm_scale c (u, v)). Qed.

(** ** Steps and interpolation along the spiral *)
Section Spiral.
Variable h : Qc.
Hypothesis H : (0 < h)%Qc.
Hypothesis H1 : (h <= 1)%Qc.
Let step := rk4_step padd pmul (fun _ => diff_eq_rhs true).
Let near (a : Qc) (y : point) : Prop := (0 <= a)%Qc /\ apart y (curve (to_real a)) <= to_real a * to_real h ^ 4.
Let close (s : Qc) (y : point) : Prop := apart y (curve (to_real s)) <= 401 / 400 * to_real h ^ 2 + to_real s * to_real h ^ 4.

Lemma real_1 : to_real 1%Qc = 1.
Proof. unfold to_real, Q2R. cbn. lra. Qed.

Lemma gap_real a b : (a < b)%Qc -> (b - a <= h)%Qc -> to_real a < to_real b /\ to_real b - to_real a <= to_real h /\ 0 < to_real h <= 1.
Proof.
  intros A B. apply real_lt in A. apply real_le in B. rewrite real_minus in B.
  assert (X := real_lt _ _ H). assert (Y := real_le _ _ H1). rewrite real_0 in X. rewrite real_1 in Y. lra.
Qed.

Lemma near_step a b y : (a < b)%Qc -> (b - a <= h)%Qc -> near a y -> near b (padd y (step a (b - a)%Qc y)).
Proof.
  intros A B (A0 & N). destruct (gap_real a b A B) as (AB & GAP & HH). unfold step.
  rewrite step_poly, real_minus. set (d := to_real b - to_real a) in *.
  assert (A0' := real_le _ _ A0). rewrite real_0 in A0'. split; [apply Qclt_le_weak, (Qcle_lt_trans _ a); assumption|].
  replace (to_real b) with (to_real a + d) by (unfold d; ring).
  assert (D : 0 < d) by (unfold d; lra).
  apply Rle_trans with (apart (cm (poly d) y) (cm (poly d) (curve (to_real a))) + apart (cm (poly d) (curve (to_real a))) (curve (to_real a + d)));
    [apply apart_triangle|].
  assert (E1 : apart (cm (poly d) y) (cm (poly d) (curve (to_real a))) <= to_real a * to_real h ^ 4).
  { rewrite apart_nrm. unfold cm at 1 2 3 4. cbn [fst snd].
    replace (_, _) with (cm (poly d) (fst y - fst (curve (to_real a)), snd y - snd (curve (to_real a))))
      by (unfold cm; cbn [fst snd]; apply f_equal2; ring).
    rewrite nrm_cm. rewrite <- (Rmult_1_l (to_real a * _)). apply Rmult_le_compat; [apply nrm_pos|apply nrm_pos| |exact N].
    apply nrm_le; [lra|]. generalize (shrinks d ltac:(lra)). lra. }
  assert (E2 : apart (cm (poly d) (curve (to_real a))) (curve (to_real a + d)) <= 2 * (4323 / 10000 * d ^ 5)).
  { rewrite apart_nrm, !(curve_turn (to_real a + d)), turn_add. rewrite (curve_turn (to_real a)). unfold cm. cbn [fst snd].
    replace (_, _) with (2 * fst (cm (turn (to_real a)) (fst (poly d) - fst (turn d), snd (poly d) - snd (turn d))),
                         2 * snd (cm (turn (to_real a)) (fst (poly d) - fst (turn d), snd (poly d) - snd (turn d))))
      by (unfold cm; cbn [fst snd]; apply f_equal2; ring).
    rewrite nrm_scale, nrm_cm, (Rabs_pos_eq 2) by lra. apply Rmult_le_compat_l; [lra|]. rewrite <- (Rmult_1_l (4323 / 10000 * _)).
    apply Rmult_le_compat; [apply nrm_pos|apply nrm_pos|apply nrm_turn_le; lra|]. apply local_error. lra. }
  assert (F4 : d ^ 4 <= to_real h ^ 4) by (apply pow_incr; lra).
  assert (F5 : d ^ 5 <= d * to_real h ^ 4) by (replace (d ^ 5) with (d * d ^ 4) by ring; apply Rmult_le_compat_l; lra).
  assert (F0 : 0 <= d * to_real h ^ 4) by (apply Rmult_le_pos; [lra|apply pow_le; lra]). lra.
Qed.

Lemma near_close a y : near a y -> close a y.
Proof. intros (_ & N). unfold close. generalize (pow2_ge_0 (to_real h)). lra. Qed.

(** Interpolation is a mean of the two ends. *)
Lemma interp_mean a b y z s : (a < b)%Qc -> let w := (to_real s - to_real a) / (to_real b - to_real a) in
  linear_interp padd pmul a b y z s = (fst y + w * (fst z - fst y), snd y + w * (snd z - snd y)).
Proof.
  intros AB w. assert (AB' := real_lt _ _ AB). unfold linear_interp. destruct (Qc_eq_bool s a) eqn:EA.
  - apply qc_eq_bool_true in EA. subst s. unfold w. rewrite Rminus_diag_eq by reflexivity. unfold Rdiv. rewrite Rmult_0_l.
    destruct y as (y1, y2). cbn [fst snd]. apply f_equal2; ring.
  - destruct (Qc_eq_bool s b) eqn:EB.
    + apply qc_eq_bool_true in EB. subst s. unfold w. unfold Rdiv. rewrite Rinv_r by lra.
      destruct z as (z1, z2). cbn [fst snd]. apply f_equal2; ring.
    + unfold padd, pmul. cbn [fst snd]. rewrite real_minus, real_inv, real_minus, real_Q2Qc.
      * replace (Q2R (-1)) with (-1) by (unfold Q2R; cbn; lra). unfold w. apply f_equal2; field; lra.
      * intros E. assert (X := f_equal to_real E). rewrite real_minus, real_0 in X. lra.
Qed.

Lemma near_between a b y s : (a < b)%Qc -> (b - a <= h)%Qc -> near a y -> (a <= s)%Qc -> (s <= b)%Qc ->
  close s (linear_interp padd pmul a b y (padd y (step a (b - a)%Qc y)) s).
Proof.
  intros A B N L U. destruct (near_step a b y A B N) as (B0 & NB). set (z := padd y (step a (b - a)%Qc y)) in *. clearbody z.
  destruct N as (A0 & NA). destruct (gap_real a b A B) as (AB & GAP & HH). rewrite interp_mean by exact A.
  apply real_le in L, U. assert (A0' := real_le _ _ A0). rewrite real_0 in A0'. set (w := (to_real s - to_real a) / (to_real b - to_real a)).
  assert (W : 0 <= w <= 1).
  { unfold w. split; [apply Rmult_le_pos; [lra|left; apply Rinv_0_lt_compat; lra]|].
    apply (Rmult_le_reg_r (to_real b - to_real a)); [lra|]. unfold Rdiv. rewrite Rmult_assoc, Rinv_l by lra. lra. }
  assert (WS : to_real s = (1 - w) * to_real a + w * to_real b) by (unfold w; field; lra).
  set (ca := curve (to_real a)) in *. set (cb := curve (to_real b)) in *. unfold close.
  apply Rle_trans with (apart (fst y + w * (fst z - fst y), snd y + w * (snd z - snd y))
                              (fst ca + w * (fst cb - fst ca), snd ca + w * (snd cb - snd ca))
                        + apart (fst ca + w * (fst cb - fst ca), snd ca + w * (snd cb - snd ca)) (curve (to_real s)));
    [apply apart_triangle|].
  assert (E1 : apart (fst y + w * (fst z - fst y), snd y + w * (snd z - snd y)) (fst ca + w * (fst cb - fst ca), snd ca + w * (snd cb - snd ca))
               <= to_real s * to_real h ^ 4).
  { rewrite apart_nrm. cbn [fst snd].
    replace (_, _) with (fst ((1 - w) * (fst y - fst ca), (1 - w) * (snd y - snd ca)) + fst (w * (fst z - fst cb), w * (snd z - snd cb)),
                         snd ((1 - w) * (fst y - fst ca), (1 - w) * (snd y - snd ca)) + snd (w * (fst z - fst cb), w * (snd z - snd cb)))
      by (cbn [fst snd]; apply f_equal2; ring).
    eapply Rle_trans; [apply nrm_triangle|].
    rewrite !nrm_scaled.
    rewrite <- !apart_nrm. rewrite !Rabs_pos_eq by lra. rewrite WS.
    assert (X1 := Rmult_le_compat_l (1 - w) _ _ ltac:(lra) NA). assert (X2 := Rmult_le_compat_l w _ _ ltac:(lra) NB). lra. }
  assert (E2 : apart (fst ca + w * (fst cb - fst ca), snd ca + w * (snd cb - snd ca)) (curve (to_real s)) <= 401 / 400 * to_real h ^ 2).
  { rewrite apart_nrm. cbn [fst snd].
    replace (_, _) with (-1 * fst (fst (curve (to_real s)) - (fst ca + w * (fst cb - fst ca)), snd (curve (to_real s)) - (snd ca + w * (snd cb - snd ca))),
                         -1 * snd (fst (curve (to_real s)) - (fst ca + w * (fst cb - fst ca)), snd (curve (to_real s)) - (snd ca + w * (snd cb - snd ca))))
      by (cbn [fst snd]; apply f_equal2; ring).
    rewrite nrm_scale, Rabs_left by lra. replace (- -1) with 1 by ring. rewrite Rmult_1_l.
    eapply Rle_trans; [apply curve_chord; lra|]. apply Rmult_le_compat_l; [lra|]. apply pow_incr. lra. }
  lra.
Qed.

Lemma solver_close a ts : (0 <= a)%Qc -> StronglySorted Qclt (a :: ts) -> forall x, near a x ->
  exists values, fixed_grid padd pmul step (Some h) x (a :: ts) = Ok values /\ Forall2 close (a :: ts) values.
Proof.
  intros A0 SS x N. destruct (solver_values padd pmul step h a ts _ x H SS eq_refl) as (n & C & E).
  eexists. split; [exact E|].
  assert (G : forall l, (forall s, In s l -> (a <= s)%Qc /\ (s <= last (a :: ts) a)%Qc) ->
    Forall2 close l (map (out padd pmul step a (walk h a (last (a :: ts) a) n) x) l)).
  { induction l as [|s l IH]; intros B; [constructor|]. cbn [map]. constructor; [|apply IH; intros; apply B; right; assumption].
    destruct (B s (or_introl eq_refl)) as (L & U).
    apply (out_keeps padd pmul step near close h H near_step near_between near_close); assumption. }
  apply G. intros s [<-|I]; [split; [apply Qcle_refl|apply (sorted_last a ts SS)]|].
  split; [|apply (sorted_below a ts SS s a I)]. inversion SS as [|? ? _ F]; subst.
  apply Qclt_le_weak. exact (proj1 (Forall_forall _ _) F s I).
Qed.

Lemma near_start : near 0%Qc (2, 0).
Proof.
  split; [apply Qcle_refl|]. rewrite real_0. destruct curve_moves as (_ & ->). rewrite apart_nrm. cbn [fst snd].
  rewrite !Rminus_diag_eq by reflexivity. unfold nrm. cbn [fst snd]. rewrite Rmult_0_l, Rplus_0_l, sqrt_0. lra.
Qed.
End Spiral.

(** ** The times *)
Definition gap (m : nat) : Qc := (Q2Qc 10 / qn (S m))%Qc.

Lemma gap_pos m : (0 < gap m)%Qc.
Proof. apply qc_div_pos; [reflexivity|apply qn_pos; lia]. Qed.

Lemma data_times m : linspace 0%Qc (Q2Qc 10) (Z.of_nat (S (S m))) = Ok (map (fun i => times i (gap m)) (seq 0 (S (S m)))).
Proof.
  unfold linspace. destruct (Z.ltb_spec (Z.of_nat (S (S m))) 0); [lia|]. destruct (Z.eqb_spec (Z.of_nat (S (S m))) 1); [lia|].
  rewrite Nat2Z.id. f_equal. apply map_ext. intros i. unfold times, gap, qn.
  replace (Z.of_nat (S (S m)) - 1)%Z with (Z.of_nat (S m)) by lia. replace (Q2Qc 10 - 0)%Qc with (Q2Qc 10) by ring. ring.
Qed.

Lemma times_sorted d : (0 < d)%Qc -> forall n k, StronglySorted Qclt (map (fun i => times i d) (seq k n)).
Proof.
  intros D. induction n as [|n IH]; intros k; [constructor|]. cbn [seq map]. constructor; [apply IH|].
  apply Forall_forall. intros s I. apply in_map_iff in I as (i & <- & I). apply in_seq in I. apply times_lt; [exact D|lia].
Qed.

Lemma real_times i d : to_real (times i d) = INR i * to_real d.
Proof. unfold times. rewrite real_mult, real_Q2Qc. f_equal. unfold Q2R. cbn. rewrite <- INR_IZR_INZ. lra. Qed.

Lemma real_time m i : to_real (times i (gap m)) = point_time (S (S m)) i.
Proof.
  rewrite real_times. unfold gap, point_time. replace (S (S m) - 1)%nat with (S m) by lia.
  assert (P : (0 < qn (S m))%Qc) by (apply qn_pos; lia).
  rewrite real_div by (intros E; rewrite E in P; apply (Qclt_not_eq _ _ P); reflexivity).
  unfold qn. rewrite !real_Q2Qc. replace (Q2R 10) with 10 by (unfold Q2R; cbn; lra).
  replace (Q2R (inject_Z (Z.of_nat (S m)))) with (INR (S m)) by (unfold Q2R; cbn [Qnum Qden inject_Z]; rewrite <- INR_IZR_INZ; lra).
  unfold Rdiv. ring.
Qed.

Lemma times_shape m : exists ts, map (fun i => times i (gap m)) (seq 0 (S (S m))) = 0%Qc :: ts ++ [Q2Qc 10].
Proof.
  exists (map (fun i => times i (gap m)) (seq 1 m)). change (seq 0 (S (S m))) with (0%nat :: seq 1 (S m)). rewrite seq_S, map_cons, map_app, times_0.
  cbn [map Nat.add]. apply f_equal2; [reflexivity|]. apply f_equal2; [reflexivity|]. apply f_equal2; [|reflexivity].
  assert (P : (0 < qn (S m))%Qc) by (apply qn_pos; lia). unfold times, gap. fold (qn (S m)). field.
  intros E. rewrite E in P. apply (Qclt_not_eq _ _ P). reflexivity.
Qed.

Lemma f2_length {A B} (R : A -> B -> Prop) l v : Forall2 R l v -> List.length l = List.length v.
Proof. intros F. induction F; cbn; congruence. Qed.

(** ** The data *)
Definition rk4_data (q : Q) (t : list Qc) : result (list point) :=
  fixed_grid padd pmul (rk4_step padd pmul (fun _ => diff_eq_rhs true)) (Some (Q2Qc q)) (2, 0) t.

Lemma data_made other odesolver words ns m q : parse_args spiral_parser words = Some ns -> asks_rk4 ns (S (S m)) q -> (0 < q)%Q ->
  let t := map (fun i => times i (gap m)) (seq 0 (S (S m))) in
  exists values, rk4_data q t = Ok values /\ generate_points other odesolver ns = Ok (t, values).
Proof.
  intros E (LI & DS & ME & ST & nc & q' & NC & Q' & CH) HQ t. unfold option_is in *.
  pose proof spiral_nodup as nd. pose proof spiral_defaults as df. got_flag nd df E "adjoint" ad AD.
  set (nr := if (0 <? nc)%Z then Some nc else None) in *. set (dt := if negb (Qle_bool q' 0) then Some (Q2Qc q') else None) in *.
  destruct (integrator_made "rk4" ad q nr dt ltac:(right; right; left; reflexivity)) as (hp & j & MJ & J1 & J2 & J3 & J4 & J5 & J6).
  assert (H : (0 < Q2Qc q)%Qc) by (unfold Qclt; cbn; rewrite Qred_correct; exact HQ).
  destruct (times_shape m) as (ts & TS). fold t in TS.
  assert (SS : StronglySorted Qclt (0%Qc :: ts ++ [Q2Qc 10])) by (rewrite <- TS; apply times_sorted, gap_pos).
  set (i := mkIntegrator "odeint" "rk4" ad (i_options j) None None None).
  assert (O : option_step_size (heap_get hp (i_options i)) = Some (Q2Qc q)).
  { cbn [i i_options]. rewrite J6. reflexivity. }
  assert (DI : exists values, rk4_data q t = Ok values /\
    integrate (fixed_odeint padd pmul (fun _ => diff_eq_rhs true) other) odesolver hp i (2, 0) t = (hp, Ok (Some values))).
  { unfold rk4_data. rewrite TS.
    destruct (solver_values padd pmul (rk4_step padd pmul (fun _ => diff_eq_rhs true)) (Q2Qc q) 0%Qc (ts ++ [Q2Qc 10]) _ (2, 0) H SS eq_refl)
      as (n & _ & V).
    eexists. split; [exact V|]. destruct (ts ++ [Q2Qc 10]) as [|t1 tr] eqn:ET; [destruct ts; discriminate ET|].
    apply (direct_integrate padd pmul (fun _ => diff_eq_rhs true) other odesolver hp i (rk4_step padd pmul (fun _ => diff_eq_rhs true)) (Q2Qc q)); try reflexivity; assumption. }
  destruct DI as (values & V & DI). exists values. split; [exact V|].
  assert (IJ : integrate (fixed_odeint padd pmul (fun _ => diff_eq_rhs true) other) odesolver hp j (2, 0) t = (hp, Ok (Some values))).
  { destruct CH as [(C1 & C2)|AL].
    - replace j with (mkIntegrator (i_library j) (i_name j) (i_adjoint j) (i_options j) (i_step_size j) None None).
      + rewrite J1, J2, J3. exact DI.
      + destruct j. cbn in *. congruence.
    - rewrite TS in DI |- *.
      destruct (fixed_checkpoints padd pmul (fun _ => diff_eq_rhs true) other odesolver hp i j (2, 0) (Q2Qc q) 0%Qc ts (Q2Qc 10)) as (X & _);
        try assumption; try reflexivity.
      + right. right. left. reflexivity.
      + rewrite J4, J5. exact AL.
      + rewrite X. exact DI. }
  unfold generate_points, data_integrator, num_of, int_of, text_of, flag_of. rewrite Q', NC, ME, ST, AD. cbn [bind].
  fold nr dt. rewrite MJ. cbn [bind]. rewrite DS, LI. cbn [bind]. rewrite data_times. fold t. cbn [bind fst snd].
  rewrite IJ. reflexivity.
Qed.

Lemma data_close other odesolver words ns n q : parse_args spiral_parser words = Some ns -> asks_rk4 ns n q -> (2 <= n)%nat -> (0 < q <= 1)%Q ->
  exists t y, generate_points other odesolver ns = Ok (t, y) /\ List.length y = n /\
    forall i p, nth_error y i = Some p -> apart p (curve (point_time n i)) <= 401 / 400 * Q2R q ^ 2 + point_time n i * Q2R q ^ 4.
Proof.
  intros E A N (Q0 & Q1). destruct n as [|[|m]]; [lia|lia|]. destruct (data_made other odesolver words ns m q E A Q0) as (values & V & G).
  eexists. eexists. split; [exact G|].
  assert (H : (0 < Q2Qc q)%Qc) by (unfold Qclt; cbn; rewrite Qred_correct; exact Q0).
  assert (H1 : (Q2Qc q <= 1)%Qc) by (unfold Qcle; cbn; rewrite Qred_correct; exact Q1).
  destruct (times_shape m) as (ts & TS).
  assert (SS : StronglySorted Qclt (0%Qc :: ts ++ [Q2Qc 10])) by (rewrite <- TS; apply times_sorted, gap_pos).
  destruct (solver_close (Q2Qc q) H H1 0%Qc (ts ++ [Q2Qc 10]) (Qcle_refl _) SS (2, 0) (near_start _)) as (v & V' & F).
  rewrite <- TS in V', F. unfold rk4_data in V. rewrite V in V'. injection V' as <-. split.
  { rewrite <- (f2_length _ _ _ F), map_length, seq_length. reflexivity. }
  intros i p P. assert (I : (i < S (S m))%nat).
  { replace (S (S m)) with (List.length values) by (rewrite <- (f2_length _ _ _ F), map_length, seq_length; reflexivity).
    apply nth_error_Some. congruence. }
  assert (X : nth_error (map (fun i => times i (gap m)) (seq 0 (S (S m)))) i = Some (times i (gap m))).
  { rewrite (map_nth_error _ _ (seq 0 (S (S m))) (d := i)); [reflexivity|].
    rewrite (nth_error_nth' _ 0%nat) by (rewrite seq_length; exact I). rewrite seq_nth by exact I. reflexivity. }
  assert (G2 : forall (l : list Qc) (v : list point) R, Forall2 R l v -> forall i a b, nth_error l i = Some a -> nth_error v i = Some b -> R a b).
  { clear. intros l v R F. induction F as [|a b l v r F IH]; intros [|i] a' b'; cbn; try discriminate; [|apply IH].
    intros [= <-] [= <-]. exact r. }
  assert (C := G2 _ _ _ F i _ _ X P). cbv beta in C. rewrite real_time, real_Q2Qc in C. exact C.
Qed.

(** ** Distances from the origin *)
Lemma whole_nrm h k : forall t y, nrm (whole_steps (fun t dt y => padd y (rk4_step padd pmul (fun _ => diff_eq_rhs true) t dt y)) h t k y)
  = nrm (poly (to_real h)) ^ k * nrm y.
Proof.
  induction k as [|k IH]; intros t y; cbn [whole_steps]; [cbn; ring|]. rewrite IH, step_poly, nrm_cm. cbn [pow]. ring.
Qed.

Lemma radius_nrm a : radius a = nrm a.
Proof. unfold radius. rewrite apart_nrm. cbn [fst snd]. rewrite !Rminus_0_r. destruct a. reflexivity. Qed.

(** The [k]-th grid time is the [i]-th time. *)
Lemma data_radius other odesolver words ns n q : parse_args spiral_parser words = Some ns -> asks_rk4 ns n q -> (2 <= n)%nat -> (0 < q)%Q ->
  exists t y, generate_points other odesolver ns = Ok (t, y) /\ List.length y = n /\
    forall i k p, nth_error y i = Some p -> point_time n i = INR k * Q2R q -> radius p = 2 * nrm (poly (Q2R q)) ^ k.
Proof.
  intros E A N Q0. destruct n as [|[|m]]; [lia|lia|]. destruct (data_made other odesolver words ns m q E A Q0) as (values & V & G).
  eexists. eexists. split; [exact G|].
  assert (H : (0 < Q2Qc q)%Qc) by (unfold Qclt; cbn; rewrite Qred_correct; exact Q0).
  destruct (times_shape m) as (ts & TS).
  assert (SS : StronglySorted Qclt (0%Qc :: ts ++ [Q2Qc 10])) by (rewrite <- TS; apply times_sorted, gap_pos).
  destruct (values_on_grid padd pmul (rk4_step padd pmul (fun _ => diff_eq_rhs true)) (Q2Qc q) 0%Qc (ts ++ [Q2Qc 10]) (2, 0) H SS) as (v & V' & L & W).
  unfold rk4_data in V. rewrite <- TS in V', W. rewrite V in V'. injection V' as <-.
  assert (LL : List.length values = S (S m)).
  { rewrite L. assert (X := f_equal (@List.length Qc) TS). rewrite map_length, seq_length in X. cbn [List.length] in X. lia. }
  split; [exact LL|]. intros i k p P T.
  assert (I : (i < S (S m))%nat) by (rewrite <- LL; apply nth_error_Some; congruence).
  assert (X : nth_error (map (fun i => times i (gap m)) (seq 0 (S (S m)))) i = Some (times i (gap m))).
  { rewrite (map_nth_error _ _ (seq 0 (S (S m))) (d := i)); [reflexivity|].
    rewrite (nth_error_nth' _ 0%nat) by (rewrite seq_length; exact I). rewrite seq_nth by exact I. reflexivity. }
  assert (TT : times i (gap m) = (0 + times k (Q2Qc q))%Qc).
  { apply Qc_is_canon, eqR_Qeq. fold (to_real (times i (gap m))) (to_real (0 + times k (Q2Qc q))%Qc).
    rewrite real_plus, real_0, real_time, real_times, real_Q2Qc, T. ring. }
  rewrite TT in X. destruct (W i k X) as (Y & _). rewrite P in Y. injection Y as ->.
  rewrite radius_nrm, whole_nrm, real_Q2Qc. replace (nrm (2, 0)) with 2; [ring|].
  unfold nrm. cbn [fst snd]. replace (2 * 2 + 0 * 0) with (2 * 2) by ring. symmetry. apply sqrt_square. lra.
Qed.

Lemma nrm_shrinks h : 0 < h <= 1 -> nrm (poly h) < 1.
Proof. intros H. unfold nrm. rewrite <- sqrt_1. apply sqrt_lt_1_alt. split; [|apply shrinks, H]. nra. Qed.
Lemma nrm_grows h : 3 / 2 <= h -> 1 < nrm (poly h).
Proof. intros H. unfold nrm. rewrite <- sqrt_1 at 1. apply sqrt_lt_1_alt. split; [lra|apply grows, H]. Qed.
Lemma nrm_poly_pos h : 0 < h <= 1 -> 0 < nrm (poly h).
Proof.
  intros H. assert (T := local_error h ltac:(lra)). assert (U := nrm_turn h).
  assert (X : nrm (turn h) <= nrm (poly h) + nrm (fst (poly h) - fst (turn h), snd (poly h) - snd (turn h))).
  { replace (turn h) with (fst (poly h) + fst (-1 * (fst (poly h) - fst (turn h)), -1 * (snd (poly h) - snd (turn h))),
                           snd (poly h) + snd (-1 * (fst (poly h) - fst (turn h)), -1 * (snd (poly h) - snd (turn h)))) at 1
      by (destruct (turn h); cbn [fst snd]; apply f_equal2; ring).
    eapply Rle_trans; [apply nrm_triangle|]. rewrite nrm_scaled, Rabs_left by lra. lra. }
  assert (Y : 9 / 10 <= exp (- (h / 10))) by (generalize (exp_ineq1_le (- (h / 10))); lra).
  assert (Z := pow_unit h 5 ltac:(lra)). lra.
Qed.

Lemma data_inwards other odesolver words ns n q : parse_args spiral_parser words = Some ns -> asks_rk4 ns n q -> (2 <= n)%nat -> (0 < q <= 1)%Q ->
  exists t y, generate_points other odesolver ns = Ok (t, y) /\
    forall i j k l a b, (i < j)%nat -> nth_error y i = Some a -> nth_error y j = Some b ->
      point_time n i = INR k * Q2R q -> point_time n j = INR l * Q2R q -> 0 < radius b < radius a.
Proof.
  intros E A N (Q0 & Q1). destruct (data_radius other odesolver words ns n q E A N Q0) as (t & y & G & _ & R).
  exists t, y. split; [exact G|]. intros i j k l a b IJ PA PB TI TJ. rewrite (R i k a PA TI), (R j l b PB TJ).
  assert (H : 0 < Q2R q <= 1).
  { apply Qlt_Rlt in Q0. apply Qle_Rle in Q1. replace (Q2R 0) with 0 in Q0 by (unfold Q2R; cbn; lra).
    replace (Q2R 1) with 1 in Q1 by (unfold Q2R; cbn; lra). lra. }
  assert (KL : (k < l)%nat).
  { apply INR_lt, (Rmult_lt_reg_r (Q2R q)); [lra|]. rewrite <- TI, <- TJ. unfold point_time, Rdiv.
    apply Rmult_lt_compat_r; [apply Rinv_0_lt_compat, lt_0_INR; lia|]. apply Rmult_lt_compat_l; [lra|apply lt_INR, IJ]. }
  assert (P := nrm_poly_pos _ H). assert (S1 := nrm_shrinks _ H). set (r := nrm (poly (Q2R q))) in *.
  assert (Z : forall m, 0 < r ^ m) by (intros; apply pow_lt, P). split; [generalize (Z l); lra|].
  replace l with (k + S (l - k - 1))%nat by lia. rewrite pow_add. set (m := (l - k - 1)%nat).
  assert (X : r ^ S m < 1).
  { cbn [pow]. assert (Y : r ^ m <= 1 ^ m) by (apply pow_incr; lra). rewrite pow1 in Y. generalize (Z m). intros.
    assert (r * r ^ m <= r * 1) by (apply Rmult_le_compat_l; lra). lra. }
  assert (Y := Rmult_lt_compat_l (r ^ k) _ _ (Z k) X). lra.
Qed.

Lemma data_outwards other odesolver words ns n q : parse_args spiral_parser words = Some ns -> asks_rk4 ns n q -> (2 <= n)%nat -> (3 # 2 <= q)%Q ->
  exists t y, generate_points other odesolver ns = Ok (t, y) /\
    forall i j k l a b, (i < j)%nat -> nth_error y i = Some a -> nth_error y j = Some b ->
      point_time n i = INR k * Q2R q -> point_time n j = INR l * Q2R q -> radius a < radius b.
Proof.
  intros E A N Q1. assert (Q0 : (0 < q)%Q) by (apply Qlt_le_trans with (3 # 2); [reflexivity|exact Q1]).
  destruct (data_radius other odesolver words ns n q E A N Q0) as (t & y & G & _ & R).
  exists t, y. split; [exact G|]. intros i j k l a b IJ PA PB TI TJ. rewrite (R i k a PA TI), (R j l b PB TJ).
  assert (H : 3 / 2 <= Q2R q).
  { apply Qle_Rle in Q1. replace (Q2R (3 # 2)) with (3 / 2) in Q1 by (unfold Q2R; cbn; lra). exact Q1. }
  assert (KL : (k < l)%nat).
  { apply INR_lt, (Rmult_lt_reg_r (Q2R q)); [lra|]. rewrite <- TI, <- TJ. unfold point_time, Rdiv.
    apply Rmult_lt_compat_r; [apply Rinv_0_lt_compat, lt_0_INR; lia|]. apply Rmult_lt_compat_l; [lra|apply lt_INR, IJ]. }
  assert (S1 := nrm_grows _ H). apply Rmult_lt_compat_l; [lra|]. apply Rlt_pow; assumption.
Qed.

(** ** A step which is too long *)
Definition long_words : list string := ["--linear"; "--stepsize"; "2"; "--data_size"; "6"].

Lemma data_explodes : exists words ns, parse_args spiral_parser words = Some ns /\ option_is ns "linear" (AFlag true) /\
  forall other odesolver, exists t y p, generate_points other odesolver ns = Ok (t, y) /\ nth_error y 5 = Some p /\
    point_time (List.length y) 5 = 10 /\ 1000 < radius p /\ radius (curve 10) <= 2.
Proof.
  exists long_words. eexists. split; [vm_compute; reflexivity|]. split; [reflexivity|]. intros other odesolver.
  destruct (data_radius other odesolver long_words _ 6 (2 # 1) ltac:(vm_compute; reflexivity)
    ltac:(repeat split; try reflexivity; exists 0%Z, 0%Q; repeat split; left; split; reflexivity) ltac:(lia) ltac:(reflexivity))
    as (t & y & G & L & R).
  assert (P : exists p, nth_error y 5 = Some p).
  { destruct (nth_error y 5) as [p|] eqn:P; [exists p; reflexivity|]. apply nth_error_None in P. lia. }
  destruct P as (p & P). exists t, y, p. split; [exact G|]. split; [exact P|].
  assert (T : point_time 6 5 = 10) by (unfold point_time; cbn [Nat.sub]; replace (INR 5) with 5 by (cbn; lra); field).
  split; [rewrite L; exact T|]. split.
  - assert (Q2 : Q2R (2 # 1) = 2) by (unfold Q2R; cbn; lra).
    rewrite (R 5%nat 5%nat p P) by (rewrite T, Q2; replace (INR 5) with 5 by (cbn; lra); lra). rewrite Q2.
    assert (X : 4 <= nrm (poly 2)).
    { unfold nrm. rewrite <- (sqrt_square 4) by lra. apply sqrt_le_1_alt. rewrite poly_square. lra. }
    assert (Y : 4 ^ 5 <= nrm (poly 2) ^ 5) by (apply pow_incr; lra). lra.
  - rewrite radius_nrm, nrm_curve. generalize (exp_small (10 / 10) ltac:(lra)). lra.
Qed.

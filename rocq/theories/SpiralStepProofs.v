(** One step of rk4 along the spiral. *)
From Coq Require Import Reals QArith Qcanon Qreals Lra Psatz.
From Coquelicot Require Import Coquelicot.
From Verif Require Import IntegratorModel FixedGridModel SpiralDataModel SpiralDataSpec SpiralCurveProofs.
Open Scope R_scope.

(** ** Rational and real numbers *)
Lemma real_Q2Qc q : to_real (Q2Qc q) = Q2R q.
Proof. unfold to_real. apply Qeq_eqR. apply Qred_correct. Qed.
Lemma real_plus a b : to_real (a + b)%Qc = to_real a + to_real b.
Proof. unfold Qcplus. rewrite real_Q2Qc. apply Q2R_plus. Qed.
Lemma real_opp a : to_real (- a)%Qc = - to_real a.
Proof. unfold Qcopp. rewrite real_Q2Qc. apply Q2R_opp. Qed.
Lemma real_minus a b : to_real (a - b)%Qc = to_real a - to_real b.
Proof. unfold Qcminus. rewrite real_plus, real_opp. reflexivity. Qed.
Lemma real_mult a b : to_real (a * b)%Qc = to_real a * to_real b.
Proof. unfold Qcmult. rewrite real_Q2Qc. apply Q2R_mult. Qed.
Lemma real_lt a b : (a < b)%Qc -> to_real a < to_real b.
Proof. intros L. apply Qlt_Rlt, L. Qed.
Lemma real_le a b : (a <= b)%Qc -> to_real a <= to_real b.
Proof. intros L. apply Qle_Rle, L. Qed.
Lemma real_0 : to_real 0%Qc = 0.
Proof. unfold to_real. cbn. unfold Q2R. cbn. lra. Qed.
Lemma real_inv a : (a <> 0)%Qc -> to_real (/ a)%Qc = / to_real a.
Proof.
  intros N. unfold Qcinv. rewrite real_Q2Qc. apply Q2R_inv. intros E. apply N. apply Qc_is_canon. rewrite E. reflexivity.
Qed.
Lemma real_div a b : (b <> 0)%Qc -> to_real (a / b)%Qc = to_real a / to_real b.
Proof. intros N. unfold Qcdiv. rewrite real_mult, real_inv by exact N. reflexivity. Qed.

(** ** The step as a product *)
Definition poly (h : R) : R * R :=
  (1 - h / 10 - 399 / 200 * h ^ 2 + 1199 / 6000 * h ^ 3 + 157601 / 240000 * h ^ 4,
   2 * h - h ^ 2 / 5 - 397 / 300 * h ^ 3 + 133 / 1000 * h ^ 4).

Lemma real_third : to_real (1 / Q2Qc 3)%Qc = 1 / 3.
Proof. rewrite real_div by discriminate. rewrite !real_Q2Qc. unfold Q2R. cbn. field. Qed.
Lemma real_neg_third : to_real (- (1 / Q2Qc 3))%Qc = - (1 / 3).
Proof. rewrite real_opp, real_third. reflexivity. Qed.
Lemma real_eighth dt : to_real (dt / Q2Qc 8)%Qc = to_real dt / 8.
Proof. rewrite real_div by discriminate. rewrite !real_Q2Qc. unfold Q2R. cbn. field. Qed.
Lemma real_neg : to_real (Q2Qc (-1)) = -1.
Proof. rewrite real_Q2Qc. unfold Q2R. cbn. field. Qed.
Lemma real_three : to_real (Q2Qc 3) = 3.
Proof. rewrite real_Q2Qc. unfold Q2R. cbn. field. Qed.

(** The four slopes of a step, as multiples of the state. *)
Lemma step_poly t dt y : padd y (rk4_step padd pmul (fun _ => diff_eq_rhs true) t dt y) = cm (poly (to_real dt)) y.
Proof.
  unfold rk4_step. cbv zeta. set (third := (1 / Q2Qc 3)%Qc). set (h := to_real dt).
  set (k1 := diff_eq_rhs true y).
  assert (E1 : k1 = cm (- (1 / 10), 2) y).
  { unfold k1, diff_eq_rhs, mm, cm. cbn [fst snd]. apply f_equal2; ring. }
  set (k2 := diff_eq_rhs true (padd y (pmul (dt * third)%Qc k1))).
  assert (E2 : k2 = cm (- (1 / 10) - 133 / 100 * h, 2 - 2 / 15 * h) y).
  { unfold k2. rewrite E1. unfold diff_eq_rhs, mm, padd, pmul, cm. cbn [fst snd]. rewrite real_mult. fold h.
    unfold third. rewrite real_third. apply f_equal2; field. }
  set (k3 := diff_eq_rhs true (padd y (pmul dt (padd (pmul (- third)%Qc k1) k2)))).
  assert (E3 : k3 = cm (- (1 / 10) - 133 / 50 * h + 1199 / 3000 * h ^ 2, 2 - 4 / 15 * h - 397 / 150 * h ^ 2) y).
  { unfold k3. rewrite E1, E2. unfold diff_eq_rhs, mm, padd, pmul, cm. cbn [fst snd]. fold h.
    unfold third. rewrite real_neg_third. apply f_equal2; field. }
  set (k4 := diff_eq_rhs true (padd y (pmul dt (padd (padd k1 (pmul (Q2Qc (-1)) k2)) k3)))).
  assert (E4 : k4 = cm (- (1 / 10) - 399 / 100 * h + 1199 / 3000 * h ^ 2 + 157601 / 30000 * h ^ 3,
                        2 - 2 / 5 * h - 397 / 150 * h ^ 2 + 133 / 125 * h ^ 3) y).
  { unfold k4. rewrite E1, E2, E3. unfold diff_eq_rhs, mm, padd, pmul, cm. cbn [fst snd]. fold h.
    rewrite real_neg. apply f_equal2; field. }
  clearbody k1 k2 k3 k4. rewrite E1, E2, E3, E4. unfold padd, pmul, cm, poly. cbn [fst snd].
  rewrite real_eighth, real_three. fold h. clearbody h. apply f_equal2; field.
Qed.

(** The square of the factor by which a step changes the distance from the origin. *)
Lemma poly_square h : fst (poly h) * fst (poly h) + snd (poly h) * snd (poly h)
  = 1 + h * (- (1 / 5) + 1 / 50 * h - 1 / 750 * h ^ 2 + 1 / 15000 * h ^ 3 + 159197 / 1200000 * h ^ 4 - 12703279 / 14400000 * h ^ 5
             - 64481201 / 720000000 * h ^ 6 + 25856961601 / 57600000000 * h ^ 7).
Proof. unfold poly. cbn [fst snd]. field. Qed.

Lemma pow_unit h n : 0 <= h <= 1 -> 0 <= h ^ n <= 1.
Proof.
  intros H. split; [apply pow_le; lra|]. rewrite <- (pow1 n). apply pow_incr. lra.
Qed.

Lemma shrinks h : 0 < h <= 1 -> fst (poly h) * fst (poly h) + snd (poly h) * snd (poly h) < 1.
Proof.
  intros H. rewrite poly_square. assert (H' : 0 <= h <= 1) by lra.
  assert (A2 := pow_unit h 2 H'). assert (A3 := pow_unit h 3 H'). assert (A4 := pow_unit h 4 H').
  assert (A5 := pow_unit h 5 H'). assert (A6 := pow_unit h 6 H').
  assert (A7 : h ^ 7 <= h ^ 5).
  { replace (h ^ 7) with (h ^ 5 * h ^ 2) by ring. rewrite <- (Rmult_1_r (h ^ 5)) at 2. apply Rmult_le_compat_l; lra. }
  match goal with |- 1 + h * ?q < 1 => assert (Q : q < 0) by lra; assert (X := Rmult_lt_compat_l h q 0 ltac:(lra) Q); lra end.
Qed.

Lemma grows h : 3 / 2 <= h -> 1 < fst (poly h) * fst (poly h) + snd (poly h) * snd (poly h).
Proof.
  intros H. rewrite poly_square.
  assert (P2 : 9 / 4 <= h ^ 2) by (apply Rle_trans with ((3 / 2) ^ 2); [lra|apply pow_incr; lra]).
  assert (P4 : 5 <= h ^ 4) by (apply Rle_trans with ((3 / 2) ^ 4); [lra|apply pow_incr; lra]).
  assert (B : 12 / 100 <= 25856961601 / 57600000000 * h ^ 3 - 64481201 / 720000000 * h ^ 2 - 12703279 / 14400000 * h + 159197 / 1200000).
  { replace (h ^ 3) with (h * h ^ 2) by ring. assert (X : h * (9 / 4) <= h * h ^ 2) by (apply Rmult_le_compat_l; lra).
    assert (Y : 3 / 2 * h <= h ^ 2) by (replace (h ^ 2) with (h * h) by ring; apply Rmult_le_compat_r; lra). nra. }
  assert (C : 5 * (12 / 100) <= h ^ 4 * (25856961601 / 57600000000 * h ^ 3 - 64481201 / 720000000 * h ^ 2 - 12703279 / 14400000 * h + 159197 / 1200000))
    by (apply Rmult_le_compat; lra).
  match goal with |- 1 < 1 + h * ?q => assert (Q : 0 < q) end.
  { assert (D : 0 <= h ^ 2 * (1 / 15000 * h) + (1 / 50 * h)) by (apply Rplus_le_le_0_compat; [apply Rmult_le_pos; lra|lra]).
    assert (E : h ^ 2 * (1 / 750) <= h ^ 4 * (1 / 750) ) by (replace (h ^ 4) with (h ^ 2 * h ^ 2) by ring; nra).
    assert (F : h ^ 4 * (12 / 100) <= h ^ 4 * (25856961601 / 57600000000 * h ^ 3 - 64481201 / 720000000 * h ^ 2 - 12703279 / 14400000 * h + 159197 / 1200000))
      by (apply Rmult_le_compat_l; lra).
    replace (h ^ 3) with (h ^ 2 * h) in * by ring. lra. }
  assert (X := Rmult_lt_compat_l h _ _ ltac:(lra) Q). lra.
Qed.

(** ** How far a step is from the curve *)
Lemma slope_bound F F' K t : 0 <= t -> (forall s, 0 <= s <= t -> derivable_pt_lim F s (F' s)) ->
  (forall s, 0 <= s <= t -> - (5 * K * s ^ 4) <= F' s <= 5 * K * s ^ 4) -> Rabs (F t - F 0) <= K * t ^ 5.
Proof.
  intros T D B. destruct (Rle_lt_or_eq_dec 0 t T) as [L|<-]; [|rewrite Rminus_diag_eq, Rabs_R0 by reflexivity; lra].
  apply Rabs_le. split.
  - destruct (MVT_cor2 (fun s => F s + K * s ^ 5) (fun s => F' s + 5 * K * s ^ 4) 0 t L) as (c & E & I).
    + intros c I. apply derivable_pt_lim_plus; [apply D, I|]. apply lim_derive. auto_derive; auto. ring.
    + specialize (B c ltac:(lra)). assert (X : 0 <= (F' c + 5 * K * c ^ 4) * (t - 0)) by (apply Rmult_le_pos; lra). lra.
  - destruct (MVT_cor2 (fun s => K * s ^ 5 - F s) (fun s => 5 * K * s ^ 4 - F' s) 0 t L) as (c & E & I).
    + intros c I. apply derivable_pt_lim_minus; [|apply D, I]. apply lim_derive. auto_derive; auto. ring.
    + specialize (B c ltac:(lra)). assert (X : 0 <= (5 * K * c ^ 4 - F' c) * (t - 0)) by (apply Rmult_le_pos; lra). lra.
Qed.

Definition back (t : R) : R * R :=
  (exp (t / 10) * (cos (2 * t) * fst (poly t) + sin (2 * t) * snd (poly t)),
   exp (t / 10) * (cos (2 * t) * snd (poly t) - sin (2 * t) * fst (poly t))).

Lemma back_turn t : cm (turn t) (back t) = poly t.
Proof.
  assert (X := trig1 (2 * t)). assert (Y : exp (- (t / 10)) * exp (t / 10) = 1) by (rewrite <- exp_plus, Rplus_opp_l; apply exp_0).
  destruct (poly t) as (a, b) eqn:P. unfold cm, turn, back. rewrite P. cbn [fst snd].
  set (e := exp (- (t / 10))) in *. set (e' := exp (t / 10)) in *. set (c := cos (2 * t)) in *. set (s := sin (2 * t)) in *.
  apply f_equal2.
  - replace (_ - _) with ((e * e') * (c * c + s * s) * a) by ring. rewrite X, Y. ring.
  - replace (_ + _) with ((e * e') * (c * c + s * s) * b) by ring. rewrite X, Y. ring.
Qed.

Lemma exp_tenth t : t <= 1 -> exp (t / 10) <= 10 / 9.
Proof.
  intros T. assert (A : 9 / 10 <= exp (- (1 / 10))) by (generalize (exp_ineq1_le (- (1 / 10))); lra).
  assert (B : exp (- (1 / 10)) * exp (1 / 10) = 1) by (rewrite <- exp_plus, Rplus_opp_l; apply exp_0).
  assert (C : exp (t / 10) <= exp (1 / 10)).
  { destruct (Rle_lt_or_eq_dec t 1 T) as [L|E]; [left; apply exp_increasing; lra|rewrite E; lra]. }
  assert (P := exp_pos (1 / 10)). assert (X := Rmult_le_compat_r (exp (1 / 10)) _ _ ltac:(lra) A). lra.
Qed.

Lemma fifth c s : c * c + s * s = 1 -> - 33 <= c * (- (796001 / 100000)) + s * (31201 / 1000) <= 33 /\
  - 33 <= c * (31201 / 1000) - s * (- (796001 / 100000)) <= 33.
Proof.
  intros E. split; apply Rabs_le_between; rewrite <- (Rabs_pos_eq 33) at 1 by lra; apply Rsqr_le_abs_0; unfold Rsqr.
  - generalize (Rle_0_sqr (c * (31201 / 1000) - s * (- (796001 / 100000)))). unfold Rsqr. nra.
  - generalize (Rle_0_sqr (c * (- (796001 / 100000)) + s * (31201 / 1000))). unfold Rsqr. nra.
Qed.

Lemma slope_size t w : 0 <= t <= 1 -> - 33 <= w <= 33 ->
  - (5 * (3056 / 10000) * t ^ 4) <= - (exp (t / 10) * (t ^ 4 / 24) * w) <= 5 * (3056 / 10000) * t ^ 4.
Proof.
  intros T W. assert (E := exp_tenth t ltac:(lra)). assert (P := exp_pos (t / 10)). assert (F := pow_unit t 4 T).
  assert (Q : 0 <= exp (t / 10) * (t ^ 4 / 24)) by (apply Rmult_le_pos; lra).
  assert (U : exp (t / 10) * (t ^ 4 / 24) <= 10 / 9 * (t ^ 4 / 24)) by (apply Rmult_le_compat_r; lra).
  assert (A := Rmult_le_compat_l _ _ _ Q (proj1 W)). assert (B := Rmult_le_compat_l _ _ _ Q (proj2 W)). lra.
Qed.

Lemma local_error t : 0 <= t <= 1 -> nrm (fst (poly t) - fst (turn t), snd (poly t) - snd (turn t)) <= 4323 / 10000 * t ^ 5.
Proof.
  intros T.
  assert (B0 : back 0 = (1, 0)).
  { unfold back, poly. cbn [fst snd]. replace (0 / 10) with 0 by lra. rewrite exp_0, Rmult_0_r, cos_0, sin_0. apply f_equal2; field. }
  assert (G1 : Rabs (fst (back t) - 1) <= 3056 / 10000 * t ^ 5).
  { replace 1 with (fst (back 0)) at 1 by (rewrite B0; reflexivity).
    apply (slope_bound (fun s => fst (back s))
             (fun s => - (exp (s / 10) * (s ^ 4 / 24) * (cos (2 * s) * (- (796001 / 100000)) + sin (2 * s) * (31201 / 1000))))); [lra| |].
    - intros s _. unfold back, poly. cbn [fst snd]. apply lim_derive. auto_derive; auto. unfold Rdiv. field.
    - intros s S. apply slope_size; [lra|]. apply fifth, trig1. }
  assert (G2 : Rabs (snd (back t) - 0) <= 3056 / 10000 * t ^ 5).
  { replace 0 with (snd (back 0)) at 1 by (rewrite B0; reflexivity).
    apply (slope_bound (fun s => snd (back s))
             (fun s => - (exp (s / 10) * (s ^ 4 / 24) * (cos (2 * s) * (31201 / 1000) - sin (2 * s) * (- (796001 / 100000)))))); [lra| |].
    - intros s _. unfold back, poly. cbn [fst snd]. apply lim_derive. auto_derive; auto. unfold Rdiv. field.
    - intros s S. apply slope_size; [lra|]. apply fifth, trig1. }
  assert (P5 := pow_unit t 5 T).
  assert (E : (fst (poly t) - fst (turn t), snd (poly t) - snd (turn t)) = cm (turn t) (fst (back t) - 1, snd (back t) - 0)).
  { rewrite <- (back_turn t). unfold cm. cbn [fst snd]. apply f_equal2; ring. }
  rewrite E, nrm_cm. rewrite <- (Rmult_1_l (4323 / 10000 * t ^ 5)).
  apply Rmult_le_compat; [apply nrm_pos|apply nrm_pos|apply nrm_turn_le; lra|]. apply nrm_le; [lra|]. cbn [fst snd].
  assert (S : forall x, Rabs x <= 3056 / 10000 * t ^ 5 -> x * x <= (3056 / 10000 * t ^ 5) * (3056 / 10000 * t ^ 5)).
  { intros x X. rewrite <- (Rabs_pos_eq (3056 / 10000 * t ^ 5)) in X by lra. apply Rsqr_le_abs_1 in X. exact X. }
  apply S in G1, G2. assert (0 <= t ^ 5 * t ^ 5) by (apply Rmult_le_pos; lra). lra.
Qed.

(** Facts on the spiral: its equation, chords, and a polynomial close to it. *)
From Coq Require Import Reals Lra Psatz.
From Coquelicot Require Import Coquelicot.
From Verif Require Import SpiralDataModel SpiralDataSpec.
Open Scope R_scope.

Lemma lim_derive f x l : is_derive f x l -> derivable_pt_lim f x l.
Proof. intros D. apply is_derive_Reals, D. Qed.

(** ** The equation *)
Lemma curve_moves : moves (diff_eq_rhs true) curve /\ curve 0 = (2, 0).
Proof.
  split.
  - intros t _. unfold curve, diff_eq_rhs, mm. cbn [fst snd]. split; apply lim_derive; auto_derive; auto; unfold Rdiv; ring.
  - unfold curve. replace (- (0 / 10)) with 0 by lra. replace (2 * 0) with 0 by lra. rewrite exp_0, cos_0, sin_0.
    apply f_equal2; ring.
Qed.

Lemma is_derive_lim f x l : derivable_pt_lim f x l -> is_derive f x l.
Proof. intros D. apply is_derive_Reals, D. Qed.

(** Without the option the equation is another one: a motion which has its velocity at some time loses x^4 + y^4 at the rate
    of 2/5 (x^6 + y^6) then. *)
Lemma cubic_energy (x y : R -> R) t :
  derivable_pt_lim x t (fst (diff_eq_rhs false (x t, y t))) -> derivable_pt_lim y t (snd (diff_eq_rhs false (x t, y t))) ->
  derivable_pt_lim (fun s => x s ^ 4 + y s ^ 4) t (- (2 / 5) * (x t ^ 6 + y t ^ 6)).
Proof.
  intros A B. apply is_derive_lim in A, B. apply lim_derive. unfold diff_eq_rhs, mm in *. cbn [fst snd] in *.
  evar_last.
  - apply @is_derive_plus; apply is_derive_pow; eassumption.
  - cbn. unfold plus. cbn. field.
Qed.

Lemma curve_only y : moves (diff_eq_rhs true) y -> y 0 = (2, 0) -> forall t, 0 <= t <= 10 -> y t = curve t.
Proof.
  intros M Y0 t T. destruct curve_moves as (MC & C0).
  set (N := fun s => exp (s / 5) * ((fst (y s) - fst (curve s)) * (fst (y s) - fst (curve s))
                                    + (snd (y s) - snd (curve s)) * (snd (y s) - snd (curve s)))).
  assert (DN : forall s, 0 <= s <= 10 -> derivable_pt_lim N s 0).
  { intros s R. destruct (M s R) as (A & B), (MC s R) as (A' & B').
    apply lim_derive. apply is_derive_lim in A, B, A', B'. unfold N. unfold diff_eq_rhs, mm in *. cbn [fst snd] in *.
    evar_last.
    - apply (is_derive_mult (fun s => exp (s / 5)) _ s).
      + auto_derive; [exact I|reflexivity].
      + apply @is_derive_plus.
        * apply (is_derive_mult (fun s => fst (y s) - fst (curve s)) (fun s => fst (y s) - fst (curve s)));
            [apply @is_derive_minus; eassumption|apply @is_derive_minus; eassumption|intros; apply Rmult_comm].
        * apply (is_derive_mult (fun s => snd (y s) - snd (curve s)) (fun s => snd (y s) - snd (curve s)));
            [apply @is_derive_minus; eassumption|apply @is_derive_minus; eassumption|intros; apply Rmult_comm].
      + intros; apply Rmult_comm.
    - unfold plus, mult, minus, opp; cbn. unfold plus, opp; cbn. unfold Rdiv. field. }
  assert (NT : N t = 0).
  { assert (N0 : N 0 = 0) by (unfold N; rewrite Y0, C0; cbn [fst snd]; ring).
    destruct (Rle_lt_or_eq_dec 0 t) as [L|<-]; [lra| |exact N0].
    destruct (MVT_cor2 N (fun _ => 0) 0 t L) as (c & E & _); [intros; apply DN; lra|]. lra. }
  unfold N in NT. apply Rmult_integral in NT. destruct NT as [E|E]; [generalize (exp_pos (t / 5)); lra|].
  destruct (y t) as (a, b), (curve t) as (a', b'). cbn [fst snd] in E.
  generalize (Rle_0_sqr (a - a')) (Rle_0_sqr (b - b')). intros P Q. fold (Rsqr (a - a')) (Rsqr (b - b')) in E.
  apply f_equal2; apply Rminus_diag_uniq, Rsqr_0_uniq; lra.
Qed.

(** ** Chords *)
Lemma chord f f' f'' a b M :
  a < b -> (forall x, a <= x <= b -> derivable_pt_lim f x (f' x)) -> (forall x, a <= x <= b -> derivable_pt_lim f' x (f'' x)) ->
  (forall x, a <= x <= b -> - M <= f'' x <= M) ->
  forall s, a <= s <= b -> Rabs (f s - (f a + (s - a) / (b - a) * (f b - f a))) <= M / 8 * (b - a) ^ 2.
Proof.
  intros AB D D' B s S. set (m := (f b - f a) / (b - a)).
  assert (ME : m * (b - a) = f b - f a) by (unfold m; field; lra).
  replace ((s - a) / (b - a) * (f b - f a)) with (m * (s - a)) by (unfold m; field; lra).
  assert (MP : 0 <= M) by (specialize (B a ltac:(lra)); lra).
  destruct (Req_dec s a) as [->|NA].
  { replace (f a - (f a + m * (a - a))) with 0 by ring. rewrite Rabs_R0. apply Rmult_le_pos; [lra|apply pow2_ge_0]. }
  destruct (Req_dec s b) as [->|NB].
  { replace (f b - (f a + m * (b - a))) with 0 by lra. rewrite Rabs_R0. apply Rmult_le_pos; [lra|apply pow2_ge_0]. }
  assert (P : 0 < (s - a) * (b - s)) by (apply Rmult_lt_0_compat; lra).
  set (K := (f s - (f a + m * (s - a))) / ((s - a) * (s - b))).
  assert (KE : K * ((s - a) * (s - b)) = f s - (f a + m * (s - a))) by (unfold K; field; split; lra).
  set (G := fun x => f x - (f a + m * (x - a)) - K * ((x - a) * (x - b))).
  set (G' := fun x => f' x - m - K * ((x - a) + (x - b))).
  assert (DG : forall x, a <= x <= b -> derivable_pt_lim G x (G' x)).
  { intros x X. unfold G, G'. apply derivable_pt_lim_minus; [apply derivable_pt_lim_minus|].
    - apply D, X.
    - apply lim_derive. auto_derive; auto. ring.
    - apply lim_derive. auto_derive; auto. ring. }
  assert (DG' : forall x, a <= x <= b -> derivable_pt_lim G' x (f'' x - 2 * K)).
  { intros x X. unfold G'. apply derivable_pt_lim_minus.
    - replace (f'' x) with (f'' x - 0) by ring. apply derivable_pt_lim_minus; [apply D', X|apply derivable_pt_lim_const].
    - apply lim_derive. auto_derive; auto. ring. }
  destruct (MVT_cor2 G G' a s ltac:(lra)) as (c1 & E1 & I1); [intros; apply DG; lra|].
  destruct (MVT_cor2 G G' s b ltac:(lra)) as (c2 & E2 & I2); [intros; apply DG; lra|].
  assert (GA : G a = 0) by (unfold G; ring). assert (GS : G s = 0) by (unfold G; lra).
  assert (GB : G b = 0) by (unfold G; replace (K * ((b - a) * (b - b))) with 0 by ring; lra).
  assert (Z1 : G' c1 = 0) by (apply (Rmult_eq_reg_r (s - a)); lra).
  assert (Z2 : G' c2 = 0) by (apply (Rmult_eq_reg_r (b - s)); lra).
  destruct (MVT_cor2 G' (fun x => f'' x - 2 * K) c1 c2 ltac:(lra)) as (c & E & I); [intros; apply DG'; lra|].
  assert (ZK : f'' c - 2 * K = 0) by (apply (Rmult_eq_reg_r (c2 - c1)); lra).
  specialize (B c ltac:(lra)). rewrite <- KE.
  assert (Q : (s - a) * (b - s) <= (b - a) ^ 2 / 4) by (generalize (pow2_ge_0 (2 * s - a - b)); lra).
  replace (K * ((s - a) * (s - b))) with (- (K * ((s - a) * (b - s)))) by ring. rewrite Rabs_Ropp, Rabs_mult.
  rewrite (Rabs_pos_eq ((s - a) * (b - s))) by lra.
  assert (KM : Rabs K <= M / 2) by (apply Rabs_le; lra).
  apply Rle_trans with (M / 2 * ((b - a) ^ 2 / 4)); [|lra].
  apply Rmult_le_compat; [apply Rabs_pos|lra|exact KM|exact Q].
Qed.

(** ** Norms *)
Definition nrm (a : R * R) : R := sqrt (fst a * fst a + snd a * snd a).
Lemma nrm_sq a : nrm a * nrm a = fst a * fst a + snd a * snd a.
Proof. unfold nrm. apply sqrt_sqrt. nra. Qed.
Lemma nrm_pos a : 0 <= nrm a.
Proof. apply sqrt_pos. Qed.
Lemma nrm_le a c : 0 <= c -> fst a * fst a + snd a * snd a <= c * c -> nrm a <= c.
Proof. intros C L. unfold nrm. rewrite <- (sqrt_square c C). apply sqrt_le_1_alt, L. Qed.
Lemma nrm_cmod a : nrm a = Cmod a.
Proof. unfold nrm, Cmod. f_equal. ring. Qed.
Lemma nrm_triangle a b : nrm (fst a + fst b, snd a + snd b) <= nrm a + nrm b.
Proof. rewrite !nrm_cmod. apply (Cmod_triangle a b). Qed.
(** The product of two numbers of the plane. *)
Definition cm (a b : R * R) : R * R := (fst a * fst b - snd a * snd b, fst a * snd b + snd a * fst b).
Lemma nrm_cm a b : nrm (cm a b) = nrm a * nrm b.
Proof. rewrite !nrm_cmod. apply (Cmod_mult a b). Qed.
Lemma nrm_scale c a : nrm (c * fst a, c * snd a) = Rabs c * nrm a.
Proof.
  unfold nrm. cbn [fst snd]. replace (c * fst a * (c * fst a) + c * snd a * (c * snd a)) with ((Rsqr c) * (fst a * fst a + snd a * snd a))
    by (unfold Rsqr; ring). rewrite sqrt_mult_alt by apply Rle_0_sqr. rewrite sqrt_Rsqr_abs. reflexivity.
Qed.
Lemma apart_nrm a b : apart a b = nrm (fst a - fst b, snd a - snd b).
Proof. reflexivity. Qed.

Lemma trig1 x : cos x * cos x + sin x * sin x = 1.
Proof. generalize (sin2_cos2 x). unfold Rsqr. lra. Qed.

(** The turning and shrinking of the curve in time [t]. *)
Definition turn (t : R) : R * R := (exp (- (t / 10)) * cos (2 * t), exp (- (t / 10)) * sin (2 * t)).
Lemma turn_add s t : turn (s + t) = cm (turn s) (turn t).
Proof.
  unfold turn, cm. cbn [fst snd]. replace (- ((s + t) / 10)) with (- (s / 10) + - (t / 10)) by lra. rewrite exp_plus.
  replace (2 * (s + t)) with (2 * s + 2 * t) by ring. rewrite cos_plus, sin_plus. apply f_equal2; ring.
Qed.
Lemma curve_turn t : curve t = (2 * fst (turn t), 2 * snd (turn t)).
Proof. unfold curve, turn. cbn [fst snd]. apply f_equal2; ring. Qed.
Lemma nrm_turn t : nrm (turn t) = exp (- (t / 10)).
Proof.
  unfold nrm, turn. cbn [fst snd].
  replace (exp (- (t / 10)) * cos (2 * t) * (exp (- (t / 10)) * cos (2 * t)) + exp (- (t / 10)) * sin (2 * t) * (exp (- (t / 10)) * sin (2 * t)))
    with (exp (- (t / 10)) * exp (- (t / 10)) * (cos (2 * t) * cos (2 * t) + sin (2 * t) * sin (2 * t))) by ring.
  rewrite trig1, Rmult_1_r. apply sqrt_square. left. apply exp_pos.
Qed.
Lemma exp_small t : 0 <= t -> exp (- t) <= 1.
Proof.
  intros T. destruct (Rle_lt_or_eq_dec 0 t T) as [L|<-]; [|rewrite Ropp_0, exp_0; lra].
  rewrite <- exp_0. left. apply exp_increasing. lra.
Qed.
Lemma nrm_turn_le t : 0 <= t -> nrm (turn t) <= 1.
Proof. intros T. rewrite nrm_turn. apply exp_small. lra. Qed.
Lemma nrm_curve t : nrm (curve t) = 2 * exp (- (t / 10)).
Proof. rewrite curve_turn, nrm_scale, nrm_turn, Rabs_pos_eq by lra. reflexivity. Qed.

(** A chord of the curve. *)
Lemma curve_chord a b s : 0 <= a -> a < b -> a <= s <= b ->
  nrm (fst (curve s) - (fst (curve a) + (s - a) / (b - a) * (fst (curve b) - fst (curve a))),
       snd (curve s) - (snd (curve a) + (s - a) / (b - a) * (snd (curve b) - snd (curve a)))) <= 401 / 400 * (b - a) ^ 2.
Proof.
  intros A AB S.
  set (d1 := fst (curve s) - (fst (curve a) + (s - a) / (b - a) * (fst (curve b) - fst (curve a)))).
  set (d2 := snd (curve s) - (snd (curve a) + (s - a) / (b - a) * (snd (curve b) - snd (curve a)))).
  set (f := fun t => d1 * fst (curve t) + d2 * snd (curve t)).
  set (f' := fun t => d1 * (- (1 / 10) * fst (curve t) - 2 * snd (curve t)) + d2 * (2 * fst (curve t) - 1 / 10 * snd (curve t))).
  set (f'' := fun t => d1 * (- (399 / 100) * fst (curve t) + 4 / 10 * snd (curve t)) + d2 * (- (4 / 10) * fst (curve t) - 399 / 100 * snd (curve t))).
  set (n := nrm (d1, d2)). assert (NN := nrm_sq (d1, d2)). fold n in NN. cbn [fst snd] in NN.
  assert (N0 : 0 <= n) by apply nrm_pos.
  assert (H := chord f f' f'' a b (401 / 50 * n) AB).
  assert (X : Rabs (f s - (f a + (s - a) / (b - a) * (f b - f a))) <= 401 / 50 * n / 8 * (b - a) ^ 2).
  { apply H; [| | |exact S].
    - intros x _. unfold f, f', curve. cbn [fst snd]. apply lim_derive. auto_derive; auto. unfold Rdiv. ring.
    - intros x _. unfold f', f'', curve. cbn [fst snd]. apply lim_derive. auto_derive; auto. unfold Rdiv. field.
    - intros x X. apply Rabs_le_between. unfold f''.
      assert (C2 := nrm_sq (curve x)). rewrite nrm_curve in C2. set (e := exp (- (x / 10))) in *.
      assert (E1 : e <= 1) by (apply exp_small; lra). assert (E0 : 0 < e) by apply exp_pos.
      set (u := fst (curve x)) in *. set (v := snd (curve x)) in *.
      apply Rle_trans with (Rabs (401 / 50 * n)); [apply Rsqr_le_abs_0; rewrite (Rsqr_mult _ n)|rewrite Rabs_pos_eq; lra]. unfold Rsqr.
      replace (n * n) with (d1 * d1 + d2 * d2) by lra.
      set (p := - (399 / 100) * u + 4 / 10 * v). set (q := - (4 / 10) * u - 399 / 100 * v).
      assert (PQ : p * p + q * q = (401 / 100) * (401 / 100) * (u * u + v * v)) by (unfold p, q; field).
      apply Rle_trans with ((d1 * d1 + d2 * d2) * (p * p + q * q)).
      + generalize (Rle_0_sqr (d1 * q - d2 * p)). unfold Rsqr. fold p q. lra.
      + rewrite PQ, <- C2. assert (EE : e * e <= 1 * 1) by (apply Rmult_le_compat; lra).
        assert (DD : 0 <= d1 * d1 + d2 * d2) by (rewrite <- NN; apply Rmult_le_pos; lra).
        assert (Y := Rmult_le_compat_l _ _ _ DD EE). lra. }
  replace (f s - (f a + (s - a) / (b - a) * (f b - f a))) with (d1 * d1 + d2 * d2) in X by (unfold f, d1, d2; ring).
  rewrite <- NN, Rabs_pos_eq in X by (apply Rmult_le_pos; lra).
  destruct (Req_dec n 0) as [E|E]; [rewrite E; apply Rmult_le_pos; [lra|apply pow2_ge_0]|].
  apply (Rmult_le_reg_l n); lra.
Qed.

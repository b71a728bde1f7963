(** Reduced Lagrangian of a system whose right-hand sides are sums of (activated) linear layers:
    layer [l] maps state [src l] through [act l] and a matrix (and an offset) to the time derivative
    of state [tgt l]; state [s] is moreover damped with the factor [c s].  Index functions only; the
    shipped models are shown to be instances in VecProofs.v. *)
From Coq Require Import Reals Arith Lia Lra Bool Psatz.
From Verif Require Import RealSum.
Open Scope R_scope.

(** Sum over particles, dimensions and features. *)
Definition sum3 (N D K : nat) (f : nat -> nat -> nat -> R) : R :=
  rsum N (fun n => rsum D (fun i => rsum K (fun k => f n i k))).

Lemma sum3_ext N D K f g :
  (forall n i k, (n < N)%nat -> (i < D)%nat -> (k < K)%nat -> f n i k = g n i k) -> sum3 N D K f = sum3 N D K g.
Proof.
  intros H. unfold sum3. apply rsum_ext; intros n Hn. apply rsum_ext; intros i Hi.
  apply rsum_ext; intros k Hk. auto.
Qed.

Lemma sum3_plus N D K f g : sum3 N D K (fun n i k => f n i k + g n i k) = sum3 N D K f + sum3 N D K g.
Proof.
  unfold sum3. rewrite <- rsum_plus. apply rsum_ext; intros n Hn.
  rewrite <- rsum_plus. apply rsum_ext; intros i Hi. apply rsum_plus.
Qed.

Lemma sum3_scal N D K c f : sum3 N D K (fun n i k => c * f n i k) = c * sum3 N D K f.
Proof.
  unfold sum3. rewrite <- rsum_scal. apply rsum_ext; intros n Hn.
  rewrite <- rsum_scal. apply rsum_ext; intros i Hi. apply rsum_scal.
Qed.

Lemma sum3_opp N D K f : sum3 N D K (fun n i k => - f n i k) = - sum3 N D K f.
Proof.
  replace (- sum3 N D K f) with (-1 * sum3 N D K f) by ring. rewrite <- sum3_scal.
  apply sum3_ext; intros; ring.
Qed.

Lemma sum3_minus N D K f g : sum3 N D K (fun n i k => f n i k - g n i k) = sum3 N D K f - sum3 N D K g.
Proof. unfold Rminus. rewrite <- sum3_opp, <- sum3_plus. reflexivity. Qed.

Lemma sum3_zero N D K : sum3 N D K (fun _ _ _ => 0) = 0.
Proof.
  unfold sum3. apply rsum_all_zero; intros. apply rsum_all_zero; intros. apply rsum_zero.
Qed.

Lemma sum3_rsum N D K L (f : nat -> nat -> nat -> nat -> R) :
  sum3 N D K (fun n i k => rsum L (fun l => f l n i k)) = rsum L (fun l => sum3 N D K (f l)).
Proof.
  unfold sum3. symmetry.
  rewrite (rsum_swap L N). apply rsum_ext; intros n Hn.
  rewrite (rsum_swap L D). apply rsum_ext; intros i Hi. apply rsum_swap.
Qed.

Lemma sum3_derivable N D K (f : nat -> nat -> nat -> R -> R) df x :
  (forall n i k, (n < N)%nat -> (i < D)%nat -> (k < K)%nat -> derivable_pt_lim (f n i k) x (df n i k)) ->
  derivable_pt_lim (fun y => sum3 N D K (fun n i k => f n i k y)) x (sum3 N D K df).
Proof.
  intros H. unfold sum3.
  apply (rsum_derivable N (fun n y => rsum D (fun i => rsum K (fun k => f n i k y)))); intros n Hn.
  apply (rsum_derivable D (fun i y => rsum K (fun k => f n i k y))); intros i Hi.
  apply (rsum_derivable K (fun k y => f n i k y)); intros k Hk. auto.
Qed.

Lemma sum3_single N D K f n i k :
  (n < N)%nat -> (i < D)%nat -> (k < K)%nat ->
  (forall n' i' k', (n' < N)%nat -> (i' < D)%nat -> (k' < K)%nat -> (n', i', k') <> (n, i, k) -> f n' i' k' = 0) ->
  sum3 N D K f = f n i k.
Proof.
  intros Hn Hi Hk H. unfold sum3.
  rewrite (rsum_single N _ n Hn).
  - rewrite (rsum_single D _ i Hi).
    + rewrite (rsum_single K _ k Hk); auto. intros k' Hk' E. apply H; auto. congruence.
    + intros i' Hi' E. apply rsum_all_zero. intros k' Hk'. apply H; auto. congruence.
  - intros n' Hn' E. apply rsum_all_zero. intros i' Hi'. apply rsum_all_zero. intros k' Hk'. apply H; auto. congruence.
Qed.

(** One where the indices agree. *)
Definition ind (a b : nat) : R := if Nat.eqb a b then 1 else 0.

Lemma rsum_ind S a f : (a < S)%nat -> rsum S (fun s => ind a s * f s) = f a.
Proof.
  intros H. rewrite (rsum_single S _ a H).
  - unfold ind. rewrite Nat.eqb_refl. ring.
  - intros i Hi E. unfold ind. destruct (Nat.eqb_spec a i); [congruence|ring].
Qed.

Section Net.
Variables N D L S : nat.
Variable dim : nat -> nat.
Variables tgt src : nat -> nat.
Variables act dact : nat -> R -> R.
Variable hb : nat -> bool.
Variable c : nat -> R.
Variables ww wb : nat -> R.
Hypothesis HN : (0 < N)%nat.
Hypothesis Htgt : forall l, (l < L)%nat -> (tgt l < S)%nat.
Hypothesis Hsrc : forall l, (l < L)%nat -> (src l < S)%nat.
Hypothesis Hact : forall l, (l < L)%nat -> forall x, derivable_pt_lim (act l) x (dact l x).
Hypothesis Hww : forall l, (l < L)%nat -> ww l <> 0.
Hypothesis Hwb : forall l, (l < L)%nat -> wb l <> 0.

Notation state := (nat -> nat -> nat -> nat -> R).
Notation mats := (nat -> nat -> nat -> R).
Notation offs := (nat -> nat -> R).

(** One for layers with an offset. *)
Definition hbr (l : nat) : R := if hb l then 1 else 0.

(** A layer applied to its state (the form of oc.py:105-109). *)
Definition layer_out (W : mats) (b : offs) (q : state) (l n i k : nat) : R :=
  rsum (dim (src l)) (fun j => act l (q (src l) n i j) * W l k j) + hbr l * b l k.

(** The right-hand sides (the form of sm.py:268-278 and the other models). *)
Definition net_rhs (W : mats) (b : offs) (q : state) (s n i k : nat) : R :=
  rsum L (fun l => ind (tgt l) s * layer_out W b q l n i k) - c s * q s n i k.

(** The derivatives of the costates (the form of sm.py:318-359). *)
Definition net_costate (W : mats) (q p : state) (s n i j : nat) : R :=
  - rsum L (fun l => ind (src l) s * (dact l (q s n i j) * rsum (dim (tgt l)) (fun k => p (tgt l) n i k * W l k j)))
  + c s * p s n i j.

(** si.py:278-301 *)
Definition net_potential (W : mats) (b : offs) (q p : state) : R :=
  rsum S (fun s => / INR N * sum3 N D (dim s) (fun n i k => p s n i k * net_rhs W b q s n i k)).

(** si.py:303-342 *)
Definition net_kinetic (W : mats) (b : offs) : R :=
  1 / 2 * rsum L (fun l => ww l * rsum (dim (tgt l)) (fun k => rsum (dim (src l)) (fun j => W l k j ^ 2))
                         + hbr l * (wb l * rsum (dim (tgt l)) (fun k => b l k ^ 2))).

(** Gradient of the potential energy with respect to the parameters. *)
Definition gW (q p : state) (l k j : nat) : R :=
  / INR N * rsum N (fun n => rsum D (fun i => p (tgt l) n i k * act l (q (src l) n i j))).
(** Gradient with respect to the offsets. *)
Definition gb (p : state) (l k : nat) : R := / INR N * rsum N (fun n => rsum D (fun i => p (tgt l) n i k)).

(** The part of the potential that does not depend on the parameters. *)
Definition damping (q p : state) : R :=
  rsum S (fun s => c s * (/ INR N * sum3 N D (dim s) (fun n i k => p s n i k * q s n i k))).

Lemma layer_pairing W b (q p : state) l :
  / INR N * sum3 N D (dim (tgt l)) (fun n i k => p (tgt l) n i k * layer_out W b q l n i k)
  = rsum (dim (tgt l)) (fun k => rsum (dim (src l)) (fun j => W l k j * gW q p l k j))
    + hbr l * rsum (dim (tgt l)) (fun k => b l k * gb p l k).
Proof.
  unfold layer_out, gW, gb.
  rewrite (sum3_ext _ _ _ _ (fun n i k =>
     rsum (dim (src l)) (fun j => p (tgt l) n i k * (act l (q (src l) n i j) * W l k j)) + hbr l * (p (tgt l) n i k * b l k))).
  2:{ intros. rewrite rsum_scal. ring. }
  rewrite sum3_plus, sum3_scal, Rmult_plus_distr_l. f_equal.
  - unfold sum3.
    rewrite (rsum_ext N _ (fun n => rsum (dim (tgt l)) (fun k => rsum D (fun i =>
       rsum (dim (src l)) (fun j => p (tgt l) n i k * (act l (q (src l) n i j) * W l k j)))))) by (intros; apply rsum_swap).
    rewrite rsum_swap, <- rsum_scal. apply rsum_ext; intros k Hk.
    rewrite (rsum_ext N _ (fun n => rsum (dim (src l)) (fun j => rsum D (fun i =>
       p (tgt l) n i k * (act l (q (src l) n i j) * W l k j))))) by (intros; apply rsum_swap).
    rewrite rsum_swap, <- rsum_scal. apply rsum_ext; intros j Hj.
    transitivity (/ INR N * (W l k j * rsum N (fun n => rsum D (fun i => p (tgt l) n i k * act l (q (src l) n i j))))); [|ring].
    f_equal. rewrite <- rsum_scal. apply rsum_ext; intros n Hn. rewrite <- rsum_scal. apply rsum_ext; intros i Hi. ring.
  - transitivity (hbr l * (/ INR N * sum3 N D (dim (tgt l)) (fun n i k => p (tgt l) n i k * b l k))); [ring|f_equal].
    unfold sum3.
    rewrite (rsum_ext N _ (fun n => rsum (dim (tgt l)) (fun k => rsum D (fun i => p (tgt l) n i k * b l k)))) by (intros; apply rsum_swap).
    rewrite rsum_swap, <- rsum_scal. apply rsum_ext; intros k Hk.
    transitivity (/ INR N * (b l k * rsum N (fun n => rsum D (fun i => p (tgt l) n i k)))); [|ring].
    f_equal. rewrite <- rsum_scal. apply rsum_ext; intros n Hn. rewrite <- rsum_scal. apply rsum_ext; intros i Hi. ring.
Qed.

(** The potential energy is linear in the parameters up to the damping term. *)
Lemma net_potential_linear W b q p :
  net_potential W b q p
  = rsum L (fun l => rsum (dim (tgt l)) (fun k => rsum (dim (src l)) (fun j => W l k j * gW q p l k j))
                     + hbr l * rsum (dim (tgt l)) (fun k => b l k * gb p l k))
    - damping q p.
Proof.
  unfold net_potential, net_rhs, damping.
  rewrite (rsum_ext S _ (fun s => rsum L (fun l => ind (tgt l) s *
      (/ INR N * sum3 N D (dim s) (fun n i k => p s n i k * layer_out W b q l n i k)))
      - c s * (/ INR N * sum3 N D (dim s) (fun n i k => p s n i k * q s n i k)))).
  - rewrite rsum_minus. f_equal. rewrite rsum_swap. apply rsum_ext; intros l Hl.
    rewrite (rsum_ind S (tgt l) (fun s => / INR N * sum3 N D (dim s) (fun n i k => p s n i k * layer_out W b q l n i k))) by auto.
    apply layer_pairing.
  - intros s Hs.
    rewrite (sum3_ext _ _ _ _ (fun n i k => rsum L (fun l => ind (tgt l) s * (p s n i k * layer_out W b q l n i k))
                                         - c s * (p s n i k * q s n i k))).
    2:{ intros. rewrite Rmult_minus_distr_l, <- rsum_scal. f_equal; [|ring]. apply rsum_ext; intros; ring. }
    rewrite sum3_minus, sum3_rsum, sum3_scal, Rmult_minus_distr_l. f_equal; [|ring].
    rewrite <- rsum_scal. apply rsum_ext; intros l Hl. rewrite sum3_scal. ring.
Qed.

(** Derivative of the potential energy with respect to the parameters, along a curve. *)
Lemma net_potential_derivable (W : R -> mats) (b : R -> offs) (W' : mats) (b' : offs) q p x :
  (forall l k j, (l < L)%nat -> (k < dim (tgt l))%nat -> (j < dim (src l))%nat ->
     derivable_pt_lim (fun y => W y l k j) x (W' l k j)) ->
  (forall l k, (l < L)%nat -> (k < dim (tgt l))%nat -> derivable_pt_lim (fun y => b y l k) x (b' l k)) ->
  derivable_pt_lim (fun y => net_potential (W y) (b y) q p) x
    (rsum L (fun l => rsum (dim (tgt l)) (fun k => rsum (dim (src l)) (fun j => W' l k j * gW q p l k j))
                     + hbr l * rsum (dim (tgt l)) (fun k => b' l k * gb p l k))).
Proof.
  intros HW Hb.
  apply (derivable_ext (fun y =>
     rsum L (fun l => rsum (dim (tgt l)) (fun k => rsum (dim (src l)) (fun j => W y l k j * gW q p l k j))
                     + hbr l * rsum (dim (tgt l)) (fun k => b y l k * gb p l k)) - damping q p)).
  { intros y. symmetry. apply net_potential_linear. }
  eapply derivable_eq; [|apply derivable_pt_lim_minus; [|apply derivable_pt_lim_const]].
  - apply Rminus_0_r.
  - apply (rsum_derivable L (fun l y => _)). intros l Hl. apply derivable_pt_lim_plus.
    + apply (rsum_derivable _ (fun k y => _)). intros k Hk.
      apply (rsum_derivable _ (fun j y => _)). intros j Hj.
      eapply derivable_eq; [|apply derivable_pt_lim_mult; [apply HW; auto|apply derivable_pt_lim_const]]. unfold fct_cte; cbv beta; ring.
    + apply derivable_pt_lim_scal. apply (rsum_derivable _ (fun k y => _)). intros k Hk.
      eapply derivable_eq; [|apply derivable_pt_lim_mult; [apply Hb; auto|apply derivable_pt_lim_const]]. unfold fct_cte; cbv beta; ring.
Qed.

(** The optimal parameters. *)
Definition optW (q p : state) (l k j : nat) : R := gW q p l k j / ww l.
(** The optimal offsets. *)
Definition optb (p : state) (l k : nat) : R := gb p l k / wb l.

(** si.py:344-395: at the optimal parameters, times the number of particles. *)
Definition net_lagrangian (q p : state) : R :=
  INR N * (net_kinetic (optW q p) (optb p) - net_potential (optW q p) (optb p) q p).

Lemma INR_N : INR N <> 0.
Proof. apply not_0_INR. lia. Qed.

Lemma net_lagrangian_closed q p :
  net_lagrangian q p
  = - (1 / 2 * INR N * rsum L (fun l =>
         rsum (dim (tgt l)) (fun k => rsum (dim (src l)) (fun j => / ww l * gW q p l k j ^ 2))
         + hbr l * rsum (dim (tgt l)) (fun k => / wb l * gb p l k ^ 2)))
    + INR N * damping q p.
Proof.
  unfold net_lagrangian. rewrite net_potential_linear. unfold net_kinetic.
  set (X := rsum L (fun l => ww l * _ + _)).
  set (Y := rsum L (fun l => _ + hbr l * rsum (dim (tgt l)) (fun k => optb p l k * gb p l k))).
  set (Z := rsum L (fun l => _ + hbr l * rsum (dim (tgt l)) (fun k => / wb l * gb p l k ^ 2))).
  assert (HX : X = Z).
  { unfold X, Z. apply rsum_ext; intros l Hl. pose proof (Hww l Hl). pose proof (Hwb l Hl). f_equal.
    - rewrite <- rsum_scal. apply rsum_ext; intros k Hk. rewrite <- rsum_scal. apply rsum_ext; intros j Hj.
      unfold optW. field; auto.
    - f_equal. rewrite <- rsum_scal. apply rsum_ext; intros k Hk. unfold optb. field; auto. }
  assert (HY : Y = Z).
  { unfold Y, Z. apply rsum_ext; intros l Hl. pose proof (Hww l Hl). pose proof (Hwb l Hl). f_equal.
    - apply rsum_ext; intros k Hk. apply rsum_ext; intros j Hj. unfold optW. field; auto.
    - f_equal. apply rsum_ext; intros k Hk. unfold optb. field; auto. }
  rewrite HX, HY. field.
Qed.

(** Total derivative of the reduced Lagrangian along any curve of states and costates. *)
Theorem net_lagrangian_derivable (Q P : R -> state) (q' p' : state) x :
  (forall s n i k, (s < S)%nat -> (n < N)%nat -> (i < D)%nat -> (k < dim s)%nat ->
     derivable_pt_lim (fun y => Q y s n i k) x (q' s n i k)) ->
  (forall s n i k, (s < S)%nat -> (n < N)%nat -> (i < D)%nat -> (k < dim s)%nat ->
     derivable_pt_lim (fun y => P y s n i k) x (p' s n i k)) ->
  let W := optW (Q x) (P x) in let b := optb (P x) in
  derivable_pt_lim (fun y => net_lagrangian (Q y) (P y)) x
    (rsum S (fun s => sum3 N D (dim s) (fun n i k =>
        net_costate W (Q x) (P x) s n i k * q' s n i k - net_rhs W b (Q x) s n i k * p' s n i k))).
Proof.
  intros HQ HP W b. pose proof INR_N as HI.
  set (dgW := fun l k j => / INR N * rsum N (fun n => rsum D (fun i =>
     p' (tgt l) n i k * act l (Q x (src l) n i j)
     + P x (tgt l) n i k * (dact l (Q x (src l) n i j) * q' (src l) n i j)))).
  set (dgb := fun l k => / INR N * rsum N (fun n => rsum D (fun i => p' (tgt l) n i k))).
  set (ddamp := rsum S (fun s => c s * (/ INR N * sum3 N D (dim s) (fun n i k =>
     p' s n i k * Q x s n i k + P x s n i k * q' s n i k)))).
  assert (HdW : forall l k j, (l < L)%nat -> (k < dim (tgt l))%nat -> (j < dim (src l))%nat ->
     derivable_pt_lim (fun y => gW (Q y) (P y) l k j) x (dgW l k j)).
  { intros l k j Hl Hk Hj. unfold gW, dgW. apply derivable_pt_lim_scal.
    apply (rsum_derivable _ (fun n y => _)); intros n Hn. apply (rsum_derivable _ (fun i y => _)); intros i Hi.
    apply (derivable_pt_lim_mult (fun y => P y (tgt l) n i k) (fun y => act l (Q y (src l) n i j))).
    - apply HP; auto.
    - apply (derivable_eq _ _ (dact l (Q x (src l) n i j) * q' (src l) n i j)); [reflexivity|].
      apply (derivable_pt_lim_comp (fun y => Q y (src l) n i j) (act l)); [apply HQ; auto|apply Hact; auto]. }
  assert (Hdb : forall l k, (l < L)%nat -> (k < dim (tgt l))%nat ->
     derivable_pt_lim (fun y => gb (P y) l k) x (dgb l k)).
  { intros l k Hl Hk. unfold gb, dgb. apply derivable_pt_lim_scal.
    apply (rsum_derivable _ (fun n y => _)); intros n Hn. apply (rsum_derivable _ (fun i y => _)); intros i Hi.
    apply HP; auto. }
  assert (Hdd : derivable_pt_lim (fun y => damping (Q y) (P y)) x ddamp).
  { unfold damping, ddamp. apply (rsum_derivable _ (fun s y => _)); intros s Hs.
    apply derivable_pt_lim_scal. apply derivable_pt_lim_scal.
    apply (sum3_derivable _ _ _ (fun n i k y => P y s n i k * Q y s n i k)). intros n i k Hn Hi Hk.
    apply (derivable_pt_lim_mult (fun y => P y s n i k) (fun y => Q y s n i k)); auto. }
  apply (derivable_ext (fun y =>
    - (1 / 2 * INR N * rsum L (fun l =>
         rsum (dim (tgt l)) (fun k => rsum (dim (src l)) (fun j => / ww l * gW (Q y) (P y) l k j ^ 2))
         + hbr l * rsum (dim (tgt l)) (fun k => / wb l * gb (P y) l k ^ 2)))
    + INR N * damping (Q y) (P y))).
  { intros y. symmetry. apply net_lagrangian_closed. }
  assert (Hsq : forall f l0 dl, derivable_pt_lim f x dl -> derivable_pt_lim (fun y => l0 * f y ^ 2) x (2 * (l0 * f x * dl))).
  { intros f l0 dl H. apply (derivable_ext (fun y => l0 * (f y * f y))). { intros; ring. }
    eapply derivable_eq; [|apply derivable_pt_lim_scal, (derivable_pt_lim_mult f f); eauto]. ring. }
  eapply derivable_eq; [|apply derivable_pt_lim_plus; [apply derivable_pt_lim_opp, derivable_pt_lim_scal|apply derivable_pt_lim_scal, Hdd]].
  2:{ apply (rsum_derivable _ (fun l y => _)); intros l Hl. apply derivable_pt_lim_plus.
      - apply (rsum_derivable _ (fun k y => _)); intros k Hk. apply (rsum_derivable _ (fun j y => _)); intros j Hj.
        apply Hsq, HdW; auto.
      - apply derivable_pt_lim_scal. apply (rsum_derivable _ (fun k y => _)); intros k Hk. apply Hsq, Hdb; auto. }
  (* algebra *)
  transitivity (- (INR N * rsum L (fun l =>
      rsum (dim (tgt l)) (fun k => rsum (dim (src l)) (fun j => W l k j * dgW l k j))
      + hbr l * rsum (dim (tgt l)) (fun k => b l k * dgb l k))) + INR N * ddamp).
  { f_equal. f_equal.
    rewrite (rsum_ext L _ (fun l => 2 * (rsum (dim (tgt l)) (fun k => rsum (dim (src l)) (fun j => W l k j * dgW l k j))
      + hbr l * rsum (dim (tgt l)) (fun k => b l k * dgb l k)))).
    - rewrite rsum_scal. field.
    - intros l Hl. pose proof (Hww l Hl). pose proof (Hwb l Hl). rewrite Rmult_plus_distr_l. f_equal.
      + rewrite <- rsum_scal. apply rsum_ext; intros k Hk. rewrite <- rsum_scal. apply rsum_ext; intros j Hj.
        unfold W, optW. field; auto.
      + transitivity (hbr l * (2 * rsum (dim (tgt l)) (fun k => b l k * dgb l k))); [|ring]. f_equal.
        rewrite <- rsum_scal. apply rsum_ext; intros k Hk. unfold b, optb. field; auto. }
  (* per layer: N * (W dgW + b dgb) is the pairing of p' with the layer plus the costate part *)
  assert (HL : forall l, (l < L)%nat ->
     INR N * (rsum (dim (tgt l)) (fun k => rsum (dim (src l)) (fun j => W l k j * dgW l k j))
              + hbr l * rsum (dim (tgt l)) (fun k => b l k * dgb l k))
     = sum3 N D (dim (tgt l)) (fun n i k => p' (tgt l) n i k * layer_out W b (Q x) l n i k)
       + sum3 N D (dim (src l)) (fun n i j => q' (src l) n i j *
            (dact l (Q x (src l) n i j) * rsum (dim (tgt l)) (fun k => P x (tgt l) n i k * W l k j)))).
  { intros l Hl.
    pose proof (layer_pairing W b (Q x) p' l) as E1.
    assert (E2 : sum3 N D (dim (src l)) (fun n i j => q' (src l) n i j *
            (dact l (Q x (src l) n i j) * rsum (dim (tgt l)) (fun k => P x (tgt l) n i k * W l k j)))
       = INR N * rsum (dim (tgt l)) (fun k => rsum (dim (src l)) (fun j => W l k j *
            (/ INR N * rsum N (fun n => rsum D (fun i => P x (tgt l) n i k * (dact l (Q x (src l) n i j) * q' (src l) n i j))))))).
    { rewrite (rsum_ext (dim (tgt l)) _ (fun k => / INR N * sum3 N D (dim (src l)) (fun n i j =>
          q' (src l) n i j * (dact l (Q x (src l) n i j) * (P x (tgt l) n i k * W l k j))))).
      - rewrite rsum_scal, <- Rmult_assoc, Rinv_r, Rmult_1_l by exact HI.
        rewrite <- sum3_rsum. apply sum3_ext; intros n i j Hn Hi Hj. rewrite <- rsum_scal, <- rsum_scal. reflexivity.
      - intros k Hk. unfold sum3.
        rewrite (rsum_ext N _ (fun n => rsum (dim (src l)) (fun j => rsum D (fun i =>
            q' (src l) n i j * (dact l (Q x (src l) n i j) * (P x (tgt l) n i k * W l k j)))))) by (intros; apply rsum_swap).
        rewrite rsum_swap, <- rsum_scal. apply rsum_ext; intros j Hj.
        transitivity (/ INR N * (W l k j * rsum N (fun n => rsum D (fun i => P x (tgt l) n i k * (dact l (Q x (src l) n i j) * q' (src l) n i j))))); [ring|].
        f_equal. rewrite <- rsum_scal. apply rsum_ext; intros n Hn. rewrite <- rsum_scal. apply rsum_ext; intros i Hi. ring. }
    assert (E1' : sum3 N D (dim (tgt l)) (fun n i k => p' (tgt l) n i k * layer_out W b (Q x) l n i k)
       = INR N * (rsum (dim (tgt l)) (fun k => rsum (dim (src l)) (fun j => W l k j * gW (Q x) p' l k j))
         + hbr l * rsum (dim (tgt l)) (fun k => b l k * gb p' l k))).
    { rewrite <- E1. rewrite <- Rmult_assoc, Rinv_r, Rmult_1_l by exact HI. reflexivity. }
    rewrite E1', E2, <- Rmult_plus_distr_l. f_equal.
    assert (E3 : rsum (dim (tgt l)) (fun k => rsum (dim (src l)) (fun j => W l k j * dgW l k j))
       = rsum (dim (tgt l)) (fun k => rsum (dim (src l)) (fun j => W l k j * gW (Q x) p' l k j))
       + rsum (dim (tgt l)) (fun k => rsum (dim (src l)) (fun j => W l k j *
            (/ INR N * rsum N (fun n => rsum D (fun i => P x (tgt l) n i k * (dact l (Q x (src l) n i j) * q' (src l) n i j))))))).
    { rewrite <- rsum_plus. apply rsum_ext; intros k Hk. rewrite <- rsum_plus. apply rsum_ext; intros j Hj.
      unfold dgW, gW. rewrite <- Rmult_plus_distr_l, <- Rmult_plus_distr_l. f_equal. f_equal.
      rewrite <- rsum_plus. apply rsum_ext; intros n Hn. rewrite <- rsum_plus. reflexivity. }
    rewrite E3. change (gb p' l) with (dgb l). ring. }
  rewrite <- rsum_scal.
  rewrite (rsum_ext L _ _ HL).
  (* right-hand side *)
  unfold net_costate, net_rhs.
  rewrite (rsum_ext S _ (fun s =>
     - rsum L (fun l => ind (src l) s * sum3 N D (dim s) (fun n i j => q' s n i j *
            (dact l (Q x s n i j) * rsum (dim (tgt l)) (fun k => P x (tgt l) n i k * W l k j))))
     - rsum L (fun l => ind (tgt l) s * sum3 N D (dim s) (fun n i k => p' s n i k * layer_out W b (Q x) l n i k))
     + c s * sum3 N D (dim s) (fun n i k => p' s n i k * Q x s n i k + P x s n i k * q' s n i k))).
  2:{ intros s Hs.
      rewrite (sum3_ext _ _ _ _ (fun n i k =>
         (- rsum L (fun l => ind (src l) s * (q' s n i k *
             (dact l (Q x s n i k) * rsum (dim (tgt l)) (fun k0 => P x (tgt l) n i k0 * W l k0 k))))
          - rsum L (fun l => ind (tgt l) s * (p' s n i k * layer_out W b (Q x) l n i k)))
          + c s * (p' s n i k * Q x s n i k + P x s n i k * q' s n i k))).
      2:{ intros n i k Hn Hi Hk.
          rewrite (rsum_ext L (fun l => ind (src l) s * (q' s n i k * _)) (fun l => q' s n i k *
             (ind (src l) s * (dact l (Q x s n i k) * rsum (dim (tgt l)) (fun k0 => P x (tgt l) n i k0 * W l k0 k))))) by (intros; ring).
          rewrite (rsum_ext L (fun l => ind (tgt l) s * (p' s n i k * _)) (fun l => p' s n i k *
             (ind (tgt l) s * layer_out W b (Q x) l n i k))) by (intros; ring).
          rewrite !rsum_scal. ring. }
      rewrite sum3_plus, sum3_minus, sum3_opp, !sum3_rsum, sum3_scal.
      f_equal. f_equal; [f_equal|]; apply rsum_ext; intros l Hl; apply sum3_scal. }
  symmetry. rewrite (rsum_plus S), (rsum_minus S), (rsum_opp S), !(rsum_swap S L).
  rewrite (rsum_ext L (fun l => rsum S (fun s => ind (src l) s * _)) (fun l => _)
     (fun l Hl => rsum_ind S (src l) (fun s => sum3 N D (dim s) (fun n i j => q' s n i j *
            (dact l (Q x s n i j) * rsum (dim (tgt l)) (fun k => P x (tgt l) n i k * W l k j)))) (Hsrc l Hl))).
  rewrite (rsum_ext L (fun l => rsum S (fun s => ind (tgt l) s * _)) (fun l => _)
     (fun l Hl => rsum_ind S (tgt l) (fun s => sum3 N D (dim s) (fun n i k => p' s n i k * layer_out W b (Q x) l n i k)) (Htgt l Hl))).
  rewrite rsum_plus.
  assert (Ed : INR N * ddamp = rsum S (fun s => c s * sum3 N D (dim s) (fun n i k => p' s n i k * Q x s n i k + P x s n i k * q' s n i k))).
  { unfold ddamp. rewrite <- rsum_scal. apply rsum_ext; intros s Hs. field; auto. }
  rewrite Ed. ring.
Qed.

End Net.

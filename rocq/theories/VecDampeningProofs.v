(** Proofs about dampening. *)
From Coq Require Import List String Reals Arith Lia Lra Bool.
From Verif Require Import Base Tensor RealSum VecNet VecModel VecInit VecSpec VecProofs VecProofs2 VecProofs3 VecProofs4 VecProofs5 VecProofs8
  VecEquationsSpec VecEquationsProofs.
Import ListNotations.
Open Scope string_scope.
Open Scope R_scope.

(** A function with x' = - c x, c >= 0, decreases in absolute value. *)
Lemma decays (f : R -> R) c : (forall t, 0 <= c t) -> (forall t, derivable_pt_lim f t (- c t * f t)) ->
  forall t u, t <= u -> Rabs (f u) <= Rabs (f t).
Proof.
  intros C H t u L.
  assert (pr : derivable (fun x => f x * f x)).
  { intro x. exists (- c x * f x * f x + f x * (- c x * f x)). apply (derivable_pt_lim_mult f f); apply H. }
  assert (De : decreasing (fun x => f x * f x)).
  { apply (nonpos_derivative_1 _ pr). intro x.
    assert (E : derive_pt (fun x => f x * f x) x (pr x) = - c x * f x * f x + f x * (- c x * f x)).
    { apply derive_pt_eq_0. apply (derivable_pt_lim_mult f f); apply H. }
    rewrite E. specialize (C x). nra. }
  specialize (De t u L). cbn in De. apply Rsqr_le_abs_0. exact De.
Qed.

(** A function with x' = x / 2 is an exponential. *)
Lemma grows (f : R -> R) : (forall t, derivable_pt_lim f t (/ 2 * f t)) -> forall t, f t = f 0 * exp (t / 2).
Proof.
  intros H t.
  assert (D : forall x, derivable_pt_lim (fun t => f t * exp (- (t / 2))) x 0).
  { intro x. replace 0 with (/ 2 * f x * exp (- (x / 2)) + f x * (exp (- (x / 2)) * - / 2)) by lra.
    apply (derivable_pt_lim_mult f (fun t => exp (- (t / 2)))); [apply H|].
    apply (derivable_pt_lim_comp (fun t => - (t / 2)) exp); [|apply derivable_pt_lim_exp].
    replace (- / 2) with (- (1 * / 2 + x * 0)) by ring. apply derivable_pt_lim_opp. unfold Rdiv.
    apply (derivable_pt_lim_mult id (fun _ => / 2)); [apply derivable_pt_lim_id|apply derivable_pt_lim_const]. }
  assert (pr : derivable (fun t => f t * exp (- (t / 2)))) by (intro x; exists 0; apply D).
  assert (K : constant (fun t => f t * exp (- (t / 2)))).
  { apply (null_derivative_1 _ pr). intro x. apply derive_pt_eq_0. apply D. }
  specialize (K t 0). cbn in K. replace (- (0 / 2)) with 0 in K by lra. rewrite exp_0, Rmult_1_r in K.
  rewrite <- K, Rmult_assoc, <- exp_plus. replace (- (t / 2) + t / 2) with 0 by lra. rewrite exp_0. ring.
Qed.

Lemma silent_maps th o x k : silent th -> maps th o x k = 0.
Proof.
  intro S. unfold maps. destruct (sd_get o th) as [l|] eqn:E; [|reflexivity].
  assert (I : In (o, l) th).
  { clear S. induction th as [|[o' l'] th IH]; [discriminate|]. cbn in E. destruct (String.eqb_spec o o').
    - injection E as ->. subst. left. reflexivity.
    - right. exact (IH E). }
  unfold silent in S. rewrite Forall_forall in S. destruct (S _ I) as [Z B]. cbn [snd] in *. unfold affine.
  rewrite (rsum_ext _ _ (fun _ => 0)); [|intros j _; rewrite Z; ring].
  assert (R0 : forall n, rsum n (fun _ => 0) = 0). { intro n. induction n as [|n IH]; cbn; [reflexivity|rewrite IH; ring]. }
  rewrite R0. destruct (lin_bias l) as [b|] eqn:Eb; [rewrite (B b eq_refl)|]; ring.
Qed.

Section Dampening.
Variable nl : R -> R.
Variable init : inits.
Variables d f : nat.
Notation e := (d * f)%nat.
Variable W : option R.

Lemma dampened_curve N D th X : same_objects (updown_objects init d f W) th -> silent th ->
  (forall t, dampened_sizes d f N D (X t)) -> follows (dampened_rhs nl) th X ->
  forall t n i k, (n < N)%nat -> (i < D)%nat ->
    ((k < d)%nat -> derivable_pt_lim (fun u => entry (X u) "q1" n i k) t (- nl (entry (X t) "c1" n 0 0) * entry (X t) "q1" n i k)) /\
    ((k < e)%nat -> derivable_pt_lim (fun u => entry (X u) "q2" n i k) t (- nl (entry (X t) "c2" n 0 0) * entry (X t) "q2" n i k)).
Proof.
  intros Hth Si Z Fo t n i k Hn Hi. destruct (Fo t) as [r [E M]]. 
  destruct (Z t) as (c1 & c2 & q1 & q2 & Et & C1 & C2 & Q1 & Q2). rewrite Et in *.
  destruct (dampened_obeys nl init d f W N D c1 c2 q1 q2 th C1 C2 Q1 Q2 Hth) as [r' [E' (_ & d1 & d2 & r1 & r2 & Er & _ & _ & V1 & V2)]].
  assert (r' = r) as -> by congruence. subst r. destruct Q1 as [? [? ?]], Q2 as [? [? ?]].
  assert (F : forall a q j y g, (a, q) = (2%nat, "q1") \/ (a, q) = (3%nat, "q2") ->
     derivable_pt_lim (fun u => match nth_error (X u) a with Some (_, y) => v3 y n i j | None => 0 end) y g ->
     derivable_pt_lim (fun u => entry (X u) q n i j) y g).
  { intros a q j y g Ha Dv eps He. destruct (Dv eps He) as [de Hd]. exists de. intros h Hh Hl. specialize (Hd h Hh Hl).
    assert (Q : forall u, match nth_error (X u) a with Some (_, y) => v3 y n i j | None => 0 end = entry (X u) q n i j).
    { intro u. destruct (Z u) as (a1 & a2 & a3 & a4 & Eu & _). rewrite Eu.
      destruct Ha as [Ha|Ha]; injection Ha as -> ->; reflexivity. }
    rewrite !Q in Hd. exact Hd. }
  split; intros Hk.
  - apply (F 2%nat); [left; reflexivity|].
    assert (R : in_range q1 n i k) by (unfold in_range; repeat split; congruence).
    pose proof (M 2%nat "q1" q1 "dot_q1" r1 n i k) as Mv. rewrite Et in Mv. specialize (Mv eq_refl eq_refl R).
    rewrite (V1 n i k R) in Mv. rewrite silent_maps in Mv by exact Si.
    match goal with |- derivable_pt_lim _ _ ?v =>
      replace v with (0 - nl (v3 c1 n 0 0) * v3 q1 n i k) by (unfold entry; rewrite ?Et; sdi; ring) end. exact Mv.
  - apply (F 3%nat); [right; reflexivity|].
    assert (R : in_range q2 n i k) by (unfold in_range; repeat split; congruence).
    pose proof (M 3%nat "q2" q2 "dot_q2" r2 n i k) as Mv. rewrite Et in Mv. specialize (Mv eq_refl eq_refl R).
    rewrite (V2 n i k R) in Mv. rewrite silent_maps in Mv by exact Si.
    match goal with |- derivable_pt_lim _ _ ?v =>
      replace v with (0 - nl (v3 c2 n 0 0) * v3 q2 n i k) by (unfold entry; rewrite ?Et; sdi; ring) end. exact Mv.
Qed.

Lemma dampened_dampens : (forall x, 0 <= nl x) ->
  dampens (dampened_rhs nl) (updown_objects init d f W) (dampened_sizes d f) "q1" d /\
  dampens (dampened_rhs nl) (updown_objects init d f W) (dampened_sizes d f) "q2" e.
Proof.
  intros P. split; intros N D th X Hth Si Z Fo t u n i k L Hn Hi Hk.
  - apply (decays (fun u => entry (X u) "q1" n i k) (fun t => nl (entry (X t) "c1" n 0 0))); auto.
    intro v. apply (dampened_curve N D th X Hth Si Z Fo v n i k Hn Hi); exact Hk.
  - apply (decays (fun u => entry (X u) "q2" n i k) (fun t => nl (entry (X t) "c2" n 0 0))); auto.
    intro v. apply (dampened_curve N D th X Hth Si Z Fo v n i k Hn Hi); exact Hk.
Qed.

Lemma dampened_q2_grows N D th X : same_objects (updown_objects init d f W) th -> silent th ->
  (forall t, has_states [("q1", d); ("q2", e)] "" N D (X t)) -> follows (dampened_q2_rhs nl) th X ->
  forall t n i k, (n < N)%nat -> (i < D)%nat -> (k < e)%nat ->
    entry (X t) "q2" n i k = entry (X 0) "q2" n i k * exp (t / 2).
Proof.
  intros Hth Si Z Fo t n i k Hn Hi Hk. apply (grows (fun t => entry (X t) "q2" n i k)). clear t. intro t.
  destruct (Fo t) as [r [E M]]. destruct (dampened_q2_obeys nl init d f W N D (X t) th (Z t) Hth) as [r' [E' (Sh & _ & V)]].
  assert (r' = r) as -> by congruence. destruct (states2 _ _ _ _ _ _ _ _ (Z t)) as [x [y [Et [Hx [Hy0 [Hy1 Hy2]]]]]].
  assert (R : in_range y n i k) by (unfold in_range; repeat split; congruence).
  rewrite Et in Sh. apply conses in Sh. destruct Sh as [[o1 y1] [ra [-> [_ Sh]]]]. apply conses in Sh.
  destruct Sh as [[o2 y2] [rb [-> _]]].
  assert (Q : forall u, match nth_error (X u) 1 with Some (_, y) => v3 y n i k | None => 0 end = entry (X u) "q2" n i k).
  { intro u. destruct (states2 _ _ _ _ _ _ _ _ (Z u)) as [a [b [Eu _]]]. rewrite Eu. reflexivity. }
  pose proof (M 1%nat "q2" y o2 y2 n i k) as Mv. rewrite Et in Mv. specialize (Mv eq_refl eq_refl R).
  pose proof (V 1%nat "q2" y o2 y2 "q2" (fun L x k => L "l2" (x "q1") k + / 2 * x "q2" k) n i k) as Vv. rewrite Et in Vv.
  specialize (Vv eq_refl eq_refl eq_refl R). cbn beta in Vv. rewrite silent_maps in Vv by exact Si.
  rewrite Vv in Mv. intros eps He. destruct (Mv eps He) as [de Hd]. exists de. intros h Hh Hl. specialize (Hd h Hh Hl).
  rewrite !Q in Hd. rewrite Rplus_0_l in Hd. rewrite Et in Hd |- *. exact Hd.
Qed.
End Dampening.

(** ** Concrete curves *)
Definition zero_init : inits := fun _ => (fun _ _ => 0, fun _ => 0).
Definition number (x : R) : t3 := mkT3 1 1 1 (fun _ _ _ => x).
Definition growing (t : R) : states := [("q1", number 0); ("q2", number (exp (t / 2)))].
Definition shrinking (t : R) : states :=
  [("c1", number 2); ("c2", number 1); ("q1", number (exp (- (2 * t)))); ("q2", number (exp (- (1 * t))))].
Notation zero_objects := (updown_objects zero_init 1 1 None).

Lemma exp_rate a t : derivable_pt_lim (fun u => exp (a * u)) t (a * exp (a * t)).
Proof.
  replace (a * exp (a * t)) with (exp (a * t) * (0 * t + a * 1)) by ring.
  apply (derivable_pt_lim_comp (fun u => a * u) exp); [|apply derivable_pt_lim_exp].
  apply (derivable_pt_lim_mult (fun _ => a) id); [apply derivable_pt_lim_const|apply derivable_pt_lim_id].
Qed.

Lemma zero_same : same_objects zero_objects zero_objects.
Proof. repeat (apply Forall2_cons; [cbn; repeat split|]). apply Forall2_nil. Qed.
Lemma zero_silent : silent zero_objects.
Proof.
  repeat (apply Forall_cons; [split; [reflexivity|intros b E; cbn in E; injection E as <-; reflexivity]|]). apply Forall_nil.
Qed.
Lemma growing_sized t : has_states [("q1", 1%nat); ("q2", 1%nat)] "" 1 1 (growing t).
Proof. repeat (apply Forall2_cons; [cbn; repeat split|]). apply Forall2_nil. Qed.
Lemma shrinking_sized t : dampened_sizes 1 1 1 1 (shrinking t).
Proof. do 4 eexists. split; [reflexivity|]. repeat split. Qed.

Lemma same_rate f g t v : (forall u, f u = g u) -> derivable_pt_lim g t v -> derivable_pt_lim f t v.
Proof. intros E D eps He. destruct (D eps He) as [de H]. exists de. intros. rewrite !E. auto. Qed.

Lemma growing_follows nl : follows (dampened_q2_rhs nl) zero_objects growing.
Proof.
  intro t. destruct (dampened_q2_obeys nl zero_init 1%nat 1%nat None 1%nat 1%nat (growing t) zero_objects (growing_sized t) zero_same)
    as [r [E (Sh & _ & V)]].
  exists r. split; [exact E|]. intros a q x o dx n i k Ex Er R. destruct a as [|[|a]].
  - rewrite (V 0%nat q x o dx "q1" _ n i k Ex Er eq_refl R). cbn beta. rewrite silent_maps by exact zero_silent.
    apply (same_rate _ (fun _ => 0)); [reflexivity|]. apply derivable_pt_lim_const.
  - rewrite (V 1%nat q x o dx "q2" _ n i k Ex Er eq_refl R). cbn beta. rewrite silent_maps by exact zero_silent.
    rewrite Rplus_0_l. apply (same_rate _ (fun u => exp (/ 2 * u))).
    + intro u. cbn. f_equal. lra.
    + unfold features, growing. sdi. cbn [v3 number]. replace (t / 2) with (/ 2 * t) by lra. apply exp_rate.
  - destruct a; discriminate Ex.
Qed.

Lemma dampened_q2_not_dampening nl :
  ~ dampens (dampened_q2_rhs nl) zero_objects (has_states [("q1", 1%nat); ("q2", 1%nat)] "") "q2" 1.
Proof.
  intros H. specialize (H 1%nat 1%nat zero_objects growing zero_same zero_silent growing_sized (growing_follows nl) 0 2 0%nat 0%nat 0%nat).
  unfold entry, growing in H. cbn [sd_get String.eqb Ascii.eqb Bool.eqb v3 number] in H.
  assert (L : exp (0 / 2) < exp (2 / 2)) by (apply exp_increasing; lra).
  rewrite !Rabs_right in H by (left; apply exp_pos). specialize (H ltac:(lra) ltac:(lia) ltac:(lia) ltac:(lia)). lra.
Qed.

Lemma shrinking_follows : follows (dampened_rhs (Rmax 0)) zero_objects shrinking.
Proof.
  intro t. destruct (dampened_obeys (Rmax 0) zero_init 1%nat 1%nat None 1%nat 1%nat (number 2) (number 1) (number (exp (- (2 * t)))) (number (exp (- (1 * t))))
    zero_objects) as [r [E (Sh & d1 & d2 & r1 & r2 & -> & V1 & V2 & V3 & V4)]]; try (repeat split; fail); [exact zero_same|].
  eexists. split; [exact E|]. intros a q x o dx n i k Ex Er R.
  destruct a as [|[|[|[|a]]]]; cbn in Ex, Er; try (destruct a; discriminate Ex); injection Ex as <- <-; injection Er as <- <-.
  - rewrite V1 by exact R. apply (same_rate _ (fun _ => 2)); [reflexivity|]. apply derivable_pt_lim_const.
  - rewrite V2 by exact R. apply (same_rate _ (fun _ => 1)); [reflexivity|]. apply derivable_pt_lim_const.
  - rewrite V3 by exact R. rewrite silent_maps by exact zero_silent. cbn [v3 number]. rewrite Rmax_right by lra.
    apply (same_rate _ (fun u => exp (-2 * u))). { intro u. cbn. f_equal. lra. }
    replace (- (2 * t)) with (-2 * t) by lra. replace (0 - 2 * exp (-2 * t)) with (-2 * exp (-2 * t)) by lra. apply exp_rate.
  - rewrite V4 by exact R. rewrite silent_maps by exact zero_silent. cbn [v3 number]. rewrite Rmax_right by lra.
    apply (same_rate _ (fun u => exp (-1 * u))). { intro u. cbn. f_equal. lra. }
    replace (- (1 * t)) with (-1 * t) by lra. replace (0 - 1 * exp (-1 * t)) with (-1 * exp (-1 * t)) by lra. apply exp_rate.
Qed.

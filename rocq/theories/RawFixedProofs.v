(** Proofs about the scalar fixed-point check. *)
From Coq Require Import List String Reals Lra Lia FunctionalExtensionality.
From Coquelicot Require Import Coquelicot.
From Verif Require Import Base ActivationModel ActivationProofs RawFixedModel RawFixedSpec.
Open Scope R_scope.

Lemma iter_ext {A} (f g : A -> A) n x : (forall y, f y = g y) -> Nat.iter n f x = Nat.iter n g x.
Proof. intros H. induction n; cbn; [reflexivity|]. unfold Nat.iter in *. rewrite IHn. apply H. Qed.

Section Raw.
Variables (nl dnl : R -> R) (grad : (R -> R) -> R -> R).
Hypothesis G : differentiates grad.
Variables (lr : R) (n : nat).

Lemma theta_step q p th : grad (fun theta => fst (fst (compute_lagrangian nl q p theta))) th = th - p * nl q.
Proof.
  apply G. apply is_derive_Reals. cbn. auto_derive; [exact I|field].
Qed.

Lemma theta_is q p : compute_parameter_autograd nl grad lr n q p = (1 - remainder lr n) * (p * nl q).
Proof.
  unfold compute_parameter_autograd, remainder.
  rewrite (iter_ext _ (fun th => th - lr * (th - p * nl q))); [|intros; now rewrite theta_step].
  induction n as [|m IH]; [cbn; ring|].
  change (Nat.iter (S m) ?f 0) with (f (Nat.iter m f 0)). cbv beta. rewrite IH. cbn [pow]. ring.
Qed.

Lemma reduced_is q p : fst (fst (compute_reduced_lagrangian nl grad lr n q p)) = - (1 - remainder lr (2 * n)) * (1 / 2) * p ^ 2 * (nl q) ^ 2.
Proof.
  unfold compute_reduced_lagrangian, compute_lagrangian. cbn [fst]. rewrite theta_is. unfold remainder.
  replace (2 * n)%nat with (n + n)%nat by lia. rewrite pow_add. field.
Qed.

Lemma costate_is q p : derivative_of nl dnl ->
  rhs_costate_autograd_reduced nl grad lr n q p = - (1 - remainder lr (2 * n)) * p ^ 2 * nl q * dnl q.
Proof.
  intros H. unfold rhs_costate_autograd_reduced. set (m := (2 * n)%nat).
  replace (fun q => fst (fst (compute_reduced_lagrangian nl grad lr n q p)))
    with (fun q => - (1 - remainder lr m) * (1 / 2) * p ^ 2 * (nl q) ^ 2)
    by (apply functional_extensionality; intros; symmetry; apply reduced_is).
  apply G. apply is_derive_Reals. pose proof (proj2 (is_derive_Reals _ _ _) (H q)) as K.
  assert (D : Derive nl q = dnl q) by now apply is_derive_unique.
  auto_derive; [now exists (dnl q)|]. clearbody m. change (Derive (fun x => nl x) q) with (Derive nl q). rewrite D. field.
Qed.

Lemma autograd_is q p : derivative_of nl dnl ->
  rhs_shooting_autograd nl grad lr n q p
  = ((1 - remainder lr n) * p * (nl q) ^ 2, - (1 - remainder lr (2 * n)) * p ^ 2 * nl q * dnl q).
Proof.
  intros H. unfold rhs_shooting_autograd, rhs_state. rewrite theta_is, (costate_is q p H). f_equal. ring.
Qed.

Lemma analytic_is c q p : rhs_shooting_analytic nl dnl c q p = (c * p * (nl q) ^ 2, - c * p ^ 2 * nl q * dnl q).
Proof. unfold rhs_shooting_analytic, rhs_state, rhs_costate, compute_parameter. f_equal; ring. Qed.

Lemma equations : derivative_of nl dnl -> forall q p,
  compute_parameter_autograd nl grad lr n q p = (1 - remainder lr n) * (p * nl q)
  /\ rhs_shooting_autograd nl grad lr n q p
     = ((1 - remainder lr n) * p * (nl q) ^ 2, - (1 - remainder lr (2 * n)) * p ^ 2 * nl q * dnl q).
Proof. intros H q p. split; [apply theta_is|now apply autograd_is]. Qed.

(** When one factor suits both equations. *)
Lemma factor_suits c q p : derivative_of nl dnl -> p * nl q <> 0 -> dnl q <> 0 ->
  rhs_shooting_analytic nl dnl c q p = rhs_shooting_autograd nl grad lr n q p
  <-> c = 1 - remainder lr n /\ (remainder lr n = 0 \/ remainder lr n = 1).
Proof.
  intros H Z Zd. rewrite analytic_is, (autograd_is q p H).
  assert (R2 : remainder lr (2 * n) = remainder lr n * remainder lr n).
  { unfold remainder. replace (2 * n)%nat with (n + n)%nat by lia. apply pow_add. }
  rewrite R2. set (r := remainder lr n).
  assert (Zn : nl q <> 0) by (intros E; apply Z; rewrite E; ring).
  assert (Zp : p <> 0) by (intros E; apply Z; rewrite E; ring).
  split.
  - intros E. assert (E1 := f_equal fst E). assert (E2 := f_equal snd E). cbn [fst snd] in *.
    assert (A : c = 1 - r).
    { apply (Rmult_eq_reg_r (p * nl q ^ 2)); [rewrite <- !Rmult_assoc; exact E1|].
      apply Rmult_integral_contrapositive_currified; [exact Zp|now apply pow_nonzero]. }
    assert (B : c = 1 - r * r).
    { apply (Rmult_eq_reg_r (- (p ^ 2 * nl q * dnl q))); [lra|].
      apply Ropp_neq_0_compat. repeat apply Rmult_integral_contrapositive_currified; auto using pow_nonzero.
      all: now rewrite ?Rmult_1_r. }
    split; [exact A|]. assert (C : r * (r - 1) = 0) by lra.
    apply Rmult_integral in C. destruct C; [left|right]; lra.
  - intros [-> [E|E]]; rewrite E; f_equal; ring.
Qed.
End Raw.

Section Script.
Variables (nl dnl : R -> R) (grad : (R -> R) -> R -> R).
Hypothesis G : differentiates grad.
Hypothesis H : derivative_of nl dnl.

Lemma raw_check_is factor lr n dt k q p r : raw_check nl dnl grad factor lr n dt k q p = Ok r ->
  rhs_ratios r = (tensor_ratio (fst (rhs_shooting_analytic nl dnl factor q p)) (fst (rhs_shooting_autograd nl grad lr n q p)),
                  tensor_ratio (snd (rhs_shooting_analytic nl dnl factor q p)) (snd (rhs_shooting_autograd nl grad lr n q p)))
  /\ grads_analytic r = (grad (fun q => loss_of (rhs_shooting_analytic nl dnl factor) dt k q p) q,
                         grad (fun p => loss_of (rhs_shooting_analytic nl dnl factor) dt k q p) p)
  /\ grads_autograd r = (grad (fun q => loss_of (rhs_shooting_autograd nl grad lr n) dt k q p) q,
                         grad (fun p => loss_of (rhs_shooting_autograd nl grad lr n) dt k q p) p)
  /\ fst (grad_ratios r) = fst (grads_analytic r) / fst (grads_autograd r)
  /\ snd (grad_ratios r) = snd (grads_autograd r) / snd (grads_autograd r) /\ snd (grads_autograd r) <> 0.
Proof.
  unfold raw_check. cbn [item backward fst snd zero_grad bind]. rewrite !Rplus_0_l. unfold ratio.
  destruct (Req_EM_T _ 0); [discriminate|]. cbn [bind]. destruct (Req_EM_T _ 0); [discriminate|].
  cbn [bind]. intros E. injection E as <-. cbn. repeat split; auto.
Qed.

Lemma ratios_of_script dt k q p r : p * nl q <> 0 -> dnl q <> 0 ->
  raw_check nl dnl grad (15 / 16) (1 / 2) 2 dt k q p = Ok r -> rhs_ratios r = (Some (5 / 4), Some 1).
Proof.
  intros Z Zd E. destruct (raw_check_is _ _ _ _ _ _ _ _ E) as [-> _].
  rewrite analytic_is, (autograd_is nl dnl grad G (1 / 2) 2 q p H). cbn [fst snd]. unfold tensor_ratio, remainder.
  assert (Zn : nl q <> 0) by (intros E0; apply Z; rewrite E0; ring).
  assert (Zp : p <> 0) by (intros E0; apply Z; rewrite E0; ring).
  assert (A : (1 - (1 - 1 / 2) ^ 2) * p * nl q ^ 2 <> 0).
  { repeat apply Rmult_integral_contrapositive_currified; auto using pow_nonzero; lra. }
  assert (B : - (1 - (1 - 1 / 2) ^ (2 * 2)) * p ^ 2 * nl q * dnl q <> 0).
  { apply Rmult_integral_contrapositive_currified; [|exact Zd]. apply Rmult_integral_contrapositive_currified; [|exact Zn].
    apply Rmult_integral_contrapositive_currified; [cbn; lra|now apply pow_nonzero]. }
  destruct (Req_EM_T _ 0) as [C|_]; [contradiction|]. destruct (Req_EM_T _ 0) as [C|_]; [contradiction|].
  f_equal; f_equal; cbn; field; auto.
Qed.

(** With learning rate one both programs are the same. *)
Lemma rate_one n : (0 < n)%nat -> forall q p, rhs_shooting_autograd nl grad 1 n q p = rhs_shooting_analytic nl dnl 1 q p.
Proof.
  intros Hn q p. rewrite (autograd_is nl dnl grad G 1 n q p H), analytic_is. unfold remainder.
  rewrite Rminus_eq_0, !pow_i by lia. f_equal; ring.
Qed.

Lemma rate_one_run n : (0 < n)%nat -> forall dt k q p,
  euler_forward (rhs_shooting_autograd nl grad 1 n) q p dt k = euler_forward (rhs_shooting_analytic nl dnl 1) q p dt k.
Proof. intros Hn dt k q p. apply iter_ext. intros y. now rewrite rate_one. Qed.

Lemma rate_one_script n dt k q p r : (0 < n)%nat -> raw_check nl dnl grad 1 1 n dt k q p = Ok r ->
  rhs_analytic r = rhs_autograd r /\ grads_analytic r = grads_autograd r /\ grad_ratios r = (1, 1).
Proof.
  intros Hn E. pose proof E as E'. destruct (raw_check_is _ _ _ _ _ _ _ _ E) as [_ [A [B [C [D Z]]]]].
  assert (L : loss_of (rhs_shooting_autograd nl grad 1 n) dt k = loss_of (rhs_shooting_analytic nl dnl 1) dt k).
  { apply functional_extensionality; intros x; apply functional_extensionality; intros y. unfold loss_of. now rewrite rate_one_run. }
  assert (AB : grads_analytic r = grads_autograd r) by (rewrite A, B, L; reflexivity).
  assert (Z1 : fst (grads_autograd r) <> 0).
  { revert E'. unfold raw_check. cbn [item backward fst snd zero_grad bind]. rewrite !Rplus_0_l. unfold ratio.
    destruct (Req_EM_T _ 0) as [?|N]; [discriminate|]. cbn [bind]. destruct (Req_EM_T _ 0); [discriminate|].
    cbn [bind]. intros E'. injection E' as <-. exact N. }
  split; [|split; [exact AB|]].
  - revert E'. unfold raw_check. cbn [item backward fst snd zero_grad bind]. unfold ratio.
    destruct (Req_EM_T _ 0); [discriminate|]. cbn [bind]. destruct (Req_EM_T _ 0); [discriminate|].
    cbn [bind]. intros E'. injection E' as <-. cbn [rhs_analytic rhs_autograd]. now rewrite (rate_one n Hn q p).
  - destruct (grad_ratios r) as [x y]. cbn [fst snd] in C, D. subst. rewrite AB. f_equal; field; assumption.
Qed.
End Script.

Lemma derive_differentiates : differentiates (fun f x => Derive f x).
Proof. intros f x l D. apply is_derive_unique. now apply is_derive_Reals. Qed.

Lemma tanh_positive x : 0 < x -> 0 < tanh x.
Proof.
  intros Hx. unfold tanh. apply Rdiv_lt_0_compat.
  - unfold sinh. assert (exp (- x) < exp x) by (apply exp_increasing; lra). lra.
  - unfold cosh. assert (0 < exp x) by apply exp_pos. assert (0 < exp (- x)) by apply exp_pos. lra.
Qed.

Lemma dtanh_positive x : 0 < dtanh x.
Proof.
  unfold dtanh, tanh. assert (C : 0 < cosh x).
  { unfold cosh. assert (0 < exp x) by apply exp_pos. assert (0 < exp (- x)) by apply exp_pos. lra. }
  assert (E : cosh x * cosh x - sinh x * sinh x = 1).
  { unfold cosh, sinh. assert (exp x * exp (- x) = 1) by (rewrite <- exp_plus, Rplus_opp_r; apply exp_0). nra. }
  replace (1 - (sinh x / cosh x) ^ 2) with ((cosh x * cosh x - sinh x * sinh x) / (cosh x * cosh x)) by (field; lra).
  rewrite E. apply Rdiv_lt_0_compat; [lra|]. now apply Rmult_lt_0_compat.
Qed.

(** A complete run of the script: identity, one step of size 1/10. *)
Lemma one_step_loss a b (rhs : R -> R -> R * R) : 0 <= a <= 1 -> 0 <= b <= 1 ->
  (forall q p, rhs q p = (a * p * q ^ 2, - b * p ^ 2 * q * 1)) ->
  Derive (fun q => loss_of rhs (1 / 10) 1 q 1) 1 <> 0 /\ Derive (fun p => loss_of rhs (1 / 10) 1 1 p) 1 <> 0.
Proof.
  intros Ha Hb E.
  assert (L : forall q p, loss_of rhs (1 / 10) 1 q p
    = (q + 1 / 10 * (a * p * (q * q))) * (q + 1 / 10 * (a * p * (q * q))) + (p - 1 / 10 * (b * (p * p) * q)) * (p - 1 / 10 * (b * (p * p) * q))).
  { intros q p. unfold loss_of, euler_forward. cbn [Nat.iter nat_rect fst snd]. rewrite E. cbn [fst snd]. ring. }
  split.
  - rewrite (Derive_ext _ _ _ (fun q => L q 1)).
    rewrite (is_derive_unique _ _ (2 * (1 + 1 / 10 * a) * (1 + 2 / 10 * a) - 2 / 10 * b * (1 - 1 / 10 * b))); [nra|].
    auto_derive; [exact I|field].
  - rewrite (Derive_ext _ _ _ (fun p => L 1 p)).
    rewrite (is_derive_unique _ _ (2 / 10 * a * (1 + 1 / 10 * a) + 2 * (1 - 1 / 10 * b) * (1 - 2 / 10 * b))); [nra|].
    auto_derive; [exact I|field].
Qed.

Lemma id_derivative : derivative_of (fun x => x) (fun _ => 1).
Proof. intros x. apply derivable_pt_lim_id. Qed.

Lemma run_exists c lr n : 0 <= c <= 1 -> 0 <= lr <= 1 ->
  exists r, raw_check (fun x => x) (fun _ => 1) (fun f x => Derive f x) c lr n (1 / 10) 1 1 1 = Ok r.
Proof.
  intros Hc Hl.
  assert (B : forall m, 0 <= 1 - remainder lr m <= 1).
  { intros m. unfold remainder. assert (0 <= (1 - lr) ^ m) by (apply pow_le; lra).
    assert ((1 - lr) ^ m <= 1 ^ m) by (apply pow_incr; lra). rewrite pow1 in *. lra. }
  destruct (one_step_loss (1 - remainder lr n) (1 - remainder lr (2 * n)) (rhs_shooting_autograd (fun x => x) (fun f x => Derive f x) lr n))
    as [N1 N2]; [apply B|apply B| |].
  { intros q p. now rewrite (autograd_is (fun x => x) (fun _ => 1) _ derive_differentiates lr n q p id_derivative). }
  unfold raw_check. cbn [item backward fst snd zero_grad bind]. rewrite !Rplus_0_l. unfold ratio.
  destruct (Req_EM_T _ 0); [contradiction|]. cbn [bind]. destruct (Req_EM_T _ 0); [contradiction|]. eexists. reflexivity.
Qed.

Lemma reported nl dnl grad factor lr n dt k q p r : raw_check nl dnl grad factor lr n dt k q p = Ok r ->
  rhs_ratios r = (tensor_ratio (fst (rhs_shooting_analytic nl dnl factor q p)) (fst (rhs_shooting_autograd nl grad lr n q p)),
                  tensor_ratio (snd (rhs_shooting_analytic nl dnl factor q p)) (snd (rhs_shooting_autograd nl grad lr n q p)))
  /\ grads_analytic r = (grad (fun q => loss_of (rhs_shooting_analytic nl dnl factor) dt k q p) q,
                         grad (fun p => loss_of (rhs_shooting_analytic nl dnl factor) dt k q p) p)
  /\ grads_autograd r = (grad (fun q => loss_of (rhs_shooting_autograd nl grad lr n) dt k q p) q,
                         grad (fun p => loss_of (rhs_shooting_autograd nl grad lr n) dt k q p) p)
  /\ fst (grad_ratios r) = fst (grads_analytic r) / fst (grads_autograd r)
  /\ snd (grad_ratios r) = 1.
Proof.
  intros E. destruct (raw_check_is _ _ _ _ _ _ _ _ _ _ _ E) as [A [B [C [D [F Z]]]]].
  repeat split; auto. rewrite F. field. exact Z.
Qed.

Lemma ratios_differ : exists nl dnl grad dt k q p r, differentiates grad /\ derivative_of nl dnl
  /\ raw_check nl dnl grad (15 / 16) (1 / 2) 2 dt k q p = Ok r
  /\ rhs_ratios r <> (Some 1, Some 1) /\ fst (rhs_analytic r) <> fst (rhs_autograd r).
Proof.
  destruct (run_exists (15 / 16) (1 / 2) 2) as [r E]; [lra|lra|].
  exists (fun x => x), (fun _ => 1), (fun f x => Derive f x), (1 / 10), 1%nat, 1, 1, r.
  split; [exact derive_differentiates|]. split; [exact id_derivative|]. split; [exact E|].
  pose proof (ratios_of_script _ _ _ derive_differentiates id_derivative _ _ 1 1 r ltac:(lra) ltac:(lra) E) as Q.
  split.
  - rewrite Q. intros F. assert (S : Some (5 / 4) = Some 1) by congruence. assert (T : 5 / 4 = 1) by congruence. lra.
  - intros F. revert Q. destruct (raw_check_is _ _ _ _ _ _ _ _ _ _ _ E) as [-> _].
    assert (A : rhs_analytic r = rhs_shooting_analytic (fun x => x) (fun _ => 1) (15 / 16) 1 1
      /\ rhs_autograd r = rhs_shooting_autograd (fun x => x) (fun f x => Derive f x) (1 / 2) 2 1 1).
    { revert E. unfold raw_check. cbn [item backward fst snd zero_grad bind]. unfold ratio.
      destruct (Req_EM_T _ 0); [discriminate|]. cbn [bind]. destruct (Req_EM_T _ 0); [discriminate|].
      cbn [bind]. intros E. injection E as <-. auto. }
    destruct A as [<- <-]. rewrite F. unfold tensor_ratio at 1. destruct (Req_EM_T _ 0) as [|N]; [discriminate|].
    intros Q. assert (S : Some (fst (rhs_autograd r) / fst (rhs_autograd r)) = Some (5 / 4)) by congruence.
    assert (T : fst (rhs_autograd r) / fst (rhs_autograd r) = 5 / 4) by congruence.
    replace (fst (rhs_autograd r) / fst (rhs_autograd r)) with 1 in T by (field; exact N). lra.
Qed.

(** Proofs: larger costates and longer times. *)
From Coq Require Import List String Bool Reals Arith ZArith Lia Lra QArith Qcanon Qround Qreals FunctionalExtensionality.
From Verif Require Import Base BaseFacts RealSum IntegratorModel FixedGridModel FixedGridSpec VecModel ParticlesModel
  ParticlesProofs2 ScalingSpec ScalingProofs ScalingProofs2 PaceSpec.
Import ListNotations.
Open Scope string_scope.
Open Scope list_scope.

(** ** Solvers *)
Section Factor.
Variable l : Qc.
Hypothesis L : (0 < l)%Qc.

Lemma L0 : l <> 0%Qc.
Proof. intro E. rewrite E in L. discriminate L. Qed.

Lemma compare_longer a b : (l * a ?= l * b)%Qc = (a ?= b)%Qc.
Proof.
  destruct (a ?= b)%Qc eqn:E.
  - apply Qceq_alt in E as ->. apply Qceq_alt. reflexivity.
  - apply Qclt_alt in E. apply Qclt_alt. rewrite (Qcmult_comm l a), (Qcmult_comm l b). apply Qcmult_lt_compat_r; assumption.
  - apply Qcgt_alt in E. apply Qcgt_alt. rewrite (Qcmult_comm l a), (Qcmult_comm l b). apply Qcmult_lt_compat_r; assumption.
Qed.
Lemma qle_longer a b : qle (l * a)%Qc (l * b)%Qc = qle a b.
Proof. unfold qle. now rewrite compare_longer. Qed.
Lemma qlt_longer a b : qlt (l * a)%Qc (l * b)%Qc = qlt a b.
Proof. unfold qlt. now rewrite compare_longer. Qed.
Lemma cancel_longer a b : (l * a = l * b)%Qc -> a = b.
Proof.
  intro E. replace a with (/ l * (l * a))%Qc.
  - rewrite E, Qcmult_assoc, (Qcmult_comm (/ l)), Qcmult_inv_r by exact L0. ring.
  - rewrite Qcmult_assoc, (Qcmult_comm (/ l)), Qcmult_inv_r by exact L0. ring.
Qed.
Lemma eq_longer a b : Qc_eq_bool (l * a)%Qc (l * b)%Qc = Qc_eq_bool a b.
Proof.
  unfold Qc_eq_bool. destruct (Qc_eq_dec a b) as [->|N].
  - destruct (Qc_eq_dec (l * b) (l * b)); [reflexivity|congruence].
  - destruct (Qc_eq_dec (l * a) (l * b)) as [E|]; [|reflexivity]. exfalso. apply N, cancel_longer. exact E.
Qed.
Lemma difference_longer a b : (l * a - l * b)%Qc = (l * (a - b))%Qc.
Proof. ring. Qed.
Lemma inverse_longer b : (/ (l * b))%Qc = (/ l * / b)%Qc.
Proof.
  apply Qc_is_canon. cbn [Qcinv Qcmult Q2Qc this]. rewrite !Qred_correct. apply Qinv_mult_distr.
Qed.
Lemma quotient_longer a b : (l * a * / (l * b))%Qc = (a * / b)%Qc.
Proof.
  rewrite inverse_longer. replace (l * a * (/ l * / b))%Qc with ((l * / l) * (a * / b))%Qc by ring.
  rewrite Qcmult_inv_r by exact L0. ring.
Qed.

Lemma increasing_longer t : increasing (longer l t) = increasing t.
Proof.
  induction t as [|a [|b r] IH]; [reflexivity..|].
  change (qlt (l * a) (l * b) && increasing (longer l (b :: r)) = increasing (a :: b :: r)).
  rewrite IH, qlt_longer. reflexivity.
Qed.
Lemma turned_longer t : map Qcopp (longer l t) = longer l (map Qcopp t).
Proof. unfold longer. rewrite !map_map. apply map_ext. intros; ring. Qed.
Lemma last_longer t : last_item (longer l t) = bind (last_item t) (fun s => Ok (l * s)%Qc).
Proof. unfold last_item, longer. rewrite <- map_rev. destruct (rev t); reflexivity. Qed.
Lemma set_last_longer v t : set_last (l * v)%Qc (longer l t) = bind (set_last v t) (fun r => Ok (longer l r)).
Proof.
  destruct t as [|a r]; [reflexivity|]. cbn [set_last bind]. unfold set_last. change (longer l (a :: r)) with ((l * a)%Qc :: longer l r).
  cbn [bind]. change ((l * a)%Qc :: longer l r) with (longer l (a :: r)). f_equal. unfold longer. rewrite map_app. f_equal.
  generalize (a :: r). intros q. induction q as [|x [|y q] IH]; [reflexivity..|].
  change (removelast (map (Qcmult l) (x :: y :: q))) with ((l * x)%Qc :: removelast (map (Qcmult l) (y :: q))).
  rewrite IH. reflexivity.
Qed.

Lemma step_grid_longer h t0 tl :
  step_grid (l * h)%Qc (l * t0)%Qc (l * tl)%Qc = bind (step_grid h t0 tl) (fun g => Ok (longer l g)).
Proof.
  unfold step_grid. replace 0%Qc with (l * 0)%Qc at 1 by ring. rewrite eq_longer.
  destruct (Qc_eq_bool h 0); [reflexivity|]. rewrite difference_longer. unfold Qcdiv. rewrite quotient_longer.
  destruct (Z.ltb _ 0); [reflexivity|].
  set (q := seq 0 _). replace (map (fun i => (Q2Qc (inject_Z (Z.of_nat i)) * (l * h) + (l * t0))%Qc) q)
    with (longer l (map (fun i => (Q2Qc (inject_Z (Z.of_nat i)) * h + t0)%Qc) q)) by (unfold longer; rewrite map_map; apply map_ext; intros; ring).
  rewrite last_longer. destruct (last_item _); [|reflexivity]. cbn [bind]. rewrite qlt_longer. destruct (qlt tl a); [apply set_last_longer|reflexivity].
Qed.

Section Solver.
Context {X : Type}.
Variable add : X -> X -> X.
Variable mul : Qc -> X -> X.
Hypothesis LL : linear_laws add mul.

Lemma interp_longer t0 t1 y0 y1 t :
  linear_interp add mul (l * t0)%Qc (l * t1)%Qc y0 y1 (l * t)%Qc = linear_interp add mul t0 t1 y0 y1 t.
Proof.
  unfold linear_interp. rewrite !eq_longer, !difference_longer, !(proj1 LL), quotient_longer. reflexivity.
Qed.

Lemma emit_longer t0 t1 y0 y1 ts : emit add mul (l * t0)%Qc (l * t1)%Qc y0 y1 (longer l ts)
  = let '(o, r) := emit add mul t0 t1 y0 y1 ts in (o, longer l r).
Proof.
  induction ts as [|s r IH]; [reflexivity|]. change (longer l (s :: r)) with ((l * s)%Qc :: longer l r). cbn [emit]. rewrite qle_longer.
  destruct (qle s t1); [|reflexivity]. rewrite IH, interp_longer. destruct (emit add mul t0 t1 y0 y1 r). reflexivity.
Qed.

Definition longer_step (st st' : Qc -> Qc -> X -> X) : Prop := forall t dt y, st' (l * t)%Qc (l * dt)%Qc y = st t dt y.

Lemma march_longer st st' : longer_step st st' -> forall g t0 y ts,
  march add mul st' (l * t0)%Qc (longer l g) y (longer l ts) = march add mul st t0 g y ts.
Proof.
  intros S. induction g as [|t1 g IH]; intros t0 y ts; [reflexivity|]. change (longer l (t1 :: g)) with ((l * t1)%Qc :: longer l g).
  cbn [march]. rewrite difference_longer, S, emit_longer. destruct (emit add mul t0 t1 _ _ ts). rewrite IH. reflexivity.
Qed.

Lemma fixed_grid_longer st st' h y t : longer_step st st' ->
  fixed_grid add mul st' (option_map (Qcmult l) h) y (longer l t) = fixed_grid add mul st h y t.
Proof.
  intros S. unfold fixed_grid. rewrite increasing_longer. destruct (negb _); [reflexivity|]. destruct t as [|t0 ts]; [reflexivity|].
  rewrite last_longer. change (longer l (t0 :: ts)) with ((l * t0)%Qc :: longer l ts). cbn [bind].
  destruct (last_item (t0 :: ts)) as [tl|]; [|reflexivity]. cbn [bind].
  assert (G : match option_map (Qcmult l) h with Some h => step_grid h (l * t0) (l * tl) | None => Ok ((l * t0)%Qc :: longer l ts) end
    = bind (match h with Some h => step_grid h t0 tl | None => Ok (t0 :: ts) end) (fun g => Ok (longer l g))).
  { destruct h; [apply step_grid_longer|reflexivity]. }
  rewrite G. clear G. destruct (match h with Some h => step_grid h t0 tl | None => Ok (t0 :: ts) end) as [g|]; [|reflexivity]. cbn [bind]. rewrite last_longer.
  destruct (last_item g) as [gl|]; [|reflexivity]. cbn [bind]. destruct g as [|g0 gs]; [reflexivity|].
  change (longer l (g0 :: gs)) with ((l * g0)%Qc :: longer l gs). cbv iota. rewrite !eq_longer. destruct (_ && _); [|reflexivity].
  rewrite (march_longer st st' S). reflexivity.
Qed.

Lemma times_l a v : mul a (mul l v) = mul (l * a)%Qc v.
Proof. rewrite (proj1 LL). f_equal. ring. Qed.

(** [f'] is [l] times as fast as [f] and the times are [l] times as long for [f]. *)
Lemma method_longer f f' name st : (forall s y, f' s y = mul l (f (l * s)%Qc y)) -> method add mul f name = Some st ->
  exists st', method add mul f' name = Some st' /\ longer_step st' st.
Proof.
  destruct LL as (Mm & Md). intros D H. unfold method in *.
  destruct (String.eqb name "euler"); [injection H as <-; eexists; split; [reflexivity|]|
  destruct (String.eqb name "midpoint"); [injection H as <-; eexists; split; [reflexivity|]|
  destruct (String.eqb name "rk4"); [injection H as <-; eexists; split; [reflexivity|]|discriminate]]]; intros t dt y.
  - unfold euler_step. rewrite D, times_l. reflexivity.
  - unfold midpoint_step. rewrite !D, !times_l. f_equal. f_equal; [unfold Qcdiv; ring|]. f_equal. f_equal. unfold Qcdiv. ring.
  - unfold rk4_step. set (third := (1 / Q2Qc 3)%Qc). cbv zeta. rewrite !D.
    set (K1 := f (l * t)%Qc y).
    assert (DD : forall a u v, mul a (add (mul l u) (mul l v)) = mul (l * a)%Qc (add u v)).
    { intros a u v. rewrite <- Md, times_l. reflexivity. }
    assert (C : forall a u, mul a (mul l u) = mul l (mul a u)).
    { intros a u. rewrite !Mm. f_equal. ring. }
    replace (l * (t + dt * third))%Qc with (l * t + l * dt * third)%Qc by ring.
    replace (l * (t + dt * (Q2Qc 2 * third)))%Qc with (l * t + l * dt * (Q2Qc 2 * third))%Qc by ring.
    replace (l * (t + dt))%Qc with (l * t + l * dt)%Qc by ring.
    rewrite !(times_l (dt * third)%Qc). replace (l * (dt * third))%Qc with (l * dt * third)%Qc by ring.
    set (K2 := f (l * t + l * dt * third)%Qc (add y (mul (l * dt * third)%Qc K1))).
    rewrite !(C (- third)%Qc), !DD.
    set (K3 := f (l * t + l * dt * (Q2Qc 2 * third))%Qc (add y (mul (l * dt)%Qc (add (mul (- third)%Qc K1) K2)))).
    rewrite !(C (Q2Qc (-1))), <- !(Md l K1), !DD.
    set (K4 := f (l * t + l * dt)%Qc (add y (mul (l * dt)%Qc (add (add K1 (mul (Q2Qc (-1)) K2)) K3)))).
    rewrite !(C (Q2Qc 3)), <- !Md, times_l. f_equal. unfold Qcdiv. ring.
Qed.

Lemma step_size_longer o o' : longer_steps l o o' -> option_step_size o' = option_map (Qcmult l) (option_step_size o).
Proof.
  intros [[E E']|[h [H H']]]; unfold option_step_size.
  - rewrite E, E'. reflexivity.
  - destruct H as [->|[z [-> ->]]], H' as [->|[z' [-> E]]]; cbn [option_map]; congruence.
Qed.

Lemma odeint_longer f f' other other' adj name o o' y t : (forall s y, f' s y = mul l (f (l * s)%Qc y)) ->
  In name ["euler"; "midpoint"; "rk4"] -> longer_steps l o o' ->
  fixed_odeint add mul f other adj name o' y (longer l t) = fixed_odeint add mul f' other' adj name o y t.
Proof.
  intros D I LS. unfold fixed_odeint. rewrite turned_longer, increasing_longer, (step_size_longer o o' LS).
  destruct (increasing (map Qcopp t)).
  - assert (D' : forall s y, (fun s y => mul (Q2Qc (-1)) (f' (- s)%Qc y)) s y
      = mul l ((fun s y => mul (Q2Qc (-1)) (f (- s)%Qc y)) (l * s)%Qc y)).
    { intros s z. cbv beta. rewrite D, !(proj1 LL). f_equal; [ring|]. f_equal. ring. }
    assert (M : exists st, method add mul (fun s y => mul (Q2Qc (-1)) (f (- s)%Qc y)) name = Some st).
    { destruct I as [<-|[<-|[<-|[]]]]; eexists; reflexivity. }
    destruct M as (st & M). destruct (method_longer _ _ _ _ D' M) as (st' & M' & S). rewrite M, M'. apply fixed_grid_longer. exact S.
  - assert (M : exists st, method add mul f name = Some st).
    { destruct I as [<-|[<-|[<-|[]]]]; eexists; reflexivity. }
    destruct M as (st & M). destruct (method_longer _ _ _ _ D M) as (st' & M' & S). rewrite M, M'. apply fixed_grid_longer. exact S.
Qed.
End Solver.
End Factor.

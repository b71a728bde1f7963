(** Proofs: negated costates and reversed times. *)
From Coq Require Import List String Bool Reals Arith ZArith Lia Lra QArith Qcanon Qreals FunctionalExtensionality.
From Verif Require Import Base BaseFacts RealSum IntegratorModel FixedGridModel FixedGridSpec VecModel ParticlesModel
  ParticlesProofs2 ScalingSpec ScalingProofs ScalingProofs2 PaceSpec PaceProofs PaceProofs2.
Import ListNotations.
Open Scope string_scope.
Open Scope list_scope.

Lemma opp_twice t : map Qcopp (map Qcopp t) = t.
Proof. rewrite map_map. rewrite (map_ext _ (fun s => s)); [apply map_id|]. intros; ring. Qed.

Lemma one_direction a b t : increasing (a :: b :: t) = true -> increasing (map Qcopp (a :: b :: t)) = true -> False.
Proof.
  cbn [increasing map]. intros H G. apply andb_true_iff in H, G. destruct H as [H _], G as [G _].
  unfold qlt in H, G. destruct (a ?= b)%Qc eqn:E; try discriminate H. destruct (- a ?= - b)%Qc eqn:F; try discriminate G.
  apply Qclt_alt in E, F. unfold Qclt in *. cbn [Qcopp Q2Qc this] in F. rewrite !Qred_correct in F.
  apply Qopp_lt_compat in E. exact (Qlt_irrefl _ (Qlt_trans _ _ _ E F)).
Qed.

Section Solver.
Context {X : Type}.
Variable add : X -> X -> X.
Variable mul : Qc -> X -> X.
Hypothesis TWICE : forall v, mul (Q2Qc (-1)) (mul (Q2Qc (-1)) v) = v.

Lemma odeint_reversed f other other' adj name o y a b t : In name ["euler"; "midpoint"; "rk4"] ->
  fixed_odeint add mul f other adj name o y (map Qcopp (a :: b :: t))
  = fixed_odeint add mul (fun s y => mul (Q2Qc (-1)) (f (- s)%Qc y)) other' adj name o y (a :: b :: t).
Proof.
  intros I. pose proof (one_direction a b t) as OD. unfold fixed_odeint. set (T := a :: b :: t) in *. rewrite opp_twice.
  destruct (increasing T) eqn:ET, (increasing (map Qcopp T)) eqn:EO.
  - exfalso. auto.
  - destruct I as [<-|[<-|[<-|[]]]]; reflexivity.
  - replace (fun s z => mul (Q2Qc (-1)) (mul (Q2Qc (-1)) (f (- - s)%Qc z))) with f.
    + destruct I as [<-|[<-|[<-|[]]]]; reflexivity.
    + apply functional_extensionality; intros s. apply functional_extensionality; intros z. rewrite TWICE, Qcopp_involutive. reflexivity.
  - assert (R : forall st h z u, increasing u = false -> fixed_grid add mul st h z u = Raise AssertionError).
    { intros st h z u E. unfold fixed_grid. rewrite E. reflexivity. }
    destruct I as [<-|[<-|[<-|[]]]]; cbn [method String.eqb Ascii.eqb Bool.eqb]; rewrite !R by assumption; reflexivity.
Qed.
End Solver.

Lemma minus_one_twice v : times_system (Q2Qc (-1)) (times_system (Q2Qc (-1)) v) = v.
Proof.
  rewrite (proj1 system_laws). replace (Q2Qc (-1) * Q2Qc (-1))%Qc with 1%Qc by (apply Qc_is_canon; reflexivity).
  destruct v as [[[s c] z]|]; [|reflexivity]. cbn [times_system bind].
  assert (E : forall u, times_states (Q2R (this 1%Qc)) u = u).
  { intros u. unfold times_states. rewrite (map_ext _ (fun kx => kx)); [apply map_id|]. intros [k x]. cbn [fst snd]. f_equal.
    destruct x as [a b c0 v]. unfold map3. cbn [n0 n1 n2 v3]. f_equal. ext. unfold Q2R. cbn. field. }
  rewrite !E. reflexivity.
Qed.

Lemma run_reversed nl dnl init d e W ow N k m other other' adj name o y t ys : (2 <= List.length t)%nat ->
  In k [0; 1; 2; 3; 4; 6; 7]%nat -> nth_error (vector_equations nl dnl init d e W ow N) k = Some m ->
  In name ["euler"; "midpoint"; "rk4"] ->
  fixed_odeint plus_system times_system (system_field m) other adj name o (Ok y) (map Qcopp t) = Ok (map Ok ys) ->
  fixed_odeint plus_system times_system (system_field m) other' adj name o (Ok (multiple_system (-1) y)) t
  = Ok (map Ok (map (multiple_system (-1)) ys)).
Proof.
  intros LT K E NM H. destruct t as [|a [|b t]]; [cbn in LT; lia|cbn in LT; lia|].
  rewrite (odeint_reversed plus_system times_system minus_one_twice (system_field m) other other' adj name o (Ok y) a b t NM) in H.
  assert (R1 : real (Q2Qc (-1)) = (-1)%R) by (unfold real, Q2R; cbn; lra).
  destruct (fixed_odeint_rel plus_system times_system plus_system times_system (scaled (-1))) with
    (f := fun s y => times_system (Q2Qc (-1)) (system_field m (- s)%Qc y)) (f' := system_field m) (otherX := other') (otherY := other')
    (adj := adj) (name := name) (o := o)
    (x := Ok y : result system) (y := Ok (multiple_system (-1) y) : result system) (t := a :: b :: t) (xs := map Ok ys) as (zs & Z & F).
  - intros x x' u u' A B. unfold scaled in *. subst. destruct x as [[[s c] z]|]; [|reflexivity].
    destruct x' as [[[s' c'] z']|]; [|reflexivity]. cbn [bind multiple_system plus_system]. rewrite plus_multiple.
    destruct (plus_states s s'); [|reflexivity]. cbn [bind]. destruct (plus_states c c'); [|reflexivity]. cbn [bind].
    destruct (plus_states z z'); reflexivity.
  - intros q x u A. unfold scaled in *. subst. destruct x as [[[s c] z]|]; [|reflexivity].
    cbn [bind multiple_system times_system]. rewrite times_multiple. reflexivity.
  - intros s x u A. unfold scaled in *. rewrite A. destruct x as [x|]; [|reflexivity]. cbn [bind system_field].
    rewrite (system_pace (-1) nl dnl init d e W ow N k m x K E).
    destruct (system_rhs m x) as [[[ds dc] dz]|]; [|reflexivity]. cbn [bind times_system multiple_system faster].
    fold (real (Q2Qc (-1))). rewrite R1. change times_states with multiple. rewrite multiple_twice. reflexivity.
  - exact NM.
  - reflexivity.
  - exact H.
  - rewrite Z. f_equal. rewrite map_map. clear -F. remember (map Ok ys) as q eqn:Q. revert ys Q.
    induction F as [|v w q zs A F IH]; intros [|u ys] Q; try discriminate; [reflexivity|].
    injection Q as -> Q. cbn [map]. rewrite <- (IH _ Q). rewrite A. reflexivity.
Qed.

Lemma multiple_system_opp l y : multiple_system (-1) (multiple_system (real (- l)%Qc) y) = multiple_system (real l) y.
Proof.
  destruct y as [[s c] z]. unfold multiple_system. do 2 f_equal. unfold multiple. rewrite map_map. apply map_ext.
  intros [k x]. cbn [fst snd]. f_equal. unfold map3. cbn [n0 n1 n2 v3]. f_equal. ext. unfold real. cbn [Qcopp Q2Qc this].
  rewrite (Qeq_eqR _ _ (Qred_correct _)), Q2R_opp. ring.
Qed.

Lemma run_backwards l nl dnl init d e W ow N k m other other' adj name o o' y t ys : (l < 0)%Qc -> (2 <= List.length t)%nat ->
  In k [0; 1; 2; 3; 4; 6; 7]%nat -> nth_error (vector_equations nl dnl init d e W ow N) k = Some m ->
  In name ["euler"; "midpoint"; "rk4"] -> longer_steps (- l)%Qc o o' ->
  fixed_odeint plus_system times_system (system_field m) other adj name o' (Ok y) (longer l t) = Ok (map Ok ys) ->
  fixed_odeint plus_system times_system (system_field m) other' adj name o (Ok (multiple_system (real l) y)) t
  = Ok (map Ok (map (multiple_system (real l)) ys)).
Proof.
  intros L LT K E NM LS H.
  assert (L' : (0 < - l)%Qc).
  { unfold Qclt in *. apply Qopp_lt_compat in L. cbn [Qcopp Q2Qc this]. rewrite (Qred_correct (- l)). exact L. }
  replace (longer l t) with (longer (- l)%Qc (map Qcopp t)) in H by (unfold longer; rewrite map_map; apply map_ext; intros; ring).
  apply (run_pace (- l)%Qc nl dnl init d e W ow N k m other other' adj name o o' y (map Qcopp t) ys L' K E NM LS) in H.
  apply (run_reversed nl dnl init d e W ow N k m other' other' adj name o _ t _ LT K E NM) in H.
  rewrite multiple_system_opp in H. rewrite H. do 2 f_equal. rewrite map_map. apply map_ext. intros u. apply multiple_system_opp.
Qed.

(** Decreasing times. *)
From Coq Require Import List String Arith ZArith QArith Qcanon Lia Sorting.Sorted.
From Verif Require Import Base IntegratorModel GridProofs FixedGridModel FixedGridSpec FixedGridProofs FixedGridProofs2 FixedGridProofs3.
Import ListNotations.
Open Scope string_scope.
Open Scope list_scope.
Open Scope nat_scope.

Lemma opp_lt a b : (b < a)%Qc -> (- a < - b)%Qc.
Proof. intros H. unfold Qclt in *. rewrite !this_opp. qc. Qed.

Lemma opposite_sorted t : StronglySorted (fun a b => (b < a)%Qc) t -> StronglySorted Qclt (map Qcopp t).
Proof.
  induction 1 as [|a t S IH F]; [constructor|]. cbn [map]. constructor; [exact IH|].
  apply Forall_map. eapply Forall_impl; [|exact F]. intros b H. apply opp_lt. exact H.
Qed.

Section Back.
Context {X : Type}.
Variable add : X -> X -> X.
Variable mul : Qc -> X -> X.
Hypothesis LL : linear_laws add mul.
Variable f : Qc -> X -> X.
Variable other : bool -> string -> opts -> X -> list Qc -> result (list X).
Notation turned := (fun s y => mul (Q2Qc (-1)) (f (- s)%Qc y)).

Lemma neg a v : mul a (mul (Q2Qc (-1)) v) = mul (- a)%Qc v.
Proof. rewrite (proj1 LL). f_equal. change (Q2Qc (-1)) with (- (1))%Qc. ring. Qed.

Lemma turned_step name s : method add mul f name = Some s -> exists s', method add mul turned name = Some s' /\
  forall t dt y, s' t dt y = s (- t)%Qc (- dt)%Qc y.
Proof.
  destruct LL as (Mm & Md). unfold method. destruct (String.eqb name "euler"); [|destruct (String.eqb name "midpoint"); [|destruct (String.eqb name "rk4"); [|discriminate]]];
    intros [= <-]; eexists; (split; [reflexivity|]); intros t dt y.
  - unfold euler_step. apply neg.
  - unfold midpoint_step. rewrite !neg. f_equal. f_equal; [unfold Qcdiv; ring|]. f_equal. f_equal. unfold Qcdiv. ring.
  - unfold rk4_step. set (third := (1 / Q2Qc 3)%Qc). cbv zeta.
    set (K1 := f (- t)%Qc y).
    assert (D : forall a u v, mul a (add (mul (Q2Qc (-1)) u) (mul (Q2Qc (-1)) v)) = mul (- a)%Qc (add u v)).
    { intros a u v. rewrite <- Md, neg. reflexivity. }
    assert (C : forall a u, mul a (mul (Q2Qc (-1)) u) = mul (Q2Qc (-1)) (mul a u)).
    { intros a u. rewrite !Mm. f_equal. ring. }
    assert (E2 : (- (t + dt * third))%Qc = (- t + - dt * third)%Qc) by ring.
    assert (E3 : (- (t + dt * (Q2Qc 2 * third)))%Qc = (- t + - dt * (Q2Qc 2 * third))%Qc) by ring.
    assert (E4 : (- (t + dt))%Qc = (- t + - dt)%Qc) by ring.
    rewrite E2, E3, E4. rewrite !(neg (dt * third)%Qc). replace (- (dt * third))%Qc with (- dt * third)%Qc by ring.
    set (K2 := f (- t + - dt * third)%Qc (add y (mul (- dt * third)%Qc K1))).
    rewrite !(C (- third)%Qc), !D.
    set (K3 := f (- t + - dt * (Q2Qc 2 * third))%Qc (add y (mul (- dt)%Qc (add (mul (- third)%Qc K1) K2)))).
    rewrite <- !(Md (Q2Qc (-1)) K1), !D.
    set (K4 := f (- t + - dt)%Qc (add y (mul (- dt)%Qc (add (add K1 (mul (Q2Qc (-1)) K2)) K3)))).
    rewrite !(C (Q2Qc 3)), <- !Md, neg. f_equal. unfold Qcdiv. ring.
Qed.

Lemma turned_steps (adv adv' : Qc -> Qc -> X -> X) h : (forall t y, adv' t h y = adv (- t)%Qc (- h)%Qc y) -> forall k t x,
  whole_steps adv' h (- t)%Qc k x = whole_steps adv (- h)%Qc t k x.
Proof.
  intros H. induction k as [|k IH]; intros t x; [reflexivity|]. cbn [whole_steps]. rewrite H, Qcopp_involutive.
  replace (- t + h)%Qc with (- (t + - h))%Qc by ring. apply IH.
Qed.

Lemma step_option_size o h : step_option o h -> option_step_size o = Some h.
Proof. unfold step_option, option_step_size. intros [->|(z & -> & ->)]; reflexivity. Qed.

Lemma backward odesolver hp i step h x t0 ts :
  method add mul f (i_name i) = Some step -> step_option (heap_get hp (i_options i)) h -> (0 < h)%Qc ->
  i_library i = "odeint" -> i_nr_of_checkpoints i = None -> i_checkpointing_time_interval i = None ->
  StronglySorted (fun a b => (b < a)%Qc) (t0 :: ts) ->
  exists values, integrate (fixed_odeint add mul f other) odesolver hp i x (t0 :: ts) = (hp, Ok (Some values)) /\
    List.length values = S (List.length ts) /\
    forall j k, nth_error (t0 :: ts) j = Some (t0 - times k h)%Qc ->
      nth_error values j = Some (whole_steps (fun t dt y => add y (step t dt y)) (- h)%Qc t0 k x).
Proof.
  intros M O H L N1 N2 SS. destruct (turned_step _ _ M) as (s' & M' & E).
  assert (S' := opposite_sorted _ SS). cbn [map] in S'.
  destruct (values_on_grid add mul s' h (- t0)%Qc (map Qcopp ts) x H S') as (values & EV & LV & V).
  exists values. split; [|split].
  - unfold integrate. rewrite N1, N2. unfold integrate_direct. rewrite L. replace (String.eqb "odeint" "odeint") with true by reflexivity.
    unfold fixed_odeint. cbn [map]. rewrite (proj2 (increasing_sorted _) S'), M', (step_option_size _ _ O), EV. reflexivity.
  - rewrite LV, map_length. reflexivity.
  - intros j k Hj. destruct (V j k) as (V1 & _).
    + change (- t0 :: map Qcopp ts)%Qc with (map Qcopp (t0 :: ts)). rewrite (nth_error_map' Qcopp _ _ _ Hj). f_equal. ring.
    + rewrite V1. f_equal. apply turned_steps. intros t y. rewrite E. reflexivity.
Qed.

Lemma forward odesolver hp i step h x t0 t1 ts :
  method add mul f (i_name i) = Some step -> step_option (heap_get hp (i_options i)) h -> (0 < h)%Qc ->
  i_library i = "odeint" -> i_nr_of_checkpoints i = None -> i_checkpointing_time_interval i = None ->
  StronglySorted Qclt (t0 :: t1 :: ts) ->
  exists values, integrate (fixed_odeint add mul f other) odesolver hp i x (t0 :: t1 :: ts) = (hp, Ok (Some values)) /\
    List.length values = S (S (List.length ts)) /\
    forall j k, nth_error (t0 :: t1 :: ts) j = Some (t0 + times k h)%Qc ->
      nth_error values j = Some (whole_steps (fun t dt y => add y (step t dt y)) h t0 k x).
Proof.
  intros M O H L N1 N2 SS. destruct (values_on_grid add mul step h t0 (t1 :: ts) x H SS) as (values & EV & LV & V).
  exists values. split; [apply (direct_integrate add mul f other odesolver hp i step h x t0 t1 ts M (step_option_size _ _ O) L N1 N2 SS _ EV)|].
  split; [exact LV|]. intros j k Hj. exact (proj1 (V j k Hj)).
Qed.
End Back.

(** ** With checkpoints *)
Section Checkpoints.
Context {X : Type}.
Variable odeint : bool -> string -> opts -> X -> list Qc -> result (list X).
Variable odesolver : opts -> X -> result X.

Lemma compare_gt a b : (b < a)%Qc -> Qccompare a b = Gt.
Proof. intros H. unfold Qccompare. apply -> Qgt_alt. exact H. Qed.

Lemma first_checkpoint a b n : (b < a)%Qc -> (b < a + Q2Qc (inject_Z 1) * ((b - a) / Q2Qc (inject_Z (Z.of_nat (S (S n))))))%Qc.
Proof.
  intros H. set (m := Q2Qc (inject_Z (Z.of_nat (S (S n))))).
  assert (M : (1 < m)%Qc).
  { unfold m, Qclt. change (this (Q2Qc (inject_Z (Z.of_nat (S (S n)))))) with (Qred (inject_Z (Z.of_nat (S (S n))))). rewrite Qred_correct.
    apply (Qlt_le_trans _ (inject_Z 2)); [reflexivity|]. rewrite <- Zle_Qle. lia. }
  assert (M0 : m <> 0%Qc) by (intros E; rewrite E in M; discriminate M).
  assert (E : (a + Q2Qc (inject_Z 1) * ((b - a) / m) = b + (a - b) * ((m - 1) / m))%Qc).
  { change (Q2Qc (inject_Z 1)) with 1%Qc. field. exact M0. }
  rewrite E. assert (P : (0 < (a - b) * ((m - 1) / m))%Qc).
  { assert (P1 := qc_minus_pos _ _ H). assert (P2 := qc_minus_pos _ _ M).
    assert (P3 : (0 < / m)%Qc).
    { assert (0 < m)%Qc by (apply Qclt_trans with 1%Qc; [reflexivity|exact M]). unfold Qclt in *.
      change (this (/ m)%Qc) with (Qred (/ this m)). rewrite Qred_correct. apply Qinv_lt_0_compat. assumption. }
    rewrite <- (Qcmult_0_l ((m - 1) / m)%Qc). apply Qcmult_lt_compat_r; [|exact P1].
    unfold Qcdiv. rewrite <- (Qcmult_0_l (/ m)%Qc). apply Qcmult_lt_compat_r; assumption. }
  revert P. generalize ((a - b) * ((m - 1) / m))%Qc. intros z P. clear - P. qc.
Qed.

(** Two decreasing times and at least one checkpoint: nothing is integrated. *)
Lemma checkpoints_nothing hp i x t0 t1 n :
  i_nr_of_checkpoints i = Some (Z.of_nat (S n)) -> i_checkpointing_time_interval i = None -> (t1 < t0)%Qc ->
  integrate odeint odesolver hp i x [t0; t1] = (hp, Ok None).
Proof.
  intros N1 N2 L. unfold integrate. rewrite N1. unfold integrate_checkpointed. rewrite N1, N2.
  unfold create_integration_time_intervals. cbn [last_item rev app bind]. unfold checkpoint_times, linspace.
  destruct (Z.ltb_spec (Z.of_nat (S n) + 2) 0); [lia|]. destruct (Z.eqb_spec (Z.of_nat (S n) + 2) 1); [lia|]. cbn [bind].
  replace (Z.to_nat (Z.of_nat (S n) + 2)) with (S (S (S n))) by lia.
  replace (Z.of_nat (S n) + 2 - 1)%Z with (Z.of_nat (S (S n))) by lia.
  cbn [seq map set_last removelast app bind].
  set (c1 := (t0 + Q2Qc (inject_Z (Z.of_nat 1)) * ((t1 - t0) / Q2Qc (inject_Z (Z.of_nat (S (S n))))))%Qc).
  set (c0 := (t0 + Q2Qc (inject_Z (Z.of_nat 0)) * _)%Qc).
  assert (C0 : c0 = t0) by (unfold c0; change (Q2Qc (inject_Z (Z.of_nat 0))) with 0%Qc; ring).
  unfold intervals_for. rewrite C0. replace (Qccompare t0 t0) with Eq by (symmetry; apply -> Qceq_alt; reflexivity).
  cbn [interval_loop]. rewrite (compare_gt c1 t1 (first_checkpoint t0 t1 n L)). reflexivity.
Qed.

(** Decreasing times and an interval between checkpoints. *)
Lemma interval_refused hp i x t0 t1 ts d : i_nr_of_checkpoints i = None -> i_checkpointing_time_interval i = Some d -> (0 < d)%Qc ->
  StronglySorted (fun a b => (b < a)%Qc) (t0 :: t1 :: ts) ->
  integrate odeint odesolver hp i x (t0 :: t1 :: ts) = (hp, Raise RuntimeError).
Proof.
  intros N1 N2 D S. unfold integrate. rewrite N1, N2. unfold integrate_checkpointed. rewrite N1, N2.
  unfold create_integration_time_intervals.
  destruct (@exists_last Qc (t1 :: ts) ltac:(discriminate)) as (l & tl & E). rewrite E, app_comm_cons, last_item_app. cbn [bind].
  assert (L : (tl < t0)%Qc).
  { inversion S as [|? ? _ F]; subst. rewrite E in F. apply Forall_app in F as (_ & F). inversion F. assumption. }
  unfold checkpoint_times, arange. replace (Qc_eq_bool d 0) with false.
  - rewrite (compare_gt d 0 D). replace (tl ?= t0)%Qc with Lt by (symmetry; apply -> Qclt_alt; exact L).
    reflexivity.
  - symmetry. unfold Qc_eq_bool. destruct (Qc_eq_dec d 0) as [->|]; [exfalso; discriminate D|reflexivity].
Qed.
End Checkpoints.

Lemma decreasing_checkpoints : forall (X : Type) odeint odesolver hp i (x : X) t0 t1 ts,
  StronglySorted (fun a b => (b < a)%Qc) (t0 :: t1 :: ts) ->
  (forall n, i_nr_of_checkpoints i = Some (Z.of_nat (S n)) -> i_checkpointing_time_interval i = None -> ts = [] ->
    integrate odeint odesolver hp i x (t0 :: t1 :: ts) = (hp, Ok None)) /\
  (forall d, i_nr_of_checkpoints i = None -> i_checkpointing_time_interval i = Some d -> (0 < d)%Qc ->
    integrate odeint odesolver hp i x (t0 :: t1 :: ts) = (hp, Raise RuntimeError)).
Proof.
  intros X odeint odesolver hp i x t0 t1 ts S. split.
  - intros n N1 N2 ->. apply (checkpoints_nothing odeint odesolver hp i x t0 t1 n N1 N2).
    inversion S as [|? ? _ F]; subst. inversion F. assumption.
  - intros d N1 N2 D. apply (interval_refused odeint odesolver hp i x t0 t1 ts d N1 N2 D S).
Qed.

(** Proofs: parameters and whole runs under orthogonal maps of the features. *)
From Coq Require Import List String Bool Reals Arith Lia Lra QArith Qcanon Qreals FunctionalExtensionality.
From Verif Require Import Base BaseFacts RealSum IntegratorModel FixedGridModel VecModel ParticlesModel ParticlesProofs2
  ScalingProofs RotationSpec RotationProofs RotationProofs2.
Import ListNotations.
Open Scope string_scope.
Open Scope list_scope.
Open Scope R_scope.

Section Parameters.
Variable d : nat.
Variable O : nat -> nat -> R.
Hypothesis ORTH : orthogonal d O.
Variable nl : R -> R.
Variable init : string -> (nat -> nat -> R) * (nat -> R).
Variable e : nat.
Variable W : option R.
Variable ow : R.
Notation rot := (rotate d O).
Notation rots := (rotate_first d O).
Notation turnl := (turns d O).

Lemma rows_columns w : rows d O (columns d O w) = columns d O (rows d O w).
Proof.
  unfold rows, columns, tr. cbn [m0 m1 v2]. f_equal. ext.
  rewrite (rsum_ext d _ (fun j => rsum d (fun i => v2 w j i * O i x0 * O j x))) by (intros; symmetry; apply rsum_scal_r).
  rewrite rsum_swap. apply rsum_ext. intros i _. rewrite <- rsum_scal_r. apply rsum_ext. intros; ring.
Qed.
Lemma divide_m0 t w : m0 (divide_by_if_not_none t w) = m0 t.
Proof. destruct w; reflexivity. Qed.
Lemma divide_m1 t w : m1 (divide_by_if_not_none t w) = m1 t.
Proof. destruct w; reflexivity. Qed.

(** [f]: what is turned; [ks]: the layers acting on [q1]. *)
Definition parameters_turn (f : string -> bool * bool) (ks : list string) (m m' : result pars) : Prop :=
  m' = lift m (turnl f) /\ forall th, m = Ok th -> all_fit d f th /\ Forall (fun k => wide d k th) ks.

Ltac items G H := rewrite ?(item_first d O _ _ H), ?(item_other d O "p_q1" "p_q2" _ H), ?(item_other d O "p_q1" "p_q3" _ H),
  ?(item_first d O _ _ G), ?(item_other d O "q1" "q2" _ G), ?(item_other d O "q1" "q3" _ G)
  by (intros X; discriminate X).
Ltac now_raise := split; [reflexivity|intros ? X0; discriminate X0].
Ltac get k s := destruct (sd_item k s) eqn:?; cbn [bind]; [|now_raise].
Tactic Notation "product" ident(E) := match goal with |- parameters_turn _ _ (bind ?m _) _ => destruct m eqn:E; cbn [bind]; [|now_raise] end.
Ltac layers_now := unfold store_weight, store_bias, updown_objects, universal_objects, symmetrized_objects, periodic_objects;
  cbn -[divide_by_if_not_none mean0 tr rows columns parameters_turn];
  rewrite ?mean_rot1, ?mean_rot, ?tr_rows, ?tr_columns, ?divide_columns, ?divide_rows.
Ltac forall_list := repeat match goal with |- Forall _ (_ :: _) => apply Forall_cons | |- Forall _ [] => apply Forall_nil end.
Ltac shapes := let X := fresh in intros ? X; injection X as <-; split;
  [unfold all_fit; forall_list; intros X; cbn [fst snd] in *; try discriminate X; clear X; cbn [lin_weight lin_bias with_weight with_bias snn_linear];
     try split; rewrite ?divide_m0, ?divide_m1; cbn [m0 m1 tr mean0 sum0 map2]; try exact I
  |forall_list; intros ? X; injection X as <-; cbn [lin_weight with_weight with_bias]; rewrite ?divide_m1; cbn [m0 m1 tr mean0 sum0 map2]];
  try congruence.

Lemma updown_parameters_rot s c : good d "q1" s -> good d "p_q1" c ->
  parameters_turn updown_turn ["l2"] (updown_parameters nl init d e W s c) (updown_parameters nl init d e W (rots s) (rots c)).
Proof.
  intros G H. unfold updown_parameters. items G H. get "q1" s. get "p_q1" c. get "q2" s. get "p_q2" c.
  pose proof (item_features _ _ _ _ G Heqr) as N1. pose proof (item_features _ _ _ _ H Heqr0) as N2.
  rewrite !matmul33_last. product E1. product E2. apply matmul33_shape in E1 as [_ E1]. apply matmul33_shape in E2 as [_ E2].
  layers_now. split; [reflexivity|]. shapes.
Qed.

Lemma universal_parameters_rot s c : good d "q1" s -> good d "p_q1" c ->
  parameters_turn updown_turn ["l2"] (universal_parameters nl init d e W ow s c) (universal_parameters nl init d e W ow (rots s) (rots c)).
Proof.
  intros G H. unfold universal_parameters. items G H. get "q1" s. get "p_q1" c. get "q2" s. get "p_q2" c.
  pose proof (item_features _ _ _ _ G Heqr) as N1. pose proof (item_features _ _ _ _ H Heqr0) as N2.
  rewrite !matmul33_last. product E1. product E2. product E3. apply matmul33_shape in E1 as [_ E1]. apply matmul33_shape in E2 as [_ E2].
  layers_now. split; [reflexivity|]. shapes.
Qed.

Lemma symmetrized_parameters_rot s c : good d "q1" s -> good d "p_q1" c ->
  parameters_turn symmetrized_turn ["l3"] (symmetrized_parameters nl init d e W s c) (symmetrized_parameters nl init d e W (rots s) (rots c)).
Proof.
  intros G H. unfold symmetrized_parameters. items G H. get "q1" s. get "p_q1" c. get "q2" s. get "q3" s. get "p_q3" c. get "p_q2" c.
  pose proof (item_features _ _ _ _ G Heqr) as N1. pose proof (item_features _ _ _ _ H Heqr0) as N2.
  rewrite !matmul33_last, !matmul33_first. product E1. product E2. product E3.
  apply matmul33_shape in E1 as [_ E1]. apply matmul33_shape in E3 as [E3 _]. cbn [n1 transpose12] in E3.
  layers_now. split; [reflexivity|]. shapes.
Qed.

Lemma periodic_parameters_rot s c : good d "q1" s -> good d "p_q1" c ->
  parameters_turn periodic_turn ["l2"; "l3"] (periodic_parameters nl init d e W s c) (periodic_parameters nl init d e W (rots s) (rots c)).
Proof.
  intros G H. unfold periodic_parameters. items G H. get "q1" s. get "p_q1" c. get "q2" s. get "p_q2" c.
  pose proof (item_features _ _ _ _ G Heqr) as N1. pose proof (item_features _ _ _ _ H Heqr0) as N2.
  rewrite !matmul33_first, !matmul33_last. product E1. product E2. product E3.
  apply matmul33_shape in E1 as [_ E1]. apply matmul33_shape in E2 as [_ E2]. apply matmul33_shape in E3 as [E3 E3']. cbn [n1 transpose12] in E3.
  layers_now. split; [rewrite <- rows_columns; reflexivity|]. shapes.
Qed.
End Parameters.

(** ** Whole runs *)
Section Runs.
Variable d : nat.
Variable O : nat -> nat -> R.
Hypothesis ORTH : orthogonal d O.
Variable nl dnl : R -> R.
Variable init : string -> (nat -> nat -> R) * (nat -> R).
Variable e : nat.
Variable W : option R.
Variable ow : R.
Notation rots := (rotate_first d O).

(** The models which apply the activation to the other variables only. *)
Definition free_equations : list equations :=
  [mkEquations (updown_rhs nl) (updown_costate dnl) (updown_parameters nl init d e W);
   mkEquations (universal_rhs nl) (universal_costate dnl) (universal_parameters nl init d e W ow);
   mkEquations (dampened_q2_rhs nl) (updown_costate dnl) (updown_parameters nl init d e W);
   mkEquations (symmetrized_rhs nl) (symmetrized_costate dnl) (symmetrized_parameters nl init d e W);
   mkEquations (periodic_rhs nl) (periodic_costate dnl) (periodic_parameters nl init d e W)].

Definition good_system (y : system) : Prop := let '(s, c, z) := y in good d "q1" s /\ good d "p_q1" c /\ good d "q1" z.

(** What the equations of a model have to satisfy at a system. *)
Definition turning (m : equations) (s c : states) : Prop :=
  exists f ks, parameters_turn d O f ks (eq_parameters m s c) (eq_parameters m (rots s) (rots c)) /\
    (forall s th, good d "q1" s -> all_fit d f th -> covariant d O "q1" (eq_rhs m s th) (eq_rhs m (rots s) (turns d O f th))) /\
    (forall th, all_fit d f th -> Forall (fun k => wide d k th) ks ->
       covariant d O "p_q1" (eq_costate m s c th) (eq_costate m (rots s) (rots c) (turns d O f th))).
Definition turning_equations (E : system -> Prop) (m : equations) : Prop :=
  forall s c z, good d "q1" s -> good d "p_q1" c -> E (s, c, z) -> turning m s c.

Lemma free_turning m : In m free_equations -> turning_equations (fun _ => True) m.
Proof.
  intros I s c z Gs Gc _.
  cbn [free_equations] in I. repeat (destruct I as [I|I]; [rewrite <- I; cbn [eq_parameters eq_rhs eq_costate]|]); [..|contradiction].
    - exists updown_turn, ["l2"]. split; [apply updown_parameters_rot; assumption|]. split; [intros; apply updown_rhs_rot; assumption|].
      intros th F Wd. apply updown_costate_rot; try assumption. exact (Forall_inv Wd).
    - exists updown_turn, ["l2"]. split; [apply universal_parameters_rot; assumption|]. split; [intros; apply universal_rhs_rot; assumption|].
      intros th F Wd. apply universal_costate_rot; try assumption. exact (Forall_inv Wd).
    - exists updown_turn, ["l2"]. split; [apply updown_parameters_rot; assumption|]. split; [intros; apply dampened_q2_rhs_rot; assumption|].
      intros th F Wd. apply updown_costate_rot; try assumption. exact (Forall_inv Wd).
    - exists symmetrized_turn, ["l3"]. split; [apply symmetrized_parameters_rot; assumption|]. split; [intros; apply symmetrized_rhs_rot; assumption|].
      intros th F Wd. apply symmetrized_costate_rot; try assumption. exact (Forall_inv Wd).
    - exists periodic_turn, ["l2"; "l3"]. split; [apply periodic_parameters_rot; assumption|]. split; [intros; apply periodic_rhs_rot; assumption|].
      intros th F Wd. apply periodic_costate_rot; try assumption; [exact (Forall_inv Wd)|exact (Forall_inv (Forall_inv_tail Wd))].
Qed.

End Runs.

Section Lifted.
Variable d : nat.
Variable O : nat -> nat -> R.
Notation rots := (rotate_first d O).
(** A further property of the systems which the equations and the steps keep. *)
Variable E : system -> Prop.
Notation turning_equations := (turning_equations d O E).
Definition kept_system (y : system) : Prop := good_system d y /\ E y.
Definition keeps (m : equations) : Prop := forall y r, good_system d y -> E y -> system_rhs m y = Ok r -> E r.
Definition steps_keep : Prop :=
  (forall x y r, E x -> plus_system (Ok x) (Ok y) = Ok r -> E r) /\ (forall a x r, E x -> times_system a (Ok x) = Ok r -> E r).

Lemma system_rot m y : turning_equations m -> kept_system y ->
  system_rhs m (rotate_system d O y) = lift (system_rhs m y) (rotate_system d O) /\
  forall r, system_rhs m y = Ok r -> good_system d r.
Proof.
  intros P [G K]. destruct y as [[s c] z]. destruct G as (Gs & Gc & Gz). unfold system_rhs, rotate_system.
  specialize (P s c z Gs Gc K).
  destruct P as (f & ks & (P1 & P2) & R & C). rewrite P1.
  destruct (eq_parameters m s c) as [th|] eqn:EP; cbn [bind]; [|split; [reflexivity|intros ? X; discriminate X]].
  destruct (P2 th eq_refl) as (F & Wd). destruct (R s th Gs F) as (R1 & R2). destruct (R z th Gz F) as (R3 & R4).
  destruct (C th F Wd) as (C1 & C2). rewrite R1, R3, C1.
  destruct (eq_rhs m s th) as [ds|]; cbn [bind]; [|split; [reflexivity|intros ? X; discriminate X]].
  destruct (eq_rhs m z th) as [dz|]; cbn [bind]; [|split; [reflexivity|intros ? X; discriminate X]].
  destruct (eq_costate m s c th) as [dc|]; cbn [bind]; [|split; [reflexivity|intros ? X; discriminate X]].
  split; [reflexivity|]. intros r X. injection X as <-. split; [exact (R2 _ eq_refl)|]. split; [exact (C2 _ eq_refl)|exact (R4 _ eq_refl)].
Qed.

Lemma plus_rots s r : plus_states (rots s) (rots r) = lift (plus_states s r) rots.
Proof.
  destruct s as [|[k x] s], r as [|[k' y] r]; try reflexivity. cbn [rotate_first plus_states].
  unfold plus3 at 1 2. cbn [n0 n1 n2 rotate]. destruct (_ && _); [|reflexivity]. cbn [bind].
  destruct (plus_states s r); [|reflexivity]. cbn [bind rotate_first]. unfold rotate. cbn [n0 n1 n2 v3].
  do 4 f_equal. ext. rewrite <- rsum_plus. apply rsum_ext. intros; ring.
Qed.
Lemma plus_good key s r t : good d key s -> plus_states s r = Ok t -> good d key t.
Proof.
  intros (k & x & s' & -> & EX & K & NI). destruct r as [|[k' y] r]; [discriminate|]. cbn [plus_states]. intros H.
  apply bind_ok in H as (z & Z & H). apply bind_ok in H as (u & U & H). injection H as <-.
  exists k, z, u. split; [reflexivity|]. split; [|split; [exact K|]].
  - unfold plus3 in Z. destruct (_ && _); [|discriminate]. injection Z as <-. exact EX.
  - replace (map fst u) with (map fst s'); [exact NI|]. clear -U. revert r u U. induction s' as [|[a b] s' IH]; intros [|[a' b'] r] u U; try discriminate.
    + injection U as <-. reflexivity.
    + cbn [plus_states] in U. apply bind_ok in U as (z & Z & U). apply bind_ok in U as (v & V & U). injection U as <-.
      cbn. f_equal. exact (IH _ _ V).
Qed.
Lemma times_rots a s : times_states a (rots s) = rots (times_states a s).
Proof.
  destruct s as [|[k x] s]; [reflexivity|]. cbn. f_equal. f_equal. unfold map3, rotate. cbn [n0 n1 n2 v3]. f_equal. ext.
  rewrite <- rsum_scal. apply rsum_ext. intros; ring.
Qed.
Lemma times_good key a s : good d key s -> good d key (times_states a s).
Proof.
  intros (k & x & r & -> & EX & K & NI). exists k, (map3 (Rmult a) x), (times_states a r). split; [reflexivity|]. split; [exact EX|]. split; [exact K|].
  unfold times_states. rewrite map_map. exact NI.
Qed.

Definition rotated (y y' : result system) : Prop :=
  y' = lift y (rotate_system d O) /\ forall r, y = Ok r -> kept_system r.

Lemma run_rot m other adj name o y t ys : steps_keep -> keeps m -> turning_equations m -> with_features d y -> E y -> In name ["euler"; "midpoint"; "rk4"] ->
  fixed_odeint plus_system times_system (system_field m) other adj name o (Ok y) t = Ok (map Ok ys) ->
  fixed_odeint plus_system times_system (system_field m) other adj name o (Ok (rotate_system d O y)) t
  = Ok (map Ok (map (rotate_system d O) ys)).
Proof.
  intros [KP KT] KM I G EY NM H.
  destruct (fixed_odeint_rel plus_system times_system plus_system times_system rotated) with
    (f := system_field m) (f' := system_field m) (otherX := other) (otherY := other) (adj := adj) (name := name) (o := o)
    (x := Ok y : result system) (y := Ok (rotate_system d O y) : result system) (t := t) (xs := map Ok ys : list (result system)) as (zs & Z & F).
  - intros x x' u u' (A & A') (B & B'). rewrite A, B. clear A B. unfold rotated.
    match goal with |- _ = _ /\ (forall r, plus_system ?p ?q = Ok r -> _) => destruct p as [[[s c] z]|] eqn:?; [|split; [reflexivity|intros ? X; discriminate X]];
      destruct q as [[[s' c'] z']|] eqn:?; [|split; [reflexivity|intros ? X; discriminate X]] end.
    destruct (A' _ eq_refl) as ((G1 & G2 & G3) & EX). pose proof (fun r => KP _ (s', c', z') r EX) as KX.
    cbn [bind rotate_system plus_system] in *. rewrite !plus_rots.
    destruct (plus_states s s') eqn:E1; cbn [bind] in *; [|split; [reflexivity|intros ? X; discriminate X]].
    destruct (plus_states c c') eqn:E2; cbn [bind] in *; [|split; [reflexivity|intros ? X; discriminate X]].
    destruct (plus_states z z') eqn:E3; cbn [bind] in *; [|split; [reflexivity|intros ? X; discriminate X]].
    split; [reflexivity|]. intros r X. split; [|exact (KX r X)]. injection X as <-. split; [exact (plus_good _ _ _ _ G1 E1)|]. split; [exact (plus_good _ _ _ _ G2 E2)|exact (plus_good _ _ _ _ G3 E3)].
  - intros a x u (A & A'). rewrite A. unfold rotated. destruct x as [[[s c] z]|]; [|split; [reflexivity|intros ? X; discriminate X]].
    destruct (A' _ eq_refl) as ((G1 & G2 & G3) & EX). pose proof (fun r => KT a _ r EX) as KX.
    cbn [bind rotate_system times_system] in *. rewrite !times_rots. split; [reflexivity|].
    intros r X. split; [|exact (KX r X)]. injection X as <-. split; [exact (times_good _ _ _ G1)|]. split; [exact (times_good _ _ _ G2)|exact (times_good _ _ _ G3)].
  - intros s x u (A & A'). rewrite A. unfold rotated. destruct x as [x|]; [|split; [reflexivity|intros ? X; discriminate X]].
    cbn [bind system_field]. pose proof (A' _ eq_refl) as K. destruct (system_rot m x I K) as (S1 & S2). split; [exact S1|].
    intros r X. split; [exact (S2 r X)|exact (KM x r (proj1 K) (proj2 K) X)].
  - exact NM.
  - split; [reflexivity|]. intros r X. injection X as <-. split; [|exact EY]. destruct y as [[s c] z]. destruct G as (G1 & G2 & G3).
    assert (FG : forall key s, first_is d key s -> good d key s).
    { intros key s0 (x & r & E1 & E2 & E3). exists key, x, r. tauto. }
    split; [exact (FG _ _ G1)|]. split; [exact (FG _ _ G2)|exact (FG _ _ G3)].
  - exact H.
  - rewrite Z. f_equal. clear -F. revert zs F. induction ys as [|a ys IH]; intros zs F.
    + inversion F. reflexivity.
    + inversion F as [|? b ? zs' A F']. cbn [map]. rewrite (IH _ F'). f_equal. exact (proj1 A).
Qed.

Lemma derivatives_rot m y : turning_equations m -> with_features d y -> E y ->
  system_rhs m (rotate_system d O y) = lift (system_rhs m y) (rotate_system d O).
Proof.
  intros I G EY. apply system_rot; [exact I|]. split; [|exact EY]. destruct y as [[s c] z]. destruct G as (G1 & G2 & G3).
  assert (FG : forall key s, first_is d key s -> good d key s).
  { intros key s0 (x & r & E1 & E2 & E3). exists key, x, r. tauto. }
  split; [exact (FG _ _ G1)|]. split; [exact (FG _ _ G2)|exact (FG _ _ G3)].
Qed.
End Lifted.

Lemma nothing_kept : steps_keep (fun _ => True) /\ forall d m, keeps d (fun _ => True) m.
Proof. unfold steps_keep, keeps. tauto. Qed.

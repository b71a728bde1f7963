(** Proofs: orthogonal maps of the features, for five of the models and whole runs. *)
From Coq Require Import List String Bool Reals Arith Lia Lra QArith Qcanon Qreals FunctionalExtensionality.
From Verif Require Import Base BaseFacts RealSum IntegratorModel FixedGridModel VecModel ParticlesModel ParticlesProofs2
  ScalingProofs RotationSpec RotationProofs.
Import ListNotations.
Open Scope string_scope.
Open Scope list_scope.
Open Scope R_scope.

(** Which layers are turned, and how. *)
Definition updown_turn (k : string) : bool * bool :=
  if String.eqb k "l1" then (true, false) else if String.eqb k "l2" then (false, true) else (false, false).
Definition symmetrized_turn (k : string) : bool * bool :=
  if String.eqb k "l1" then (true, false) else if String.eqb k "l3" then (false, true) else (false, false).
Definition periodic_turn (k : string) : bool * bool :=
  if String.eqb k "l1" then (true, false) else if String.eqb k "l2" then (false, true)
  else if String.eqb k "l3" then (true, true) else (false, false).

Section Models.
Variable d : nat.
Variable O : nat -> nat -> R.
Hypothesis ORTH : orthogonal d O.
Variable nl dnl : R -> R.
Notation rot := (rotate d O).
Notation rots := (rotate_first d O).
Notation fit := (all_fit d).
Notation turnl := (turns d O).

Definition covariant (key : string) (m m' : result states) : Prop :=
  m' = lift m rots /\ forall r, m = Ok r -> good d key r.

Ltac others G := rewrite ?item_turns, ?(item_first d O _ _ G), ?(item_other d O "q1" "q2" _ G), ?(item_other d O "q1" "q3" _ G)
  by (intros X; discriminate X).
Ltac now_raise := split; [reflexivity|intros ? X0; discriminate X0].
Ltac get k th := destruct (sd_item k th) eqn:?; cbn [bind]; [|now_raise].
Ltac layer k := match goal with |- context [turn _ _ (?f k) _] => let v := eval cbv in (f k) in change (f k) with v end.
Ltac finish := split; [reflexivity|]; let X0 := fresh in intros ? X0; injection X0 as <-;
  eexists _, _, _; split; [reflexivity|]; split; [|split; [right; reflexivity|cbn; intuition discriminate]].

Lemma forward_n2 f k th a x y : fit f th -> sd_item k th = Ok a -> fst (f k) = true -> forward a x = Ok y -> n2 y = d.
Proof. intros F I T H. pose proof (item_fits _ _ _ _ _ F I T) as [A _]. rewrite <- A. exact (f_linear_shape _ _ _ _ H). Qed.

Lemma updown_rhs_rot s th : good d "q1" s -> fit updown_turn th ->
  covariant "q1" (updown_rhs nl s th) (updown_rhs nl (rots s) (turnl updown_turn th)).
Proof.
  intros G F. unfold updown_rhs. others G. get "l1" th. get "q2" s. layer "l1".
  rewrite forward_rows by exact (item_fits _ _ _ _ _ F Heqr). destruct (forward a _) eqn:E1; cbn [bind]; [|now_raise].
  get "l2" th. get "q1" s. layer "l2". rewrite forward_columns by (try assumption; eapply item_features; eassumption).
  destruct (forward _ a3); cbn [bind]; [|now_raise]. finish. exact (forward_n2 _ _ _ _ _ _ F Heqr eq_refl E1).
Qed.

Lemma dampened_q2_rhs_rot s th : good d "q1" s -> fit updown_turn th ->
  covariant "q1" (dampened_q2_rhs nl s th) (dampened_q2_rhs nl (rots s) (turnl updown_turn th)).
Proof.
  intros G F. unfold dampened_q2_rhs. others G. get "l1" th. get "q2" s. layer "l1".
  rewrite forward_rows by exact (item_fits _ _ _ _ _ F Heqr). destruct (forward a _) eqn:E1; cbn [bind]; [|now_raise].
  get "l2" th. get "q1" s. layer "l2". rewrite forward_columns by (try assumption; eapply item_features; eassumption).
  destruct (forward _ a3); cbn [bind]; [|now_raise]. destruct (zip3 _ _ _); cbn [bind]; [|now_raise].
  finish. exact (forward_n2 _ _ _ _ _ _ F Heqr eq_refl E1).
Qed.

Lemma universal_rhs_rot s th : good d "q1" s -> fit updown_turn th ->
  covariant "q1" (universal_rhs nl s th) (universal_rhs nl (rots s) (turnl updown_turn th)).
Proof.
  intros G F. unfold universal_rhs. others G. get "l1" th. get "q2" s. layer "l1".
  rewrite forward_rows by exact (item_fits _ _ _ _ _ F Heqr). destruct (forward a _) eqn:E1; cbn [bind]; [|now_raise].
  get "l2" th. get "q1" s. layer "l2". rewrite forward_columns by (try assumption; eapply item_features; eassumption).
  destruct (forward _ a3); cbn [bind]; [|now_raise]. get "l3" th. layer "l3". rewrite forward_neither.
  destruct (forward a5 _); cbn [bind]; [|now_raise]. destruct (zip3 _ _ _); cbn [bind]; [|now_raise].
  finish. exact (forward_n2 _ _ _ _ _ _ F Heqr eq_refl E1).
Qed.

Lemma symmetrized_rhs_rot s th : good d "q1" s -> fit symmetrized_turn th ->
  covariant "q1" (symmetrized_rhs nl s th) (symmetrized_rhs nl (rots s) (turnl symmetrized_turn th)).
Proof.
  intros G F. unfold symmetrized_rhs. others G. get "l1" th. get "q2" s. layer "l1".
  rewrite forward_rows by exact (item_fits _ _ _ _ _ F Heqr). destruct (forward a _) eqn:E1; cbn [bind]; [|now_raise].
  get "l2" th. get "q3" s. layer "l2". rewrite forward_neither.
  destruct (forward _ (map3 nl a3)); cbn [bind]; [|now_raise]. get "l3" th. get "q1" s. layer "l3".
  rewrite forward_columns by (try assumption; eapply item_features; eassumption).
  destruct (forward _ a6); cbn [bind]; [|now_raise].
  finish. exact (forward_n2 _ _ _ _ _ _ F Heqr eq_refl E1).
Qed.

Lemma periodic_rhs_rot s th : good d "q1" s -> fit periodic_turn th ->
  covariant "q1" (periodic_rhs nl s th) (periodic_rhs nl (rots s) (turnl periodic_turn th)).
Proof.
  intros G F. unfold periodic_rhs. others G. get "l1" th. get "q2" s. layer "l1".
  rewrite forward_rows by exact (item_fits _ _ _ _ _ F Heqr). destruct (forward a _) eqn:E1; cbn [bind]; [|now_raise].
  get "l3" th. get "q1" s. layer "l3". assert (n2 a3 = d) as N3 by (eapply item_features; eassumption).
  rewrite forward_both by (try assumption; exact (item_fits _ _ _ _ _ F Heqr1)).
  destruct (forward a2 a3) eqn:E2; cbn [bind]; [|now_raise].
  assert (n2 a1 = d) as N1 by exact (forward_n2 _ _ _ _ _ _ F Heqr eq_refl E1).
  assert (n2 a4 = d) as N4 by exact (forward_n2 _ _ _ _ _ _ F Heqr1 eq_refl E2).
  rewrite plus_rot by congruence. destruct (zip3 Rplus a1 a4) eqn:E3; cbn [bind]; [|now_raise].
  get "l2" th. layer "l2". rewrite forward_columns by assumption.
  destruct (forward a6 a3); cbn [bind]; [|now_raise]. finish.
  unfold zip3 in E3. destruct (bdim _ _); [|discriminate]. cbn [bind] in E3. destruct (bdim _ _); [|discriminate]. cbn [bind] in E3.
  rewrite N1, N4 in E3. unfold bdim in E3. rewrite Nat.eqb_refl in E3. cbn [bind] in E3. injection E3 as <-. reflexivity.
Qed.

(** ** Costates *)
Ltac cothers G H := rewrite ?item_turns, ?(item_first d O _ _ H), ?(item_other d O "p_q1" "p_q2" _ H), ?(item_other d O "p_q1" "p_q3" _ H),
  ?(item_first d O _ _ G), ?(item_other d O "q1" "q2" _ G), ?(item_other d O "q1" "q3" _ G)
  by (intros X; discriminate X).
Ltac weights := layer "l1"; layer "l2"; try layer "l3"; cbn [turn fst snd lin_weight].

Lemma matmul32_n2 x w y : matmul32 x w = Ok y -> n2 y = m1 w.
Proof. unfold matmul32. destruct (Nat.eqb _ _); [|discriminate]. intros H. injection H as <-. reflexivity. Qed.

(** The number of columns of the layers which act on [q1]. *)
Definition wide (k : string) (th : pars) : Prop := forall a, sd_item k th = Ok a -> m1 (lin_weight a) = d.

Lemma updown_costate_rot s c th : good d "q1" s -> good d "p_q1" c -> fit updown_turn th -> wide "l2" th ->
  covariant "p_q1" (updown_costate dnl s c th) (updown_costate dnl (rots s) (rots c) (turnl updown_turn th)).
Proof.
  intros G H F Wd. unfold updown_costate. cothers G H. get "l1" th. get "l2" th. get "q2" s. get "p_q1" c. get "p_q2" c.
  assert (n2 a2 = d) as N by (eapply item_features; eassumption). weights. rewrite matmul32_rows by assumption.
  destruct (matmul32 a2 _); cbn [bind]; [|now_raise]. destruct (zip3 _ _ _); cbn [bind]; [|now_raise].
  rewrite matmul32_columns. destruct (matmul32 a3 _) eqn:E; cbn [bind]; [|now_raise]. rewrite opp_rot. finish.
  cbn [n2 map3]. rewrite (matmul32_n2 _ _ _ E). apply Wd. assumption.
Qed.

Lemma universal_costate_rot s c th : good d "q1" s -> good d "p_q1" c -> fit updown_turn th -> wide "l2" th ->
  covariant "p_q1" (universal_costate dnl s c th) (universal_costate dnl (rots s) (rots c) (turnl updown_turn th)).
Proof.
  intros G H F Wd. unfold universal_costate. cothers G H. get "l1" th. get "l2" th. get "l3" th. get "q2" s. get "p_q1" c. get "p_q2" c.
  assert (n2 a3 = d) as N by (eapply item_features; eassumption). weights. rewrite matmul32_rows by assumption.
  destruct (matmul32 a3 _); cbn [bind]; [|now_raise].
  destruct (matmul32 a4 _); cbn [bind]; [|now_raise]. destruct (zip3 _ _ _); cbn [bind]; [|now_raise].
  destruct (zip3 _ _ _); cbn [bind]; [|now_raise].
  rewrite matmul32_columns. destruct (matmul32 a4 _) eqn:E; cbn [bind]; [|now_raise]. rewrite opp_rot. finish.
  cbn [n2 map3]. rewrite (matmul32_n2 _ _ _ E). apply Wd. assumption.
Qed.

Lemma symmetrized_costate_rot s c th : good d "q1" s -> good d "p_q1" c -> fit symmetrized_turn th -> wide "l3" th ->
  covariant "p_q1" (symmetrized_costate dnl s c th) (symmetrized_costate dnl (rots s) (rots c) (turnl symmetrized_turn th)).
Proof.
  intros G H F Wd. unfold symmetrized_costate. cothers G H. get "l1" th. get "l2" th. get "l3" th. get "q2" s. get "q1" s. get "q3" s.
  get "p_q1" c. get "p_q2" c. get "p_q3" c.
  assert (n2 a5 = d) as N by (eapply item_features; eassumption). weights. rewrite matmul32_rows by assumption.
  destruct (matmul32 a5 _); cbn [bind]; [|now_raise]. destruct (zip3 _ _ _); cbn [bind]; [|now_raise].
  destruct (matmul32 a6 _); cbn [bind]; [|now_raise]. destruct (zip3 _ _ _); cbn [bind]; [|now_raise].
  rewrite matmul32_columns. destruct (matmul32 a7 _) eqn:E; cbn [bind]; [|now_raise]. rewrite opp_rot. finish.
  cbn [n2 map3]. rewrite (matmul32_n2 _ _ _ E). apply Wd. assumption.
Qed.

Lemma periodic_costate_rot s c th : good d "q1" s -> good d "p_q1" c -> fit periodic_turn th -> wide "l2" th -> wide "l3" th ->
  covariant "p_q1" (periodic_costate dnl s c th) (periodic_costate dnl (rots s) (rots c) (turnl periodic_turn th)).
Proof.
  intros G H F W2 W3. unfold periodic_costate. cothers G H. get "l1" th. get "l2" th. get "l3" th. get "q2" s. get "p_q1" c. get "p_q2" c.
  assert (n2 a3 = d) as N by (eapply item_features; eassumption). weights.
  rewrite (matmul32_rows d O ORTH a3 (columns d O (lin_weight a1)) N), matmul32_columns.
  destruct (matmul32 a3 (lin_weight a1)) eqn:E1; cbn [bind]; [|now_raise]. rewrite matmul32_rows by assumption.
  destruct (matmul32 a3 (lin_weight a)); cbn [bind]; [|now_raise]. destruct (zip3 _ _ _); cbn [bind]; [|now_raise].
  rewrite matmul32_columns. destruct (matmul32 a4 _) eqn:E; cbn [bind]; [|now_raise]. rewrite !opp_rot.
  apply matmul32_n2 in E. apply matmul32_n2 in E1. rewrite (W2 _ Heqr0) in E. rewrite (W3 _ Heqr1) in E1.
  rewrite plus_rot by (cbn; congruence). destruct (zip3 Rplus _ _) eqn:E3; cbn [bind]; [|now_raise]. finish.
  unfold zip3 in E3. cbn [n0 n1 n2 map3] in E3. destruct (bdim _ _); [|discriminate]. cbn [bind] in E3. destruct (bdim _ _); [|discriminate]. cbn [bind] in E3.
  rewrite E, E1 in E3. unfold bdim in E3. rewrite Nat.eqb_refl in E3. cbn [bind] in E3. injection E3 as <-. reflexivity.
Qed.
End Models.

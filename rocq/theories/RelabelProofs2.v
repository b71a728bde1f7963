(** Proofs: another order of the features, for the models which apply the activation to the first variable. *)
From Coq Require Import List String Bool Reals Arith Lia Lra QArith Qcanon Qreals FunctionalExtensionality.
From Verif Require Import Base BaseFacts RealSum IntegratorModel FixedGridModel VecModel ParticlesModel ParticlesProofs2
  ScalingProofs RotationSpec RotationProofs RotationProofs2 RotationProofs3 RotationProofs4 RelabelSpec RelabelProofs.
Import ListNotations.
Open Scope string_scope.
Open Scope list_scope.
Open Scope R_scope.

(** Which layers are turned, and how. *)
Definition general_turn (k : string) : bool * bool :=
  if String.eqb k "l11" then (true, false) else if String.eqb k "l12" then (true, true) else if String.eqb k "l13" then (true, true)
  else if String.eqb k "l14" then (true, false) else if String.eqb k "l21" then (false, true) else if String.eqb k "l24" then (false, true)
  else (false, false).
Definition simple_turn (k : string) : bool * bool := if String.eqb k "l1" then (true, true) else (false, false).

Section Models.
Variable d : nat.
Variable p : nat -> nat.
Hypothesis PERM : permutes d p.
Variable nl dnl : R -> R.
Notation O := (order_matrix p).
Notation ORTH := (order_orthogonal d p PERM).
Notation rot := (rotate d O).
Notation rots := (rotate_first d O).
Notation fit := (all_fit d).
Notation turnl := (turns d O).

Ltac items G := rewrite ?item_turns, ?(item_first d O _ _ G), ?(item_other d O "q1" "q2" _ G) by (intros X; discriminate X).
Ltac now_raise := split; [reflexivity|intros ? X0; discriminate X0].
Ltac get k th := destruct (sd_item k th) eqn:?; cbn [bind]; [|now_raise].
Ltac layer k := match goal with |- context [turn _ _ (?f k) _] => let v := eval cbv in (f k) in change (f k) with v end.
Ltac finish := split; [reflexivity|]; let X0 := fresh in intros ? X0; injection X0 as <-;
  eexists _, _, _; split; [reflexivity|]; split; [|split; [right; reflexivity|cbn; intuition discriminate]].
Ltac step E := match goal with |- covariant _ _ _ (bind ?m _) _ => destruct m eqn:E; cbn [bind]; [|now_raise] end.
Tactic Notation "step" ident(E) := step E.

Lemma general_rhs_rot s th : good d "q1" s -> fit general_turn th ->
  covariant d O "q1" (general_rhs nl s th) (general_rhs nl (rots s) (turnl general_turn th)).
Proof.
  intros G F. unfold general_rhs. items G.
  destruct (sd_item "q1" s) as [q1|] eqn:EQ1; cbn [bind]; [|now_raise].
  destruct (sd_item "q2" s) as [q2|] eqn:EQ2; cbn [bind]; [|now_raise].
  pose proof (item_features _ _ _ _ G EQ1) as N1.
  destruct (sd_item "l11" th) as [l11|] eqn:L11; cbn [bind]; [|now_raise]. layer "l11".
  rewrite forward_rows by exact (item_fits _ _ _ _ _ F L11). step E1.
  destruct (sd_item "l12" th) as [l12|] eqn:L12; cbn [bind]; [|now_raise]. layer "l12".
  rewrite (forward_both d O ORTH) by (try assumption; exact (item_fits _ _ _ _ _ F L12)). step E2.
  pose proof (forward_n2 _ _ _ _ _ _ _ F L11 eq_refl E1) as A1. pose proof (forward_n2 _ _ _ _ _ _ _ F L12 eq_refl E2) as A2.
  rewrite (zip_any d p PERM) by congruence. step E3. pose proof (zip_n2 _ _ _ _ _ E3 A1 A2) as A3.
  destruct (sd_item "l13" th) as [l13|] eqn:L13; cbn [bind]; [|now_raise]. layer "l13".
  rewrite (map_rot d p PERM). rewrite (forward_both d O ORTH) by (try assumption; exact (item_fits _ _ _ _ _ F L13)). step E4.
  pose proof (forward_n2 _ _ _ _ _ _ _ F L13 eq_refl E4) as A4.
  rewrite (zip_any d p PERM) by congruence. step E5. pose proof (zip_n2 _ _ _ _ _ E5 A3 A4) as A5.
  destruct (sd_item "l14" th) as [l14|] eqn:L14; cbn [bind]; [|now_raise]. layer "l14".
  rewrite forward_rows by exact (item_fits _ _ _ _ _ F L14). step E6. pose proof (forward_n2 _ _ _ _ _ _ _ F L14 eq_refl E6) as A6.
  rewrite (zip_any d p PERM) by congruence. step E7. pose proof (zip_n2 _ _ _ _ _ E7 A5 A6) as A7.
  destruct (sd_item "l21" th) as [l21|] eqn:L21; cbn [bind]; [|now_raise]. layer "l21".
  rewrite (forward_columns d O ORTH) by assumption. step E8.
  destruct (sd_item "l22" th) as [l22|] eqn:L22; cbn [bind]; [|now_raise]. layer "l22". rewrite forward_neither. step E9. step E10.
  destruct (sd_item "l23" th) as [l23|] eqn:L23; cbn [bind]; [|now_raise]. layer "l23". rewrite forward_neither. step E11. step E12.
  destruct (sd_item "l24" th) as [l24|] eqn:L24; cbn [bind]; [|now_raise]. layer "l24".
  rewrite (forward_columns d O ORTH) by assumption. step E13. step E14. step E15. finish. exact A7.
Qed.

Lemma simple_rhs_rot s th : good d "q1" s -> fit simple_turn th ->
  covariant d O "q1" (simple_rhs nl s th) (simple_rhs nl (rots s) (turnl simple_turn th)).
Proof.
  intros G F. unfold simple_rhs. items G.
  destruct (sd_item "l1" th) as [l1|] eqn:L1; cbn [bind]; [|now_raise]. layer "l1".
  destruct (sd_item "q1" s) as [q1|] eqn:EQ1; cbn [bind]; [|now_raise]. pose proof (item_features _ _ _ _ G EQ1) as N1.
  rewrite (map_rot d p PERM). rewrite (forward_both d O ORTH) by (try assumption; exact (item_fits _ _ _ _ _ F L1)). step E1.
  finish. exact (forward_n2 _ _ _ _ _ _ _ F L1 eq_refl E1).
Qed.

Lemma debug_rhs_rot s th : good d "q1" s -> fit simple_turn th ->
  covariant d O "q1" (debug_rhs nl s th) (debug_rhs nl (rots s) (turnl simple_turn th)).
Proof.
  intros G F. unfold debug_rhs. items G.
  destruct (sd_item "l1" th) as [l1|] eqn:L1; cbn [bind]; [|now_raise]. layer "l1".
  destruct (sd_item "q1" s) as [q1|] eqn:EQ1; cbn [bind]; [|now_raise]. pose proof (item_features _ _ _ _ G EQ1) as N1.
  rewrite (map_rot d p PERM). rewrite (forward_both d O ORTH) by (try assumption; exact (item_fits _ _ _ _ _ F L1)). step E1.
  destruct (sd_item "l2" th) as [l2|] eqn:L2; cbn [bind]; [|now_raise]. layer "l2".
  destruct (sd_item "q2" s) as [q2|] eqn:EQ2; cbn [bind]; [|now_raise]. rewrite forward_neither. step E2.
  finish. exact (forward_n2 _ _ _ _ _ _ _ F L1 eq_refl E1).
Qed.

(** ** Costates *)
Ltac citems G H := rewrite ?item_turns, ?(item_first d O _ _ H), ?(item_other d O "p_q1" "p_q2" _ H),
  ?(item_first d O _ _ G), ?(item_other d O "q1" "q2" _ G) by (intros X; discriminate X).

Lemma matmul32_both x w : n2 x = d -> matmul32 (rot x) (rows d O (columns d O w)) = lift (matmul32 x w) rot.
Proof. intros E. rewrite (matmul32_rows d O ORTH) by exact E. apply matmul32_columns. Qed.

Lemma general_costate_rot s c th : good d "q1" s -> good d "p_q1" c -> fit general_turn th ->
  wide d "l12" th -> wide d "l13" th -> wide d "l21" th -> wide d "l24" th ->
  covariant d O "p_q1" (general_costate dnl s c th) (general_costate dnl (rots s) (rots c) (turnl general_turn th)).
Proof.
  intros G H F W12 W13 W21 W24. unfold general_costate. citems G H.
  destruct (sd_item "l11" th) as [l11|] eqn:L11; cbn [bind]; [|now_raise].
  destruct (sd_item "l12" th) as [l12|] eqn:L12; cbn [bind]; [|now_raise].
  destruct (sd_item "l13" th) as [l13|] eqn:L13; cbn [bind]; [|now_raise].
  destruct (sd_item "l14" th) as [l14|] eqn:L14; cbn [bind]; [|now_raise].
  destruct (sd_item "l21" th) as [l21|] eqn:L21; cbn [bind]; [|now_raise].
  destruct (sd_item "l22" th) as [l22|] eqn:L22; cbn [bind]; [|now_raise].
  destruct (sd_item "l23" th) as [l23|] eqn:L23; cbn [bind]; [|now_raise].
  destruct (sd_item "l24" th) as [l24|] eqn:L24; cbn [bind]; [|now_raise].
  destruct (sd_item "q2" s) as [q2|] eqn:EQ2; cbn [bind]; [|now_raise].
  destruct (sd_item "q1" s) as [q1|] eqn:EQ1; cbn [bind]; [|now_raise]. pose proof (item_features _ _ _ _ G EQ1) as N1.
  destruct (sd_item "p_q1" c) as [p1|] eqn:EP1; cbn [bind]; [|now_raise]. pose proof (item_features _ _ _ _ H EP1) as M1.
  destruct (sd_item "p_q2" c) as [p2|] eqn:EP2; cbn [bind]; [|now_raise].
  layer "l11"; layer "l12"; layer "l13"; layer "l14"; layer "l21"; layer "l22"; layer "l23"; layer "l24".
  cbn [turn fst snd lin_weight].
  rewrite (matmul32_rows d O ORTH p1 (lin_weight l11)) by assumption. step E1. step E2. step E3. step E4.
  rewrite (matmul32_rows d O ORTH p1 (lin_weight l14)) by assumption. step E5. step E6. step E7.
  rewrite (matmul32_columns d O p2 (lin_weight l21)). step E8. rewrite matmul32_both by assumption. step E9.
  apply matmul32_n2 in E8 as A8. rewrite (W21 _ L21) in A8. apply matmul32_n2 in E9 as A9. rewrite (W12 _ L12) in A9.
  rewrite opp_rot, (zip_any d p PERM) by (cbn; congruence). step E10.
  assert (A10 := zip_n2 _ _ _ _ _ E10 A8 A9).
  rewrite matmul32_both by assumption. step E11. rewrite (matmul32_columns d O p2 (lin_weight l24)). step E12.
  apply matmul32_n2 in E11 as A11. rewrite (W13 _ L13) in A11. apply matmul32_n2 in E12 as A12. rewrite (W24 _ L24) in A12.
  rewrite (zip_any d p PERM) by congruence. step E13. assert (A13 := zip_n2 _ _ _ _ _ E13 A11 A12).
  rewrite !(map_rot d p PERM), (zip_any d p PERM) by (cbn; congruence). step E14. assert (A14 := zip_n2 _ _ _ _ _ E14 N1 A13).
  rewrite (zip_any d p PERM) by congruence. step E15. assert (A15 := zip_n2 _ _ _ _ _ E15 A10 A14). step E16. finish. exact A15.
Qed.

Lemma simple_costate_rot N s c th : good d "q1" s -> good d "p_q1" c -> fit simple_turn th -> wide d "l1" th ->
  covariant d O "p_q1" (simple_costate nl dnl N s c th) (simple_costate nl dnl N (rots s) (rots c) (turnl simple_turn th)).
Proof.
  intros G H F W1. unfold simple_costate. citems G H.
  destruct (sd_item "l1" th) as [l1|] eqn:L1; cbn [bind]; [|now_raise]. layer "l1".
  destruct (sd_item "q1" s) as [q1|] eqn:EQ1; cbn [bind]; [|now_raise]. pose proof (item_features _ _ _ _ G EQ1) as N1.
  destruct (sd_item "p_q1" c) as [p1|] eqn:EP1; cbn [bind]; [|now_raise]. pose proof (item_features _ _ _ _ H EP1) as M1.
  rewrite (unused_rot d p PERM nl q1 l1 N1 (item_fits _ _ _ _ _ F L1)). step E1. cbn [turn fst snd lin_weight].
  destruct (costate_loop_rot d p PERM dnl N q1 p1 (lin_weight l1) N1 M1 (W1 _ L1)) as (C1 & C2). rewrite C1. step E2. finish.
  exact (C2 _ eq_refl).
Qed.

Lemma debug_costate_rot N s c th : good d "q1" s -> good d "p_q1" c -> fit simple_turn th -> wide d "l1" th ->
  covariant d O "p_q1" (debug_costate nl dnl N s c th) (debug_costate nl dnl N (rots s) (rots c) (turnl simple_turn th)).
Proof.
  intros G H F W1. unfold debug_costate. citems G H.
  destruct (sd_item "l1" th) as [l1|] eqn:L1; cbn [bind]; [|now_raise]. layer "l1".
  destruct (sd_item "q1" s) as [q1|] eqn:EQ1; cbn [bind]; [|now_raise]. pose proof (item_features _ _ _ _ G EQ1) as N1.
  destruct (sd_item "p_q1" c) as [p1|] eqn:EP1; cbn [bind]; [|now_raise]. pose proof (item_features _ _ _ _ H EP1) as M1.
  rewrite (unused_rot d p PERM nl q1 l1 N1 (item_fits _ _ _ _ _ F L1)). step E1. cbn [turn fst snd lin_weight].
  destruct (costate_loop_rot d p PERM dnl N q1 p1 (lin_weight l1) N1 M1 (W1 _ L1)) as (C1 & _). rewrite C1. step E2.
  rewrite matmul32_both by assumption. step E3. apply matmul32_n2 in E3 as A3. rewrite (W1 _ L1) in A3.
  rewrite !(map_rot d p PERM), (zip_any d p PERM) by (cbn; congruence). step E4. assert (A4 := zip_n2 _ _ _ _ _ E4 N1 A3).
  destruct (sd_item "l2" th) as [l2|] eqn:L2; cbn [bind]; [|now_raise].
  replace (turn d O (simple_turn "l2") l2) with l2 by (destruct l2; reflexivity).
  destruct (sd_item "q2" s) as [q2|] eqn:EQ2; cbn [bind]; [|now_raise].
  destruct (sd_item "p_q2" c) as [p2|] eqn:EP2; cbn [bind]; [|now_raise].
  step E5. step E6. step E7. step E8. finish. exact A4.
Qed.
End Models.

Section Parameters.
Variable d : nat.
Variable p : nat -> nat.
Hypothesis PERM : permutes d p.
Variable nl dnl : R -> R.
Variable init : string -> (nat -> nat -> R) * (nat -> R).
Variable e : nat.
Variable W : option R.
Variable N : nat.
Notation O := (order_matrix p).
Notation ORTH := (order_orthogonal d p PERM).
Notation rot := (rotate d O).
Notation rots := (rotate_first d O).
Notation turnl := (turns d O).

Ltac items G H := rewrite ?(item_first d O _ _ H), ?(item_other d O "p_q1" "p_q2" _ H),
  ?(item_first d O _ _ G), ?(item_other d O "q1" "q2" _ G) by (intros X; discriminate X).
Ltac now_raise := split; [reflexivity|intros ? X0; discriminate X0].
Tactic Notation "product" ident(E) := match goal with |- parameters_turn _ _ _ _ (bind ?m _) _ => destruct m eqn:E; cbn [bind]; [|now_raise] end.
Ltac layers_now := unfold store_weight, store_bias, general_objects, simple_objects, debug_objects;
  cbn -[divide_by_if_not_none mean0 tr rows columns parameters_turn bias_of both];
  rewrite ?mean_rot1, ?mean_rot, ?tr_rows, ?tr_columns, ?divide_columns, ?divide_rows;
  rewrite ?mean_rot1, ?mean_rot, ?tr_rows, ?tr_columns, ?divide_columns, ?divide_rows.
Ltac forall_list := repeat match goal with |- Forall _ (_ :: _) => apply Forall_cons | |- Forall _ [] => apply Forall_nil end.
Ltac shapes := let X := fresh in intros ? X; injection X as <-; split;
  [unfold all_fit; forall_list; intros X; cbn [fst snd] in *; try discriminate X; clear X; cbn [lin_weight lin_bias with_weight with_bias snn_linear];
     try split; rewrite ?divide_m0, ?divide_m1; cbn [m0 m1 tr mean0 sum0 map2 bias_of]; try exact I
  |forall_list; intros ? X; injection X as <-; cbn [lin_weight with_weight with_bias]; rewrite ?divide_m1; cbn [m0 m1 tr mean0 sum0 map2 bias_of]];
  try congruence.

Lemma general_parameters_rot s c : good d "q1" s -> good d "p_q1" c ->
  parameters_turn d O general_turn ["l12"; "l13"; "l21"; "l24"]
    (general_parameters nl init d e W s c) (general_parameters nl init d e W (rots s) (rots c)).
Proof.
  intros G H. unfold general_parameters. items G H.
  destruct (sd_item "q1" s) as [q1|] eqn:EQ1; cbn [bind]; [|now_raise]. pose proof (item_features _ _ _ _ G EQ1) as N1.
  destruct (sd_item "p_q1" c) as [p1|] eqn:EP1; cbn [bind]; [|now_raise]. pose proof (item_features _ _ _ _ H EP1) as M1.
  destruct (sd_item "q2" s) as [q2|] eqn:EQ2; cbn [bind]; [|now_raise].
  destruct (sd_item "p_q2" c) as [p2|] eqn:EP2; cbn [bind]; [|now_raise].
  rewrite (map_rot d p PERM).
  replace (map3 nl (transpose12 (rot q1))) with (transpose12 (rot (map3 nl q1))) by (rewrite <- (map_rot d p PERM); reflexivity).
  change (map3 nl (transpose12 q1)) with (transpose12 (map3 nl q1)).
  rewrite !matmul33_last. product E1. rewrite !matmul33_first. product E2. product E3. product E4. product E5. product E6. product E7. product E8.
  apply matmul33_shape in E1 as [_ E1]. apply matmul33_shape in E2 as [E2 E2']. apply matmul33_shape in E3 as [E3 E3'].
  apply matmul33_shape in E4 as [_ E4]. apply matmul33_shape in E5 as [_ E5]. apply matmul33_shape in E8 as [_ E8].
  cbn [n1 n2 transpose12 map3] in *.
  layers_now. split; [rewrite <- ?rows_columns; reflexivity|]. shapes.
Qed.

Lemma item_flat key s x : good d key s -> flat s -> sd_item key s = Ok x -> n1 x = 1%nat.
Proof.
  intros (k & y & r & -> & E & K & NI) Fl. unfold sd_item. cbn in *. destruct (String.eqb_spec key k) as [|NE].
  - intros H. injection H as <-. exact Fl.
  - assert (X : sd_get key r = None).
    { clear -NI. induction r as [|[a b] r IH]; [reflexivity|]. cbn in *. destruct (String.eqb_spec key a) as [<-|]; [tauto|apply IH; tauto]. }
    rewrite X. discriminate.
Qed.

Lemma tr_both w : tr (both d p w) = rows d O (columns d O (tr w)).
Proof. unfold both. rewrite tr_rows, tr_columns. symmetry. apply rows_columns. Qed.

Lemma simple_parameters_rot s c : good d "q1" s -> good d "p_q1" c -> flat s -> flat c ->
  parameters_turn d O simple_turn ["l1"] (simple_parameters nl init d W N s c) (simple_parameters nl init d W N (rots s) (rots c)).
Proof.
  intros G H Fs Fc. unfold simple_parameters. items G H.
  destruct (sd_item "q1" s) as [q1|] eqn:EQ1; cbn [bind]; [|now_raise]. pose proof (item_features _ _ _ _ G EQ1) as N1.
  destruct (sd_item "p_q1" c) as [p1|] eqn:EP1; cbn [bind]; [|now_raise]. pose proof (item_features _ _ _ _ H EP1) as M1.
  destruct (weight_loop_rot d p PERM nl N q1 p1 N1 M1 (item_flat _ _ _ G Fs EQ1) (item_flat _ _ _ H Fc EP1)) as (L1 & L2).
  rewrite L1. product E1. destruct (L2 _ eq_refl) as (S0 & S1). rewrite tr_both, (bias_rot d p PERM).
  layers_now. split; [reflexivity|]. shapes.
Qed.

Lemma debug_parameters_rot s c : good d "q1" s -> good d "p_q1" c -> flat s -> flat c ->
  parameters_turn d O simple_turn ["l1"] (debug_parameters nl init d W N s c) (debug_parameters nl init d W N (rots s) (rots c)).
Proof.
  intros G H Fs Fc. unfold debug_parameters. items G H.
  destruct (sd_item "q1" s) as [q1|] eqn:EQ1; cbn [bind]; [|now_raise]. pose proof (item_features _ _ _ _ G EQ1) as N1.
  destruct (sd_item "p_q1" c) as [p1|] eqn:EP1; cbn [bind]; [|now_raise]. pose proof (item_features _ _ _ _ H EP1) as M1.
  destruct (weight_loop_rot d p PERM nl N q1 p1 N1 M1 (item_flat _ _ _ G Fs EQ1) (item_flat _ _ _ H Fc EP1)) as (L1 & L2).
  rewrite L1. product E1. destruct (L2 _ eq_refl) as (S0 & S1). rewrite tr_both, (bias_rot d p PERM).
  destruct (sd_item "q2" s) as [q2|] eqn:EQ2; [|now_raise]. destruct (sd_item "p_q2" c) as [p2|] eqn:EP2; [|now_raise].
  clear E1 L1 L2. generalize (weight_loop nl d N). intros wl. unfold store_weight, store_bias, debug_objects.
  cbn -[divide_by_if_not_none mean0 tr rows columns parameters_turn bias_of both]. destruct (wl q2 p2) as [w2|]; [|now_raise].
  layers_now. split; [reflexivity|]. shapes.
Qed.
End Parameters.

(** ** The models by their place *)
Section Places.
Variable d : nat.
Variable p : nat -> nat.
Hypothesis PERM : permutes d p.
Variable nl dnl : R -> R.
Variable init : string -> (nat -> nat -> R) * (nat -> R).
Variable e : nat.
Variable W : option R.
Variable ow : R.
Variable N : nat.
Notation O := (order_matrix p).
Notation ORTH := (order_orthogonal d p PERM).

Lemma general_turning E : turning_equations d O E (mkEquations (general_rhs nl) (general_costate dnl) (general_parameters nl init d e W)).
Proof.
  intros s c z Gs Gc _. exists general_turn, ["l12"; "l13"; "l21"; "l24"]. cbn [eq_parameters eq_rhs eq_costate].
  split; [apply general_parameters_rot; assumption|]. split; [intros; apply general_rhs_rot; assumption|].
  intros th F Wd. pose proof (Forall_inv_tail Wd) as W2. pose proof (Forall_inv_tail W2) as W3. pose proof (Forall_inv_tail W3) as W4.
  apply general_costate_rot; try assumption; [exact (Forall_inv Wd)|exact (Forall_inv W2)|exact (Forall_inv W3)|exact (Forall_inv W4)].
Qed.
Lemma simple_turning : turning_equations d O flat_particles (mkEquations (simple_rhs nl) (simple_costate nl dnl N) (simple_parameters nl init d W N)).
Proof.
  intros s c z Gs Gc [Fs Fc]. exists simple_turn, ["l1"]. cbn [eq_parameters eq_rhs eq_costate].
  split; [apply simple_parameters_rot; assumption|]. split; [intros; apply simple_rhs_rot; assumption|].
  intros th F Wd. apply simple_costate_rot; try assumption. exact (Forall_inv Wd).
Qed.
Lemma debug_turning : turning_equations d O flat_particles (mkEquations (debug_rhs nl) (debug_costate nl dnl N) (debug_parameters nl init d W N)).
Proof.
  intros s c z Gs Gc [Fs Fc]. exists simple_turn, ["l1"]. cbn [eq_parameters eq_rhs eq_costate].
  split; [apply debug_parameters_rot; assumption|]. split; [intros; apply debug_rhs_rot; assumption|].
  intros th F Wd. apply debug_costate_rot; try assumption. exact (Forall_inv Wd).
Qed.

(** ** The second axis stays *)
Lemma f_linear_n1 x w b t : f_linear x w b = Ok t -> n1 t = n1 x.
Proof.
  unfold f_linear, matmul32. destruct (Nat.eqb _ _); [|discriminate]. cbn [bind]. destruct b as [b|].
  - destruct (zip3 _ _ _) as [z|]; [|discriminate]. cbn [bind n0 n1 n2 tr m1].
    destruct (Nat.eqb (n0 z) (n0 x)); [|discriminate]. destruct (Nat.eqb_spec (n1 z) (n1 x)); [|discriminate].
    destruct (Nat.eqb (n2 z) (m0 w)); [|discriminate]. cbn. intros H. injection H as <-. assumption.
  - intros H. injection H as <-. reflexivity.
Qed.
Lemma costate_loop_n1 q c A z : costate_loop dnl N q c A = Ok z -> n1 z = n1 c.
Proof.
  unfold costate_loop. assert (Z : n1 (zeros_like c) = n1 c) by reflexivity. revert Z. generalize (zeros_like c) (seq 0 N).
  intros a l. revert a. induction l as [|i l IH]; intros a Z H; cbn [foldM] in H.
  - injection H as <-. exact Z.
  - apply bind_ok in H as (b & B & H). apply IH in H; [exact H|]. apply bind_ok in B as (qi & _ & B). apply bind_ok in B as (ci & _ & B).
    apply bind_ok in B as (mi & _ & B). apply bind_ok in B as (ri & _ & B). unfold set_row in B. destruct (negb _); [discriminate|].
    destruct (_ && _); [|discriminate]. injection B as <-. exact Z.
Qed.
Lemma zip_n1 f x y z : zip3 f x y = Ok z -> n1 x = 1%nat -> n1 y = 1%nat -> n1 z = 1%nat.
Proof.
  unfold zip3. intros H X Y. rewrite X, Y in H. destruct (bdim _ _); [|discriminate]. cbn [bind bdim Nat.eqb] in H.
  destruct (bdim _ _); [|discriminate]. cbn [bind] in H. injection H as <-. reflexivity.
Qed.
Lemma matmul32_n1 x w y : matmul32 x w = Ok y -> n1 y = n1 x.
Proof. unfold matmul32. destruct (Nat.eqb _ _); [|discriminate]. intros H. injection H as <-. reflexivity. Qed.

Lemma simple_keeps : keeps d flat_particles (mkEquations (simple_rhs nl) (simple_costate nl dnl N) (simple_parameters nl init d W N)).
Proof.
  intros [[s c] z] r (Gs & Gc & _) [Fs Fc] H. unfold system_rhs in H. cbn [eq_parameters eq_rhs eq_costate] in H.
  apply bind_ok in H as (th & _ & H). apply bind_ok in H as (ds & D & H). apply bind_ok in H as (dz & Z & H).
  apply bind_ok in H as (dc & C & H). injection H as <-.
  unfold simple_rhs in D. apply bind_ok in D as (l1 & _ & D). apply bind_ok in D as (q1 & Q1 & D). apply bind_ok in D as (r1 & R1 & D). injection D as <-.
  unfold simple_costate in C. apply bind_ok in C as (l1' & _ & C). apply bind_ok in C as (q1' & _ & C). apply bind_ok in C as (p1 & P1 & C).
  apply bind_ok in C as (u & _ & C). apply bind_ok in C as (dp & DP & C). injection C as <-.
  split; cbn [flat].
  - rewrite (f_linear_n1 _ _ _ _ R1). exact (item_flat d _ _ _ Gs Fs Q1).
  - rewrite (costate_loop_n1 _ _ _ _ DP). exact (item_flat d _ _ _ Gc Fc P1).
Qed.
Lemma debug_keeps : keeps d flat_particles (mkEquations (debug_rhs nl) (debug_costate nl dnl N) (debug_parameters nl init d W N)).
Proof.
  intros [[s c] z] r (Gs & Gc & _) [Fs Fc] H. unfold system_rhs in H. cbn [eq_parameters eq_rhs eq_costate] in H.
  apply bind_ok in H as (th & _ & H). apply bind_ok in H as (ds & D & H). apply bind_ok in H as (dz & Z & H).
  apply bind_ok in H as (dc & C & H). injection H as <-.
  unfold debug_rhs in D. apply bind_ok in D as (l1 & _ & D). apply bind_ok in D as (q1 & Q1 & D). apply bind_ok in D as (r1 & R1 & D).
  apply bind_ok in D as (l2 & _ & D). apply bind_ok in D as (q2 & _ & D). apply bind_ok in D as (r2 & _ & D). injection D as <-.
  unfold debug_costate in C. apply bind_ok in C as (l1' & _ & C). apply bind_ok in C as (q1' & Q1' & C). apply bind_ok in C as (p1 & P1 & C).
  apply bind_ok in C as (u & _ & C). apply bind_ok in C as (v & _ & C). apply bind_ok in C as (m & M & C). apply bind_ok in C as (dp & DP & C).
  apply bind_ok in C as (l2' & _ & C). apply bind_ok in C as (q2' & _ & C). apply bind_ok in C as (p2 & _ & C).
  apply bind_ok in C as (u2 & _ & C). apply bind_ok in C as (v2 & _ & C). apply bind_ok in C as (m2 & _ & C). apply bind_ok in C as (dp2 & _ & C). injection C as <-.
  split; cbn [flat].
  - rewrite (f_linear_n1 _ _ _ _ R1). exact (item_flat d _ _ _ Gs Fs Q1).
  - apply (zip_n1 _ _ _ _ DP); [exact (item_flat d _ _ _ Gs Fs Q1')|]. rewrite (matmul32_n1 _ _ _ M). exact (item_flat d _ _ _ Gc Fc P1).
Qed.
Lemma steps_flat : steps_keep flat_particles.
Proof.
  assert (P : forall s r t, flat s -> plus_states s r = Ok t -> flat t).
  { intros [|[k x] s] [|[k' y] r] t; cbn [plus_states]; intros Fl H; try discriminate; [injection H as <-; exact I|].
    apply bind_ok in H as (z & Z & H). apply bind_ok in H as (u & _ & H). injection H as <-. unfold plus3 in Z.
    destruct (_ && _); [|discriminate]. injection Z as <-. exact Fl. }
  split.
  - intros [[s c] z] [[s' c'] z'] r [Fs Fc] H. cbn [plus_system] in H. apply bind_ok in H as (a & A & H). apply bind_ok in H as (b & B & H).
    apply bind_ok in H as (g & _ & H). injection H as <-. split; [exact (P _ _ _ Fs A)|exact (P _ _ _ Fc B)].
  - intros a [[s c] z] r [Fs Fc] H. cbn [times_system] in H. injection H as <-.
    split; [destruct s as [|[k x] s]|destruct c as [|[k x] c]]; assumption.
Qed.
End Places.

(** ** All models *)
Section All.
Variable d : nat.
Variable p : nat -> nat.
Hypothesis PERM : permutes d p.
Notation O := (order_matrix p).

Lemma by_place nl dnl init e W ow N i m : nth_error (vector_equations nl dnl init d e W ow N) i = Some m ->
  (turning_equations d O (fun _ => True) m \/
   In i [3; 4]%nat /\ turning_equations d O flat_particles m /\ keeps d flat_particles m).
Proof.
  intros H.
  assert (FR : In i [0; 1; 5; 6; 7]%nat -> turning_equations d O (fun _ => True) m).
  { intros I. apply (free_turning d O (order_orthogonal d p PERM) nl dnl init e W ow).
    exact (free_by_place nl dnl init d e W ow N i m I H). }
  destruct i as [|[|[|[|[|[|[|[|i]]]]]]]]; try (left; apply FR; cbn; tauto).
  - left. cbn in H. injection H as <-. apply general_turning. exact PERM.
  - right. cbn in H. injection H as <-. split; [cbn; tauto|]. split; [apply debug_turning; exact PERM|apply debug_keeps].
  - right. cbn in H. injection H as <-. split; [cbn; tauto|]. split; [apply simple_turning; exact PERM|apply simple_keeps].
  - cbn in H. destruct i; discriminate H.
Qed.

Lemma derivatives_reordered nl dnl init e W ow N i m y : nth_error (vector_equations nl dnl init d e W ow N) i = Some m ->
  with_features d y -> (In i [3; 4]%nat -> flat_particles y) ->
  system_rhs m (reorder_system p y) = lift (system_rhs m y) (reorder_system p).
Proof.
  intros M G Fl. rewrite <- (system_is d p PERM).
  replace (lift (system_rhs m y) (reorder_system p)) with (lift (system_rhs m y) (rotate_system d O)).
  2:{ destruct (system_rhs m y); [|reflexivity]. cbn [bind]. rewrite (system_is d p PERM). reflexivity. }
  destruct (by_place _ _ _ _ _ _ _ _ _ M) as [T|(I & T & K)].
  - exact (derivatives_rot d O _ m y T G Logic.I).
  - exact (derivatives_rot d O _ m y T G (Fl I)).
Qed.

Lemma runs_reordered nl dnl init e W ow N i m other adj name o y t ys :
  nth_error (vector_equations nl dnl init d e W ow N) i = Some m ->
  with_features d y -> (In i [3; 4]%nat -> flat_particles y) -> In name ["euler"; "midpoint"; "rk4"] ->
  fixed_odeint plus_system times_system (system_field m) other adj name o (Ok y) t = Ok (map Ok ys) ->
  fixed_odeint plus_system times_system (system_field m) other adj name o (Ok (reorder_system p y)) t
  = Ok (map Ok (map (reorder_system p) ys)).
Proof.
  intros M G Fl NM H. rewrite <- (system_is d p PERM).
  replace (map (reorder_system p) ys) with (map (rotate_system d O) ys) by (apply map_ext; intros; apply (system_is d p PERM)).
  destruct (by_place _ _ _ _ _ _ _ _ _ M) as [T|(I & T & K)].
  - exact (run_rot d O _ m other adj name o y t ys (proj1 nothing_kept) (proj2 nothing_kept d m) T G Logic.I NM H).
  - exact (run_rot d O _ m other adj name o y t ys steps_flat K T G (Fl I) NM H).
Qed.
End All.

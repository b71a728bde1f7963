(** Proofs: another order of the units of the second variable, derivatives and parameters. *)
From Coq Require Import List String Bool Reals Arith Lia Lra QArith Qcanon Qreals FunctionalExtensionality.
From Verif Require Import Base BaseFacts RealSum IntegratorModel FixedGridModel VecModel ParticlesModel ParticlesProofs2
  ScalingProofs RotationSpec RotationProofs RotationProofs2 RotationProofs3 RelabelSpec RelabelProofs RelabelProofs2 InnerSpec.
Import ListNotations.
Open Scope string_scope.
Open Scope list_scope.
Open Scope R_scope.

(** Which layers are turned, and how. *)
Definition updown_inner (k : string) : bool * bool :=
  if String.eqb k "l1" then (false, true) else if String.eqb k "l2" then (true, false) else (false, false).
Definition universal_inner (k : string) : bool * bool :=
  if String.eqb k "l1" then (false, true) else if String.eqb k "l2" then (true, false) else if String.eqb k "l3" then (true, true)
  else (false, false).
Definition general_inner (k : string) : bool * bool :=
  if String.eqb k "l11" then (false, true) else if String.eqb k "l14" then (false, true) else if String.eqb k "l21" then (true, false)
  else if String.eqb k "l22" then (true, true) else if String.eqb k "l23" then (true, true) else if String.eqb k "l24" then (true, false)
  else (false, false).

Section Inner.
Variable d : nat.
Variable p : nat -> nat.
Hypothesis PERM : permutes d p.
Notation O := (order_matrix p).
Notation ORTH := (order_orthogonal d p PERM).
Notation rot := (rotate d O).
Notation turnl := (turns d O).
Notation fit := (all_fit d).

Definition rots (s : states) : states := match s with a :: (k, x) :: r => a :: (k, rot x) :: r | _ => s end.

Definition good2 (key : string) (s : states) : Prop :=
  exists a k x r, s = a :: (k, x) :: r /\ n2 x = d /\ fst a <> key /\ (k = key \/ k = ("dot_" ++ key)%string) /\ ~ In key (map fst r).

Lemma missing key (r : states) : ~ In key (map fst r) -> sd_get key r = None.
Proof.
  intros NI. induction r as [|[a b] r IH]; [reflexivity|]. cbn in *. destruct (String.eqb_spec key a) as [<-|]; [tauto|apply IH; tauto].
Qed.
Lemma item_second key s : good2 key s -> sd_item key (rots s) = lift (sd_item key s) rot.
Proof.
  intros ([k0 x0] & k & x & r & -> & E & K0 & K & NI). unfold sd_item. cbn in *. destruct (String.eqb_spec key k0) as [|_]; [congruence|].
  destruct (String.eqb_spec key k) as [|NE]; [reflexivity|]. rewrite (missing _ _ NI). reflexivity.
Qed.
Lemma item_units key s x : good2 key s -> sd_item key s = Ok x -> n2 x = d.
Proof.
  intros ([k0 x0] & k & y & r & -> & E & K0 & K & NI). unfold sd_item. cbn in *. destruct (String.eqb_spec key k0) as [|_]; [congruence|].
  destruct (String.eqb_spec key k) as [|NE].
  - intros H. injection H as <-. exact E.
  - rewrite (missing _ _ NI). discriminate.
Qed.
Lemma item_not_second key k' s : good2 key s -> k' <> key -> k' <> ("dot_" ++ key)%string -> sd_item k' (rots s) = sd_item k' s.
Proof.
  intros ([k0 x0] & k & y & r & -> & E & K0 & K & NI) N1 N2. unfold sd_item. cbn in *. destruct (String.eqb_spec k' k0); [reflexivity|].
  destruct (String.eqb_spec k' k) as [->|]; [|reflexivity]. destruct K; contradiction.
Qed.

Definition covariant2 (key : string) (m m' : result states) : Prop := m' = lift m rots /\ forall r, m = Ok r -> good2 key r.

Ltac items G := rewrite ?item_turns, ?(item_second _ _ G), ?(item_not_second "q2" "q1" _ G), ?(item_not_second "q2" "q3" _ G)
  by (intros X; discriminate X).
Ltac citems G H := rewrite ?item_turns, ?(item_second _ _ H), ?(item_not_second "p_q2" "p_q1" _ H), ?(item_not_second "p_q2" "p_q3" _ H),
  ?(item_second _ _ G), ?(item_not_second "q2" "q1" _ G), ?(item_not_second "q2" "q3" _ G) by (intros X; discriminate X).
Ltac now_raise := split; [reflexivity|intros ? X0; discriminate X0].
Ltac layer k := match goal with |- context [turn _ _ (?f k) _] => let v := eval cbv in (f k) in change (f k) with v end.
Ltac finish := split; [reflexivity|]; let X0 := fresh in intros ? X0; injection X0 as <-;
  eexists _, _, _, _; split; [reflexivity|]; split; [|split; [discriminate|split; [right; reflexivity|cbn; intuition discriminate]]].
Tactic Notation "step" ident(E) := match goal with |- covariant2 _ (bind ?m _) _ => destruct m eqn:E; cbn [bind]; [|now_raise] end.
Tactic Notation "take" constr(k) constr(s) ident(x) ident(E) := destruct (sd_item k s) as [x|] eqn:E; cbn [bind]; [|now_raise].

Section Models.
Variable nl dnl : R -> R.

Lemma updown_rhs_units s th : good2 "q2" s -> fit updown_inner th ->
  covariant2 "q2" (updown_rhs nl s th) (updown_rhs nl (rots s) (turnl updown_inner th)).
Proof.
  intros G F. unfold updown_rhs. items G. take "l1" th l1 L1. take "q2" s q2 Q2. pose proof (item_units _ _ _ G Q2) as N2. layer "l1".
  rewrite (map_rot d p PERM), (forward_columns d O ORTH) by assumption. step E1. take "l2" th l2 L2. take "q1" s q1 Q1. layer "l2".
  rewrite forward_rows by exact (item_fits _ _ _ _ _ F L2). step E2. finish. exact (forward_n2 _ _ _ _ _ _ _ F L2 eq_refl E2).
Qed.

Lemma dampened_q2_rhs_units s th : good2 "q2" s -> fit updown_inner th ->
  covariant2 "q2" (dampened_q2_rhs nl s th) (dampened_q2_rhs nl (rots s) (turnl updown_inner th)).
Proof.
  intros G F. unfold dampened_q2_rhs. items G. take "l1" th l1 L1. take "q2" s q2 Q2. pose proof (item_units _ _ _ G Q2) as N2. layer "l1".
  rewrite !(map_rot d p PERM), (forward_columns d O ORTH) by assumption. step E1. take "l2" th l2 L2. take "q1" s q1 Q1. layer "l2".
  rewrite forward_rows by exact (item_fits _ _ _ _ _ F L2). step E2. pose proof (forward_n2 _ _ _ _ _ _ _ F L2 eq_refl E2) as A2.
  rewrite (zip_any d p PERM) by (cbn; congruence). step E3. finish. exact (zip_n2 _ _ _ _ _ E3 A2 N2).
Qed.

Lemma universal_rhs_units s th : good2 "q2" s -> fit universal_inner th ->
  covariant2 "q2" (universal_rhs nl s th) (universal_rhs nl (rots s) (turnl universal_inner th)).
Proof.
  intros G F. unfold universal_rhs. items G. take "l1" th l1 L1. take "q2" s q2 Q2. pose proof (item_units _ _ _ G Q2) as N2. layer "l1".
  rewrite !(map_rot d p PERM), (forward_columns d O ORTH) by assumption. step E1. take "l2" th l2 L2. take "q1" s q1 Q1. layer "l2".
  rewrite forward_rows by exact (item_fits _ _ _ _ _ F L2). step E2. pose proof (forward_n2 _ _ _ _ _ _ _ F L2 eq_refl E2) as A2.
  take "l3" th l3 L3. layer "l3". rewrite (forward_both d O ORTH) by (try assumption; exact (item_fits _ _ _ _ _ F L3)). step E3.
  pose proof (forward_n2 _ _ _ _ _ _ _ F L3 eq_refl E3) as A3.
  rewrite (zip_any d p PERM) by congruence. step E4. finish. exact (zip_n2 _ _ _ _ _ E4 A2 A3).
Qed.

Lemma symmetrized_rhs_units s th : good2 "q2" s -> fit updown_inner th ->
  covariant2 "q2" (symmetrized_rhs nl s th) (symmetrized_rhs nl (rots s) (turnl updown_inner th)).
Proof.
  intros G F. unfold symmetrized_rhs. items G. take "l1" th l1 L1. take "q2" s q2 Q2. pose proof (item_units _ _ _ G Q2) as N2. layer "l1".
  rewrite !(map_rot d p PERM), (forward_columns d O ORTH) by assumption. step E1. take "l2" th l2 L2. take "q3" s q3 Q3. layer "l2".
  rewrite forward_rows by exact (item_fits _ _ _ _ _ F L2). step E2. take "l3" th l3 L3. take "q1" s q1 Q1. layer "l3".
  rewrite forward_neither. step E3. finish. exact (forward_n2 _ _ _ _ _ _ _ F L2 eq_refl E2).
Qed.

Lemma periodic_rhs_units s th : good2 "q2" s -> fit updown_inner th ->
  covariant2 "q2" (periodic_rhs nl s th) (periodic_rhs nl (rots s) (turnl updown_inner th)).
Proof.
  intros G F. unfold periodic_rhs. items G. take "l1" th l1 L1. take "q2" s q2 Q2. pose proof (item_units _ _ _ G Q2) as N2. layer "l1".
  rewrite !(map_rot d p PERM), (forward_columns d O ORTH) by assumption. step E1. take "l3" th l3 L3. take "q1" s q1 Q1. layer "l3".
  rewrite forward_neither. step E2. step E3. take "l2" th l2 L2. layer "l2".
  rewrite forward_rows by exact (item_fits _ _ _ _ _ F L2). step E4. finish. exact (forward_n2 _ _ _ _ _ _ _ F L2 eq_refl E4).
Qed.

Lemma general_rhs_units s th : good2 "q2" s -> fit general_inner th ->
  covariant2 "q2" (general_rhs nl s th) (general_rhs nl (rots s) (turnl general_inner th)).
Proof.
  intros G F. unfold general_rhs. items G. take "q1" s q1 Q1. take "q2" s q2 Q2. pose proof (item_units _ _ _ G Q2) as N2.
  take "l11" th l11 L11. layer "l11". rewrite !(map_rot d p PERM), (forward_columns d O ORTH) by assumption. step E1.
  take "l12" th l12 L12. layer "l12". rewrite forward_neither. step E2. step E3.
  take "l13" th l13 L13. layer "l13". rewrite forward_neither. step E4. step E5.
  take "l14" th l14 L14. layer "l14". rewrite (forward_columns d O ORTH) by assumption. step E6. step E7.
  take "l21" th l21 L21. layer "l21". rewrite forward_rows by exact (item_fits _ _ _ _ _ F L21). step E8.
  pose proof (forward_n2 _ _ _ _ _ _ _ F L21 eq_refl E8) as A8.
  take "l22" th l22 L22. layer "l22". rewrite (forward_both d O ORTH) by (try assumption; exact (item_fits _ _ _ _ _ F L22)). step E9.
  pose proof (forward_n2 _ _ _ _ _ _ _ F L22 eq_refl E9) as A9. rewrite (zip_any d p PERM) by congruence. step E10.
  pose proof (zip_n2 _ _ _ _ _ E10 A8 A9) as A10.
  take "l23" th l23 L23. layer "l23". rewrite (forward_both d O ORTH) by (try assumption; exact (item_fits _ _ _ _ _ F L23)). step E11.
  pose proof (forward_n2 _ _ _ _ _ _ _ F L23 eq_refl E11) as A11. rewrite (zip_any d p PERM) by congruence. step E12.
  pose proof (zip_n2 _ _ _ _ _ E12 A10 A11) as A12.
  take "l24" th l24 L24. layer "l24". rewrite forward_rows by exact (item_fits _ _ _ _ _ F L24). step E13.
  pose proof (forward_n2 _ _ _ _ _ _ _ F L24 eq_refl E13) as A13. rewrite (zip_any d p PERM) by congruence. step E14.
  pose proof (zip_n2 _ _ _ _ _ E14 A12 A13) as A14. rewrite (zip_any d p PERM) by (cbn; congruence). step E15. finish.
  exact (zip_n2 _ _ _ _ _ E15 A14 N2).
Qed.

(** ** Costates *)
Lemma updown_costate_units s c th : good2 "q2" s -> good2 "p_q2" c -> fit updown_inner th -> wide d "l1" th ->
  covariant2 "p_q2" (updown_costate dnl s c th) (updown_costate dnl (rots s) (rots c) (turnl updown_inner th)).
Proof.
  intros G H F W1. unfold updown_costate. citems G H. take "l1" th l1 L1. take "l2" th l2 L2. take "q2" s q2 Q2. take "p_q1" c p1 P1. take "p_q2" c p2 P2.
  pose proof (item_units _ _ _ G Q2) as N2. pose proof (item_units _ _ _ H P2) as M2. layer "l1". layer "l2". cbn [turn fst snd lin_weight].
  rewrite matmul32_columns. step E1. apply matmul32_n2 in E1 as A1. rewrite (W1 _ L1) in A1.
  rewrite !(map_rot d p PERM), (zip_any d p PERM) by (cbn; congruence). step E2.
  rewrite (matmul32_rows d O ORTH) by assumption. step E3. finish. exact (zip_n2 _ _ _ _ _ E2 N2 A1).
Qed.

Lemma universal_costate_units s c th : good2 "q2" s -> good2 "p_q2" c -> fit universal_inner th -> wide d "l1" th -> wide d "l3" th ->
  covariant2 "p_q2" (universal_costate dnl s c th) (universal_costate dnl (rots s) (rots c) (turnl universal_inner th)).
Proof.
  intros G H F W1 W3. unfold universal_costate. citems G H. take "l1" th l1 L1. take "l2" th l2 L2. take "l3" th l3 L3. take "q2" s q2 Q2.
  take "p_q1" c p1 P1. take "p_q2" c p2 P2.
  pose proof (item_units _ _ _ G Q2) as N2. pose proof (item_units _ _ _ H P2) as M2. layer "l1". layer "l2". layer "l3". cbn [turn fst snd lin_weight].
  rewrite matmul32_columns. step E1. apply matmul32_n2 in E1 as A1. rewrite (W1 _ L1) in A1.
  rewrite (matmul32_both d p PERM) by assumption. step E2. apply matmul32_n2 in E2 as A2. rewrite (W3 _ L3) in A2.
  rewrite (zip_any d p PERM) by congruence. step E3. pose proof (zip_n2 _ _ _ _ _ E3 A1 A2) as A3.
  rewrite !(map_rot d p PERM), (zip_any d p PERM) by (cbn; congruence). step E4.
  rewrite (matmul32_rows d O ORTH) by assumption. step E5. finish. exact (zip_n2 _ _ _ _ _ E4 N2 A3).
Qed.

Lemma symmetrized_costate_units s c th : good2 "q2" s -> good2 "p_q2" c -> fit updown_inner th -> wide d "l1" th ->
  covariant2 "p_q2" (symmetrized_costate dnl s c th) (symmetrized_costate dnl (rots s) (rots c) (turnl updown_inner th)).
Proof.
  intros G H F W1. unfold symmetrized_costate. citems G H. take "l1" th l1 L1. take "l2" th l2 L2. take "l3" th l3 L3.
  take "q2" s q2 Q2. take "q1" s q1 Q1. take "q3" s q3 Q3. take "p_q1" c p1 P1. take "p_q2" c p2 P2. take "p_q3" c p3 P3.
  pose proof (item_units _ _ _ G Q2) as N2. pose proof (item_units _ _ _ H P2) as M2. layer "l1". layer "l2". layer "l3". cbn [turn fst snd lin_weight].
  rewrite matmul32_columns. step E1. apply matmul32_n2 in E1 as A1. rewrite (W1 _ L1) in A1.
  rewrite !(map_rot d p PERM), (zip_any d p PERM) by (cbn; congruence). step E2.
  rewrite (matmul32_rows d O ORTH) by assumption. step E3. step E4. step E5. finish. exact (zip_n2 _ _ _ _ _ E2 N2 A1).
Qed.

Lemma periodic_costate_units s c th : good2 "q2" s -> good2 "p_q2" c -> fit updown_inner th -> wide d "l1" th ->
  covariant2 "p_q2" (periodic_costate dnl s c th) (periodic_costate dnl (rots s) (rots c) (turnl updown_inner th)).
Proof.
  intros G H F W1. unfold periodic_costate. citems G H. take "l1" th l1 L1. take "l2" th l2 L2. take "l3" th l3 L3.
  take "q2" s q2 Q2. take "p_q1" c p1 P1. take "p_q2" c p2 P2.
  pose proof (item_units _ _ _ G Q2) as N2. pose proof (item_units _ _ _ H P2) as M2. layer "l1". layer "l2". layer "l3". cbn [turn fst snd lin_weight].
  step E0. rewrite matmul32_columns. step E1. apply matmul32_n2 in E1 as A1. rewrite (W1 _ L1) in A1.
  rewrite !(map_rot d p PERM), (zip_any d p PERM) by (cbn; congruence). step E2.
  rewrite (matmul32_rows d O ORTH) by assumption. step E3. step E4. finish. exact (zip_n2 _ _ _ _ _ E2 N2 A1).
Qed.

Lemma general_costate_units s c th : good2 "q2" s -> good2 "p_q2" c -> fit general_inner th ->
  wide d "l11" th -> wide d "l14" th -> wide d "l22" th -> wide d "l23" th ->
  covariant2 "p_q2" (general_costate dnl s c th) (general_costate dnl (rots s) (rots c) (turnl general_inner th)).
Proof.
  intros G H F W11 W14 W22 W23. unfold general_costate. citems G H.
  take "l11" th l11 L11. take "l12" th l12 L12. take "l13" th l13 L13. take "l14" th l14 L14.
  take "l21" th l21 L21. take "l22" th l22 L22. take "l23" th l23 L23. take "l24" th l24 L24.
  take "q2" s q2 Q2. take "q1" s q1 Q1. take "p_q1" c p1 P1. take "p_q2" c p2 P2.
  pose proof (item_units _ _ _ G Q2) as N2. pose proof (item_units _ _ _ H P2) as M2.
  layer "l11"; layer "l12"; layer "l13"; layer "l14"; layer "l21"; layer "l22"; layer "l23"; layer "l24". cbn [turn fst snd lin_weight].
  rewrite (matmul32_columns d O p1 (lin_weight l11)). step E1. apply matmul32_n2 in E1 as A1. rewrite (W11 _ L11) in A1.
  rewrite (matmul32_both d p PERM p2 (lin_weight l23)) by assumption. step E2. apply matmul32_n2 in E2 as A2. rewrite (W23 _ L23) in A2.
  rewrite (zip_any d p PERM) by congruence. step E3. pose proof (zip_n2 _ _ _ _ _ E3 A1 A2) as A3.
  rewrite !(map_rot d p PERM), (zip_any d p PERM) by (cbn; congruence). step E4. assert (A4 := zip_n2 _ _ _ _ _ E4 N2 A3).
  rewrite (matmul32_columns d O p1 (lin_weight l14)). step E5. apply matmul32_n2 in E5 as A5. rewrite (W14 _ L14) in A5.
  rewrite (matmul32_both d p PERM p2 (lin_weight l22)) by assumption. step E6. apply matmul32_n2 in E6 as A6. rewrite (W22 _ L22) in A6.
  rewrite (map_rot d p PERM), (zip_any d p PERM) by (cbn; congruence). step E7. assert (A7 := zip_n2 _ _ _ _ _ E7 A5 A6).
  rewrite (matmul32_rows d O ORTH p2 (lin_weight l21)) by assumption. step E8. step E9. step E10. step E11.
  rewrite (matmul32_rows d O ORTH p2 (lin_weight l24)) by assumption. step E12. step E13. step E14. step E15.
  rewrite (zip_any d p PERM) by congruence. step E16. finish. exact (zip_n2 _ _ _ _ _ E16 A4 A7).
Qed.
End Models.

(** ** Parameters *)
Section Parameters.
Variable nl : R -> R.
Variable init : string -> (nat -> nat -> R) * (nat -> R).
Variable f e : nat.
Variable W : option R.
Variable ow : R.

Ltac pitems G H := rewrite ?(item_second _ _ H), ?(item_not_second "p_q2" "p_q1" _ H), ?(item_not_second "p_q2" "p_q3" _ H),
  ?(item_second _ _ G), ?(item_not_second "q2" "q1" _ G), ?(item_not_second "q2" "q3" _ G) by (intros X; discriminate X).
Tactic Notation "product" ident(E) := match goal with |- parameters_turn _ _ _ _ (bind ?m _) _ => destruct m eqn:E; cbn [bind]; [|now_raise] end.
Ltac arrange := rewrite ?mean_rot1, ?mean_rot, ?tr_rows, ?tr_columns, ?divide_columns, ?divide_rows.
Ltac layers_now := unfold store_weight, store_bias, updown_objects, universal_objects, general_objects, symmetrized_objects, periodic_objects;
  cbn -[divide_by_if_not_none mean0 tr rows columns parameters_turn]; arrange; arrange; arrange.
Ltac forall_list := repeat match goal with |- Forall _ (_ :: _) => apply Forall_cons | |- Forall _ [] => apply Forall_nil end.
Ltac shapes := let X := fresh in intros ? X; injection X as <-; split;
  [unfold all_fit; forall_list; intros X; cbn [fst snd] in *; try discriminate X; clear X; cbn [lin_weight lin_bias with_weight with_bias snn_linear];
     try split; rewrite ?divide_m0, ?divide_m1; cbn [m0 m1 tr mean0 sum0 map2]; try exact I
  |forall_list; intros ? X; injection X as <-; cbn [lin_weight with_weight with_bias]; rewrite ?divide_m1; cbn [m0 m1 tr mean0 sum0 map2]];
  try congruence.

Lemma transpose_twice x : transpose12 (transpose12 x) = x.
Proof. destruct x. reflexivity. Qed.
Lemma nl_transpose x : map3 nl (transpose12 (rot x)) = transpose12 (rot (map3 nl x)).
Proof. rewrite <- (map_rot d p PERM). reflexivity. Qed.
Lemma nl_transpose' x : map3 nl (transpose12 x) = transpose12 (map3 nl x).
Proof. reflexivity. Qed.
Lemma mean_transpose x : mean0 (transpose12 x) = tr (mean0 x).
Proof. reflexivity. Qed.

Lemma updown_parameters_units s c : good2 "q2" s -> good2 "p_q2" c ->
  parameters_turn d O updown_inner ["l1"] (updown_parameters nl init f e W s c) (updown_parameters nl init f e W (rots s) (rots c)).
Proof.
  intros G H. unfold updown_parameters. pitems G H. take "q1" s q1 Q1. take "p_q1" c p1 P1. take "q2" s q2 Q2. take "p_q2" c p2 P2.
  pose proof (item_units _ _ _ G Q2) as N2. pose proof (item_units _ _ _ H P2) as M2.
  rewrite !nl_transpose, !nl_transpose', !mean_transpose, !tr_tr. rewrite !matmul33_first. product E1. product E2.
  apply matmul33_shape in E1 as [E1 _]. apply matmul33_shape in E2 as [E2 _]. cbn [n1 n2 transpose12 map3] in *.
  layers_now. split; [reflexivity|]. shapes.
Qed.

Lemma universal_parameters_units s c : good2 "q2" s -> good2 "p_q2" c ->
  parameters_turn d O universal_inner ["l1"; "l3"] (universal_parameters nl init f e W ow s c) (universal_parameters nl init f e W ow (rots s) (rots c)).
Proof.
  intros G H. unfold universal_parameters. pitems G H. take "q1" s q1 Q1. take "p_q1" c p1 P1. take "q2" s q2 Q2. take "p_q2" c p2 P2.
  pose proof (item_units _ _ _ G Q2) as N2. pose proof (item_units _ _ _ H P2) as M2.
  rewrite !nl_transpose, !nl_transpose', !mean_transpose, !tr_tr, !transpose_twice. rewrite !matmul33_first, !matmul33_last. product E1. product E2. product E3.
  apply matmul33_shape in E1 as [E1 _]. apply matmul33_shape in E2 as [E2 _]. apply matmul33_shape in E3 as [E3 E3']. cbn [n1 n2 transpose12 map3] in *.
  layers_now. split; [rewrite <- ?rows_columns; reflexivity|]. shapes.
Qed.

Lemma symmetrized_parameters_units s c : good2 "q2" s -> good2 "p_q2" c ->
  parameters_turn d O updown_inner ["l1"] (symmetrized_parameters nl init f e W s c) (symmetrized_parameters nl init f e W (rots s) (rots c)).
Proof.
  intros G H. unfold symmetrized_parameters. pitems G H. take "q1" s q1 Q1. take "p_q1" c p1 P1. take "q2" s q2 Q2. take "q3" s q3 Q3.
  take "p_q3" c p3 P3. take "p_q2" c p2 P2.
  pose proof (item_units _ _ _ G Q2) as N2. pose proof (item_units _ _ _ H P2) as M2.
  rewrite !nl_transpose, !nl_transpose', !mean_transpose, !tr_tr. rewrite !matmul33_first. product E1. product E2. product E3.
  apply matmul33_shape in E1 as [E1 _]. apply matmul33_shape in E2 as [E2 _]. cbn [n1 n2 transpose12 map3] in *.
  layers_now. split; [reflexivity|]. shapes.
Qed.

Lemma periodic_parameters_units s c : good2 "q2" s -> good2 "p_q2" c ->
  parameters_turn d O updown_inner ["l1"] (periodic_parameters nl init f e W s c) (periodic_parameters nl init f e W (rots s) (rots c)).
Proof.
  intros G H. unfold periodic_parameters. pitems G H. take "q1" s q1 Q1. take "p_q1" c p1 P1. take "q2" s q2 Q2. take "p_q2" c p2 P2.
  pose proof (item_units _ _ _ G Q2) as N2. pose proof (item_units _ _ _ H P2) as M2.
  rewrite !nl_transpose, !nl_transpose', !mean_transpose, !tr_tr. rewrite !matmul33_first. product E1. product E2. product E3.
  apply matmul33_shape in E1 as [E1 _]. apply matmul33_shape in E2 as [E2 _]. cbn [n1 n2 transpose12 map3] in *.
  layers_now. split; [reflexivity|]. shapes.
Qed.

Lemma general_parameters_units s c : good2 "q2" s -> good2 "p_q2" c ->
  parameters_turn d O general_inner ["l11"; "l14"; "l22"; "l23"]
    (general_parameters nl init f e W s c) (general_parameters nl init f e W (rots s) (rots c)).
Proof.
  intros G H. unfold general_parameters. pitems G H. take "q1" s q1 Q1. take "p_q1" c p1 P1. take "q2" s q2 Q2. take "p_q2" c p2 P2.
  pose proof (item_units _ _ _ G Q2) as N2. pose proof (item_units _ _ _ H P2) as M2.
  rewrite !nl_transpose, !nl_transpose', !transpose_twice. rewrite !matmul33_first, !matmul33_last.
  product E1. product E2. product E3. product E4. product E5. product E6. product E7. product E8.
  apply matmul33_shape in E1 as [E1 _]. apply matmul33_shape in E4 as [E4 _]. apply matmul33_shape in E5 as [E5 _].
  apply matmul33_shape in E6 as [E6 E6']. apply matmul33_shape in E7 as [E7 E7']. apply matmul33_shape in E8 as [E8 _].
  cbn [n1 n2 transpose12 map3] in *.
  layers_now. split; [rewrite <- ?rows_columns; reflexivity|]. shapes.
Qed.
End Parameters.
End Inner.

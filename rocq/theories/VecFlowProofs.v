(** Samples of a batch do not influence each other. *)
From Coq Require Import List String Reals Arith Lia Lra Bool.
From Verif Require Import Base RealSum VecModel VecInit VecSpec VecFlow.
Import ListNotations.
Open Scope string_scope.
Open Scope list_scope.
Open Scope R_scope.

Lemma both_bind {X Y X' Y'} (S : X -> Y -> Prop) (T : X' -> Y' -> Prop) a b f g :
  both S a b -> (forall x y, S x y -> both T (f x) (g y)) -> both T (bind a f) (bind b g).
Proof. destruct a, b; cbn; try tauto; auto. Qed.
Lemma both_same {X X' Y'} (T : X' -> Y' -> Prop) (a : result X) f g :
  (forall x, both T (f x) (g x)) -> both T (bind a f) (bind a g).
Proof. destruct a; cbn; auto. Qed.

Lemma bidx_left a b o i : bdim a b = Ok o -> (i < o)%nat -> (bidx a o i < a)%nat.
Proof.
  unfold bdim, bidx. destruct (Nat.eqb_spec a b), (Nat.eqb_spec a 1), (Nat.eqb_spec b 1); intros E Hi; try discriminate; injection E as <-;
    repeat match goal with |- context [Nat.eqb ?x ?y] => destruct (Nat.eqb_spec x y) end; lia.
Qed.
Lemma bidx_right a b o i : bdim a b = Ok o -> (i < o)%nat -> (bidx b o i < b)%nat.
Proof.
  unfold bdim, bidx. destruct (Nat.eqb_spec a b), (Nat.eqb_spec a 1), (Nat.eqb_spec b 1); intros E Hi; try discriminate; injection E as <-;
    repeat match goal with |- context [Nat.eqb ?x ?y] => destruct (Nat.eqb_spec x y) end; lia.
Qed.
Lemma bdim_same a : bdim a a = Ok a. Proof. unfold bdim. rewrite Nat.eqb_refl. reflexivity. Qed.
Lemma bdim_one a : bdim a 1 = Ok a.
Proof. unfold bdim. destruct (Nat.eqb_spec a 1); subst; auto. Qed.
Lemma bidx_same a i : bidx a a i = i. Proof. unfold bidx. rewrite Nat.eqb_refl. reflexivity. Qed.

Section Pick.
Variables (B B' : nat) (pick : nat -> nat).
Hypothesis Hpick : forall n, (n < B')%nat -> (pick n < B)%nat.
Notation R3 := (picked3 B B' pick).
Notation RS := (picked B B' pick).

Lemma item_picked x y q : RS x y -> both R3 (sd_item q x) (sd_item q y).
Proof.
  unfold sd_item. induction 1 as [|[a u] [b v] x y [E H] _ IH]; cbn; auto. cbn in E, H. subst.
  destruct (String.eqb q b); cbn; auto.
Qed.

Lemma map3_picked f x y : R3 x y -> R3 (map3 f x) (map3 f y).
Proof. intros [A [C [D [E F]]]]. repeat split; cbn; auto. intros n i k H. f_equal. apply F, H. Qed.

Lemma zeros_picked x y : R3 x y -> R3 (zeros_like x) (zeros_like y).
Proof. intros [A [C [D [E F]]]]. repeat split; cbn; auto. Qed.

Lemma zip3_picked f x y u v : R3 x y -> R3 u v -> both R3 (zip3 f x u) (zip3 f y v).
Proof.
  intros [A [C [D [E F]]]] [A' [C' [D' [E' F']]]]. unfold zip3.
  rewrite A, A', C, C', !bdim_same, D, E, D', E'. cbn [bind].
  apply both_bind with (S := fun o o' => o = o' /\ bdim (n1 y) (n1 v) = Ok o).
  { destruct (bdim (n1 y) (n1 v)); cbn; auto. }
  intros b ? [<- Hb].
  apply both_bind with (S := fun o o' => o = o' /\ bdim (n2 y) (n2 v) = Ok o).
  { destruct (bdim (n2 y) (n2 v)); cbn; auto. }
  intros c ? [<- Hc]. cbn. repeat split; cbn; auto. intros n i k [Hn [Hi Hk]]. cbn in Hn, Hi, Hk. rewrite !bidx_same.
  rewrite F, F'; auto; unfold in_range; rewrite ?C, ?C'; repeat split; eauto using bidx_left, bidx_right.
Qed.

Lemma matmul32_picked x y w : R3 x y -> both R3 (matmul32 x w) (matmul32 y w).
Proof.
  intros [A [C [D [E F]]]]. unfold matmul32. rewrite E. destruct (Nat.eqb_spec (n2 y) (m0 w)) as [K|K]; cbn; auto.
  repeat split; cbn; auto. intros n i k [Hn [Hi Hk]]. cbn in Hn, Hi, Hk. apply rsum_ext. intros j Hj. f_equal. apply F. repeat split; auto. lia.
Qed.

Lemma forward_picked l x y : R3 x y -> both R3 (forward l x) (forward l y).
Proof.
  intros H. unfold forward, f_linear. eapply both_bind; [apply matmul32_picked, H|]. intros u v Huv.
  destruct (lin_bias l) as [b|]; [|exact Huv]. pose proof Huv as [A [C [D [E F]]]].
  unfold zip3. cbn [n0 n1 n2 v3]. rewrite A, C, !bdim_one, D, E. cbn [bind].
  destruct (bdim (n1 v) (m0 b)) as [o|] eqn:Eo; cbn [bind]; [|reflexivity].
  destruct (bdim (n2 v) (m1 b)) as [o2|] eqn:Eo2; cbn [bind n0 n1 n2]; [|reflexivity].
  rewrite !Nat.eqb_refl. cbn [andb].
  destruct (Nat.eqb o (n1 v) && Nat.eqb o2 (n2 v)) eqn:Es; cbn; [|reflexivity].
  repeat split; cbn; auto. intros n i k [Hn [Hi Hk]]. cbn in Hn, Hi, Hk. rewrite !bidx_same. f_equal.
  apply F. unfold in_range. rewrite C. repeat split; eauto using bidx_left.
Qed.

(** Follow the statements of a right-hand side. *)
Lemma one_picked q x y (s t : states) : R3 x y -> RS s t -> RS ((q, x) :: s) ((q, y) :: t).
Proof. intros. constructor; auto. Qed.
Lemma nil_picked : RS [] []. Proof. constructor. Qed.

(** ** Initial data *)
Lemma repeat_picked f x y : R3 x y -> R3 (repeat_features f x) (repeat_features f y).
Proof.
  intros [A [C [D [E F]]]]. repeat split; cbn; try congruence. rewrite E. intros n i k [Hn [Hi Hk]]. cbn in Hn, Hi, Hk.
  apply F. repeat split; auto. apply Nat.mod_upper_bound. intros K. rewrite K in Hk. cbn in Hk. lia.
Qed.
Lemma updown_data_picked nl f mode x y : R3 x y -> both RS (updown_data nl f mode x) (updown_data nl f mode y).
Proof.
  intros H. unfold updown_data. apply both_bind with (S := R3).
  - destruct mode as [|q20|l|l1 l2].
    + cbn [both]. apply repeat_picked, zeros_picked, H.
    + destruct H as [A [C [D [E F]]]]. cbn. repeat split; cbn; auto.
    + apply forward_picked, H.
    + eapply both_bind; [apply forward_picked, H|]. intros. apply forward_picked, map3_picked. auto.
  - intros u v Huv. cbn [both]. auto using one_picked, nil_picked.
Qed.
Lemma second_order_data_picked x y : R3 x y -> RS (second_order_data x) (second_order_data y).
Proof. intros. unfold second_order_data. auto using one_picked, nil_picked, zeros_picked. Qed.
Lemma simple_data_picked x y : R3 x y -> RS (simple_data x) (simple_data y).
Proof. intros. unfold simple_data. auto using one_picked, nil_picked. Qed.
Lemma symmetrized_data_picked f x y : R3 x y -> RS (symmetrized_data f x) (symmetrized_data f y).
Proof. intros. unfold symmetrized_data. auto 6 using one_picked, nil_picked, repeat_picked. Qed.
Lemma dampened_data_picked f x y : R3 x y -> RS (dampened_data f x) (dampened_data f y).
Proof.
  intros H. unfold dampened_data. repeat apply one_picked; auto using nil_picked, repeat_picked, zeros_picked;
  destruct H as [A [C _]]; repeat split; cbn; auto.
Qed.
End Pick.

Ltac follow :=
  repeat first
  [ eapply both_bind; [first [apply item_picked; eassumption
                             | apply forward_picked; repeat (first [eassumption | apply map3_picked])
                             | apply zip3_picked; repeat (first [eassumption | apply map3_picked]) ] | intros ? ? ?]
  | apply both_same; intros ? ];
  cbn [both]; repeat first [apply one_picked; [first [eassumption | apply zeros_picked; eassumption]|] | apply nil_picked].

Ltac samples := intros B B' pick x y th Hp H.
Section Models.
Variable nl : R -> R.
Lemma updown_samplewise : samplewise (updown_rhs nl).
Proof. samples. unfold updown_rhs. follow. Qed.
Lemma universal_samplewise : samplewise (universal_rhs nl).
Proof. samples. unfold universal_rhs. follow. Qed.
Lemma general_samplewise : samplewise (general_rhs nl).
Proof. samples. unfold general_rhs. follow. Qed.
Lemma simple_samplewise : samplewise (simple_rhs nl).
Proof. samples. unfold simple_rhs. follow. Qed.
Lemma debug_samplewise : samplewise (debug_rhs nl).
Proof. samples. unfold debug_rhs. follow. Qed.
Lemma second_order_samplewise : samplewise (second_order_rhs nl).
Proof. samples. unfold second_order_rhs, updown_rhs. follow. Qed.
Lemma ot_samplewise : samplewise (ot_rhs nl).
Proof. samples. unfold ot_rhs, updown_rhs. follow. Qed.
Lemma dampened_q2_samplewise : samplewise (dampened_q2_rhs nl).
Proof. samples. unfold dampened_q2_rhs. follow. Qed.
Lemma symmetrized_samplewise : samplewise (symmetrized_rhs nl).
Proof. samples. unfold symmetrized_rhs. follow. Qed.
Lemma periodic_samplewise : samplewise (periodic_rhs nl).
Proof. samples. unfold periodic_rhs. follow. Qed.
Lemma dampened_samplewise : samplewise (dampened_rhs nl).
Proof. samples. unfold dampened_rhs. follow. Qed.
End Models.

(** ** Whole integrations *)
Section Flow.
Variable rhs : states -> pars -> result states.
Variable parameters : R -> states -> states -> result pars.
Variable costate : R -> states -> states -> pars -> result states.
Hypothesis Hrhs : samplewise rhs.
Variables (B B' : nat) (pick : nat -> nat).
Hypothesis Hpick : forall n, (n < B')%nat -> (pick n < B)%nat.
Notation RS := (picked B B' pick).

(** Same particles, picked data. *)
Definition system_picked (x y : system) : Prop :=
  sys_state x = sys_state y /\ sys_costate x = sys_costate y /\ RS (sys_data x) (sys_data y).

Lemma agree_picked x y u v : picked3 B B' pick x y -> picked3 B B' pick u v -> shapes_agree x u = shapes_agree y v.
Proof. intros [A [C [D [E F]]]] [A' [C' [D' [E' F']]]]. unfold shapes_agree. rewrite A, A', C, C', D, D', E, E', !Nat.eqb_refl. reflexivity. Qed.

Lemma in_place_picked s t : RS s t -> forall r u, RS r u -> both RS (in_place_of s r) (in_place_of t u).
Proof.
  induction 1 as [|[q x] [q' y] s t [E H] Hs IH]; intros r u Hr; inversion Hr as [|[o z] [o' w] r' u' [E' H'] Hr']; subst; cbn; auto.
  cbn in E, H, E', H'. subst. rewrite (agree_picked _ _ _ _ H H'). destruct (shapes_agree y w); cbn; auto.
  eapply both_bind; [apply IH; auto|]. intros a b Hab. cbn. constructor; auto.
Qed.

Lemma axpy_picked a s t : RS s t -> forall r u, RS r u -> both RS (axpy a s r) (axpy a t u).
Proof.
  induction 1 as [|[q x] [q' y] s t [E H] Hs IH]; intros r u Hr; inversion Hr as [|[o z] [o' w] r' u' [E' H'] Hr']; subst; cbn; auto.
  cbn in E, H, E', H'. subst. rewrite (agree_picked _ _ _ _ H H'). destruct (shapes_agree y w) eqn:Ea; cbn; auto.
  eapply both_bind; [apply IH; auto|]. intros l l' Hl. cbn. constructor; auto. split; auto. cbn [snd].
  unfold shapes_agree in Ea. apply andb_prop in Ea. destruct Ea as [Ea1 Ea2]. apply andb_prop in Ea1. destruct Ea1 as [Ea0 Ea1].
  apply Nat.eqb_eq in Ea0, Ea1, Ea2.
  destruct H as [A [C [D [F G]]]], H' as [A' [C' [D' [F' G']]]]. repeat split; cbn; auto.
  intros n i k [Hn [Hi Hk]]. cbn in Hn, Hi, Hk. rewrite G, G'; auto; repeat split; congruence.
Qed.

Lemma scale_picked a s t : RS s t -> RS (scale a s) (scale a t).
Proof. induction 1 as [|[q x] [q' y] s t [E H] Hs IH]; cbn; constructor; auto. split; auto. cbn [snd]. apply map3_picked, H. Qed.

Lemma field_picked t x y : system_picked x y -> both system_picked (field rhs parameters costate t x) (field rhs parameters costate t y).
Proof.
  intros [Es [Ec Hd]]. unfold field. rewrite Es, Ec.
  apply both_same. intros th. apply both_same. intros ds.
  eapply both_bind; [apply Hrhs; eauto|]. intros dx dx' Hx.
  apply both_same. intros dp. apply both_same. intros ds'. apply both_same. intros dp'.
  eapply both_bind; [apply in_place_picked; eauto|]. intros. cbn. repeat split; auto.
Qed.

Lemma fetch_picked e e' j : Forall2 system_picked e e' -> both system_picked (fetch e j) (fetch e' j).
Proof.
  intros H. revert j. unfold fetch. induction H as [|x y e e' Hx He IH]; intros [|j]; cbn; auto.
Qed.

Lemma sys_axpy_picked a x y u v : system_picked x y -> system_picked u v -> both system_picked (sys_axpy a x u) (sys_axpy a y v).
Proof.
  intros [Es [Ec Hd]] [Es' [Ec' Hd']]. unfold sys_axpy. rewrite Es, Ec, Es', Ec'. apply both_same. intros s. apply both_same. intros c.
  eapply both_bind; [apply axpy_picked; eauto|]. intros. cbn. repeat split; auto.
Qed.

Lemma step_picked e e' i : Forall2 system_picked e e' -> both (Forall2 system_picked) (step rhs parameters costate e i) (step rhs parameters costate e' i).
Proof.
  intros He. destruct i as [t j|[a j] others]; cbn [step].
  - eapply both_bind; [apply fetch_picked, He|]. intros x y H. eapply both_bind; [apply field_picked, H|]. intros. cbn. apply Forall2_app; auto.
  - eapply both_bind; [apply fetch_picked, He|]. intros x y H. apply both_bind with (S := system_picked).
    + assert (H0 : system_picked (sys_scale a x) (sys_scale a y)).
      { destruct H as [Es [Ec Hd]]. unfold sys_scale. rewrite Es, Ec. repeat split. apply scale_picked, Hd. }
      clear H. revert H0. generalize (sys_scale a x) (sys_scale a y). induction others as [|[b k] others IH]; intros u v Huv; cbn; auto.
      eapply both_bind; [|intros ? ? H; apply IH, H].
      eapply both_bind; [apply fetch_picked, He|]. intros. apply sys_axpy_picked; auto.
    + intros. cbn. apply Forall2_app; auto.
Qed.

Lemma steps_picked prog : forall e e', Forall2 system_picked e e' ->
  both (Forall2 system_picked) (foldM (step rhs parameters costate) prog e) (foldM (step rhs parameters costate) prog e').
Proof.
  induction prog as [|i prog IH]; intros e e' H; cbn; auto. eapply both_bind; [apply step_picked, H|]. intros. apply IH. auto.
Qed.

Lemma run_picked prog s c x y : RS x y ->
  both (Forall2 system_picked) (run rhs parameters costate prog (mkSystem s c x)) (run rhs parameters costate prog (mkSystem s c y)).
Proof. intros H. apply steps_picked. constructor; [|constructor]. repeat split. exact H. Qed.
End Flow.

Lemma sample_picked B m x : batch_of B x -> (m < B)%nat -> picked B 1 (fun _ => m) x (sample m x).
Proof.
  intros H Hm. unfold sample. induction H as [|[q u] x E H IH]; cbn; constructor; auto. cbn. split; auto. repeat split; cbn; auto.
Qed.

Lemma picked_same_sample B B' pick x y n : picked B B' pick x y -> (n < B')%nat -> same_sample (pick n) n x y.
Proof.
  intros H Hn. induction H as [|[q u] [q' v] x y [E [A [C [D [F G]]]]] H IH]; constructor; auto. cbn in *. repeat split; auto.
  intros i k Hi Hk. symmetry. apply G. repeat split; try congruence; lia.
Qed.

(** Two batches with a common sample. *)
Lemma run_common rhs parameters costate prog s c B1 B2 m n x y env1 env2 :
  samplewise rhs -> batch_of B1 x -> batch_of B2 y -> (m < B1)%nat -> (n < B2)%nat -> same_sample m n x y ->
  run rhs parameters costate prog (mkSystem s c x) = Ok env1 -> run rhs parameters costate prog (mkSystem s c y) = Ok env2 ->
  Forall2 (fun u v => sys_state u = sys_state v /\ sys_costate u = sys_costate v /\ same_sample m n (sys_data u) (sys_data v)) env1 env2.
Proof.
  intros Hr Hx Hy Hm Hn Hs E1 E2.
  pose proof (run_picked rhs parameters costate Hr B1 1 (fun _ => m) ltac:(auto) prog s c x (sample m x) (sample_picked _ _ _ Hx Hm)) as P1.
  assert (H2 : picked B2 1 (fun _ => n) y (sample m x)).
  { clear - Hs Hy Hn. revert Hy. induction Hs as [|[q u] [q' v] x y [E [A [C D]]] H IH]; intros Hy; cbn; [constructor|]. inversion Hy as [|? ? Y0 Hy']; subst.
    constructor; [|apply IH; assumption].
    cbn in *. split; auto. repeat split; cbn; auto. intros k i j [Hk [Hi Hj]]. apply D; auto. }
  pose proof (run_picked rhs parameters costate Hr B2 1 (fun _ => n) ltac:(auto) prog s c y (sample m x) H2) as P2.
  rewrite E1 in P1. rewrite E2 in P2. destruct (run rhs parameters costate prog (mkSystem s c (sample m x))) as [env|]; [|contradiction].
  cbn [both] in P1, P2. clear - P1 P2. revert env2 P2. induction P1 as [|u w env1 env [A [C D]] P1 IH]; intros env2 P2; inversion P2 as [|v w' env2' env' [A' [C' D']] P2']; subst; constructor; auto.
  split; [congruence|]. split; [congruence|].
  apply picked_same_sample with (n := 0%nat) in D; [|lia]. apply picked_same_sample with (n := 0%nat) in D'; [|lia].
  clear - D D'. revert D'. generalize (sys_data v). induction D as [|[q a] [q' b] x y [E [F [G H]]] D IH]; intros z D'; inversion D' as [|[q2 a2] z0 z' y' [E' [F' [G' H']]] D'']; subst; [constructor|]; constructor; [|apply IH; assumption].
  cbn in *. repeat split; try congruence. intros i k Hi Hk. rewrite H, H' by congruence. reflexivity.
Qed.

(** A batch and one of its samples alone. *)
Lemma run_alone rhs parameters costate prog s c B m x :
  samplewise rhs -> batch_of B x -> (m < B)%nat ->
  both (Forall2 (fun u v => sys_state u = sys_state v /\ sys_costate u = sys_costate v /\ same_sample m 0 (sys_data u) (sys_data v)))
    (run rhs parameters costate prog (mkSystem s c x)) (run rhs parameters costate prog (mkSystem s c (sample m x))).
Proof.
  intros Hr Hx Hm.
  pose proof (run_picked rhs parameters costate Hr B 1 (fun _ => m) ltac:(auto) prog s c x (sample m x) (sample_picked _ _ _ Hx Hm)) as P.
  destruct (run rhs parameters costate prog (mkSystem s c x)), (run rhs parameters costate prog (mkSystem s c (sample m x))); cbn in *; auto.
  induction P as [|u v ? ? [A [C D]] P IH]; constructor; auto. repeat split; auto.
  exact (picked_same_sample B 1 (fun _ => m) _ _ 0%nat D (Nat.lt_0_succ 0)).
Qed.

Lemma all_samplewise nl :
  samplewise (updown_rhs nl) /\ samplewise (universal_rhs nl) /\ samplewise (general_rhs nl) /\ samplewise (simple_rhs nl)
  /\ samplewise (debug_rhs nl) /\ samplewise (second_order_rhs nl) /\ samplewise (ot_rhs nl) /\ samplewise (dampened_q2_rhs nl)
  /\ samplewise (symmetrized_rhs nl) /\ samplewise (periodic_rhs nl) /\ samplewise (dampened_rhs nl).
Proof.
  repeat split; auto using updown_samplewise, universal_samplewise, general_samplewise, simple_samplewise, debug_samplewise,
    second_order_samplewise, ot_samplewise, dampened_q2_samplewise, symmetrized_samplewise, periodic_samplewise, dampened_samplewise.
Qed.

Lemma all_data_picked nl f mode B B' pick x y : picked3 B B' pick x y ->
  (forall n, (n < B')%nat -> (pick n < B)%nat) ->
  both (picked B B' pick) (updown_data nl f mode x) (updown_data nl f mode y)
  /\ picked B B' pick (second_order_data x) (second_order_data y)
  /\ picked B B' pick (simple_data x) (simple_data y)
  /\ picked B B' pick (symmetrized_data f x) (symmetrized_data f y)
  /\ picked B B' pick (dampened_data f x) (dampened_data f y).
Proof.
  intros H Hp. repeat split; auto using updown_data_picked, second_order_data_picked, simple_data_picked, symmetrized_data_picked, dampened_data_picked.
Qed.

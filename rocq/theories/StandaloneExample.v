(** Example runs of the standalone script. *)
From Coq Require Import List String Reals Arith Lia Lra Bool ZArith.
From Verif Require Import Base BaseFacts Tensor RealSum VecNet VecModel VecSpec VecProofs VecProofs2 VecProofs3 VecProofs4 VecProofs5
  ActivationModel StandaloneModel StandaloneSpec StandaloneProofs StandaloneProofs2 StandaloneProofs3 StandaloneProofs4 StandaloneProofs5.
Import ListNotations.
Open Scope string_scope.
Open Scope R_scope.

(** ** One particle with one feature *)
Section Scalar.
Variables nl dnl : R -> R.

Lemma scalar_rhs X F : standalone_states 1 1 1 1 X -> compute_rhs nl dnl X = Ok F ->
  let p1 := first_entry "p1" X in let p2 := first_entry "p2" X in
  let q1 := first_entry "q1" X in let q2 := first_entry "q2" X in
  standalone_states 1 1 1 1 F
  /\ first_entry "p1" F = - (p2 * (p2 * q1)) /\ first_entry "p2" F = - dnl q2 * (p1 * (nl q2 * p1))
  /\ first_entry "q1" F = nl q2 * (nl q2 * p1) + p1 /\ first_entry "q2" F = q1 * (p2 * q1) + p2.
Proof.
  intros HX EF. destruct (rhs_shape nl dnl 1 1 1 1 X HX) as [F0 [EF0 HF]]. rewrite EF in EF0. injection EF0 as <-.
  destruct HX as [p1 [p2 [q1 [q2 [-> [S1 [S2 [S3 S4]]]]]]]].
  destruct (rhs_is nl dnl 1 1 1 1 _ _ _ _ _ _ _ _ (own3 _ _ _ _ S1) (own3 _ _ _ _ S2) (own3 _ _ _ _ S3) (own3 _ _ _ _ S4))
    as [r1 [r2 [r3 [r4 [Er [I1 [I2 [I3 I4]]]]]]]].
  rewrite Er in EF. injection EF as <-. cbn. split; [exact HF|].
  rewrite (proj2 I1), (proj2 I2), (proj2 I3), (proj2 I4) by lia. unfold dp1, dp2, dq1, dq2, L1, L2, B1, B2. cbn.
  repeat split; field.
Qed.

Lemma scalar_moved (h : R) F X Y : standalone_states 1 1 1 1 X -> standalone_states 1 1 1 1 F -> standalone_states 1 1 1 1 Y ->
  moved_along h F X Y -> forall name, In name ["p1"; "p2"; "q1"; "q2"] ->
  first_entry name Y = first_entry name X + h * first_entry name F.
Proof.
  intros [p1 [p2 [q1 [q2 [-> [S1 [S2 [S3 S4]]]]]]]] [f1 [f2 [f3 [f4 [-> [T1 [T2 [T3 T4]]]]]]]]
    [y1 [y2 [y3 [y4 [-> [U1 [U2 [U3 U4]]]]]]]] [_ H] name Hn.
  assert (Hr : forall x, of_shape 1 1 1 x -> in_range x 0 0 0) by (intros x [A [B C]]; unfold in_range; lia).
  destruct Hn as [<-|[<-|[<-|[<-|[]]]]].
  - apply (H 0%nat "p1" p1 f1 y1); auto; cbn; auto.
  - apply (H 1%nat "p2" p2 f2 y2); auto; cbn; auto.
  - apply (H 2%nat "q1" q1 f3 y3); auto; cbn; auto.
  - apply (H 3%nat "q2" q2 f4 y4); auto; cbn; auto.
Qed.

Lemma scalar_energy X v : standalone_states 1 1 1 1 X -> compute_energy nl X = Ok v ->
  let p1 := first_entry "p1" X in let p2 := first_entry "p2" X in
  let q1 := first_entry "q1" X in let q2 := first_entry "q2" X in
  v = 1 / 2 * ((p2 * q1) ^ 2 + (nl q2 * p1) ^ 2 + p2 ^ 2 + p1 ^ 2).
Proof.
  intros [p1 [p2 [q1 [q2 [-> [S1 [S2 [S3 S4]]]]]]]] E.
  rewrite (energy_is nl 1 1 1 1 _ _ _ _ _ _ _ _ (own3 _ _ _ _ S1) (own3 _ _ _ _ S2) (own3 _ _ _ _ S3) (own3 _ _ _ _ S4)) in E.
  apply ok_val in E. rewrite <- E. unfold EE, L1, L2, B1, B2. cbn. field.
Qed.

End Scalar.

Lemma moved_keeps N D d e h F X Y : standalone_states N D d e X -> moved_along h F X Y -> standalone_states N D d e Y.
Proof.
  intros [p1 [p2 [q1 [q2 [-> [S1 [S2 [S3 S4]]]]]]]] [H _].
  inversion H as [|? [? y1] ? ? [E1 [A1 [A2 A3]]] H1]; subst. inversion H1 as [|? [? y2] ? ? [E2 [C1 [C2 C3]]] H2]; subst.
  inversion H2 as [|? [? y3] ? ? [E3 [D1 [D2 D3]]] H3]; subst. inversion H3 as [|? [? y4] ? ? [E4 [G1 [G2 G3]]] H4]; subst.
  inversion H4; subst. cbn [fst snd] in *. subst. unfold of_shape in *.
  exists y1, y2, y3, y4. split; [reflexivity|]. unfold of_shape. intuition congruence.
Qed.

Definition c1 (x : R) : t3 := mkT3 1 1 1 (fun _ _ _ => x).
Definition oscillator : sdict t3 := four (c1 1) (c1 1) (c1 0) (c1 (-10)).
Lemma oscillator_shape : standalone_states 1 1 1 1 oscillator.
Proof. do 4 eexists. split; [reflexivity|]. repeat split. Qed.

Lemma one_step n : INR n <= 1 / 1 < INR n + 1 -> n = 1%nat.
Proof.
  intros [H1 H2]. replace (1 / 1) with 1 in * by field. apply INR_eq. change (INR 1) with 1.
  assert (INR n <= INR 1) by (cbn; lra). apply INR_le in H. assert (INR 0 < INR n) by (cbn; lra). apply INR_lt in H0.
  replace n with 1%nat by lia. reflexivity.
Qed.

Lemma relu_neg x : x < 0 -> relu x = 0. Proof. intros. unfold relu. apply Rmax_left. lra. Qed.
Lemma drelu_neg x : x < 0 -> drelu x = 0. Proof. intros. unfold drelu. destruct (Rle_dec 0 x); lra. Qed.

(** The recorded energy differs from the initial one. *)
Lemma energy_drifts : exists res v v0,
  advect relu drelu 1 oscillator = Ok res /\ sd_item "energy" (snd res) = Ok [v]
  /\ compute_energy relu oscillator = Ok v0 /\ v <> v0.
Proof.
  destruct (advect_is relu drelu 1 1 1 1 oscillator 1 ltac:(lia) ltac:(lia) ltac:(lia) ltac:(lia) oscillator_shape Rlt_0_1)
    as [n [X [E [res [Hn [X0 [Hm [HE [Ea [_ [Een _]]]]]]]]]]].
  apply one_step in Hn. subst n. exists (X 1%nat, res), (E 1%nat), (E 0%nat).
  split; [exact Ea|]. split; [exact Een|]. rewrite <- X0. split; [apply HE|].
  destruct (Hm 0%nat ltac:(lia)) as [F [M [F' [EF [MM [EF' MY]]]]]].
  pose proof oscillator_shape as HX. rewrite <- X0 in HX.
  pose proof (moved_keeps _ _ _ _ _ _ _ _ HX MM) as HM. pose proof (moved_keeps _ _ _ _ _ _ _ _ HX MY) as HY.
  destruct (scalar_rhs relu drelu _ _ HX EF) as [HF [f1 [f2 [f3 f4]]]].
  destruct (scalar_rhs relu drelu _ _ HM EF') as [HF' [g1 [g2 [g3 g4]]]].
  pose proof (scalar_moved _ _ _ _ HX HF HM MM) as SM. pose proof (scalar_moved _ _ _ _ HX HF' HY MY) as SY.
  pose proof (scalar_energy relu _ _ HX (proj1 (HE 0%nat))) as V0. pose proof (scalar_energy relu _ _ HY (proj1 (HE 1%nat))) as V1.
  cbn beta zeta in V0, V1.
  assert (A1 : first_entry "p1" (X 0%nat) = 1) by (rewrite X0; reflexivity).
  assert (A2 : first_entry "p2" (X 0%nat) = 1) by (rewrite X0; reflexivity).
  assert (A3 : first_entry "q1" (X 0%nat) = 0) by (rewrite X0; reflexivity).
  assert (A4 : first_entry "q2" (X 0%nat) = -10) by (rewrite X0; reflexivity).
  rewrite A1, A2, A3, A4, (relu_neg (-10)), ?(drelu_neg (-10)) in * by lra.
  pose proof (SM "p1" ltac:(cbn; auto)) as M1. pose proof (SM "p2" ltac:(cbn; auto)) as M2.
  pose proof (SM "q1" ltac:(cbn; auto)) as M3. pose proof (SM "q2" ltac:(cbn; auto)) as M4.
  rewrite A1, f1 in M1. rewrite A2, f2 in M2. rewrite A3, f3 in M3. rewrite A4, f4 in M4. clear SM.
  assert (M1' : first_entry "p1" M = 1) by (rewrite M1; field).
  assert (M2' : first_entry "p2" M = 1) by (rewrite M2; field).
  assert (M3' : first_entry "q1" M = 1 / 2) by (rewrite M3; field).
  assert (M4' : first_entry "q2" M = - 19 / 2) by (rewrite M4; field).
  rewrite M1', M2', M3', M4', (relu_neg (-19 / 2)), ?(drelu_neg (-19 / 2)) in * by lra.
  pose proof (SY "p1" ltac:(cbn; auto)) as Y1. pose proof (SY "p2" ltac:(cbn; auto)) as Y2.
  pose proof (SY "q1" ltac:(cbn; auto)) as Y3. pose proof (SY "q2" ltac:(cbn; auto)) as Y4.
  rewrite A1, g1 in Y1. rewrite A2, g2 in Y2. rewrite A3, g3 in Y3. rewrite A4, g4 in Y4.
  assert (Y1' : first_entry "p1" (X 1%nat) = 1 / 2) by (rewrite Y1; field).
  assert (Y2' : first_entry "p2" (X 1%nat) = 1) by (rewrite Y2; field).
  assert (Y3' : first_entry "q1" (X 1%nat) = 1) by (rewrite Y3; field).
  assert (Y4' : first_entry "q2" (X 1%nat) = - 35 / 4) by (rewrite Y4; field).
  rewrite Y1', Y2', Y3', Y4', (relu_neg (-35 / 4)) in V1 by lra. rewrite V0, V1. lra.
Qed.

(** Three halves of a step of two thirds are cut to one. *)
Lemma stops_early : exists n, number_of_steps (2 / 3) = Ok n /\ INR n * (2 / 3) <> 1.
Proof.
  destruct (steps_positive (2 / 3) ltac:(lra)) as [n [E [H1 H2]]]. exists n. split; [exact E|].
  intros H. assert (INR n = 3 / 2) by lra. assert (H3 : INR n <= INR 1 \/ INR 2 <= INR n).
  { destruct (le_lt_dec n 1); [left|right]; apply le_INR; lia. }
  cbn in H3. lra.
Qed.

(** A positive state where relu is differentiable. *)
Definition lively : sdict t3 := four (c1 1) (c1 2) (c1 3) (c1 4).
Lemma lively_shape : standalone_states 1 1 1 1 lively.
Proof. do 4 eexists. split; [reflexivity|]. repeat split. Qed.

Lemma relu_derivative_pos x : 0 < x -> derivable_pt_lim relu x (drelu x).
Proof.
  intros Hx. unfold drelu. destruct (Rle_dec 0 x); [|lra]. intros eps Heps. exists (mkposreal x Hx). intros h Hh Hlt. cbn in Hlt.
  apply Rabs_def2 in Hlt. unfold relu. rewrite !Rmax_right by lra. replace ((x + h - x) / h - 1) with 0 by (field; auto). rewrite Rabs_R0. exact Heps.
Qed.

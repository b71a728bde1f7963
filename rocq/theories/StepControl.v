(** An integrator with step size control, as dopri5 of torchdiffeq (external) has it: the error is
    measured over all entries of the vector, data included.  Simplified to one step of size 1: the
    results of Euler's and Heun's methods are compared; if their squared distance is at most [tol], Heun's
    result is taken, otherwise two steps of half the size are made. *)
From Coq Require Import List String Bool Reals Arith Lia Lra.
From Verif Require Import Base Tensor RealSum VecModel VecSpec VecFlow VecProofs7 AnalyticFlowSpec.
Import ListNotations.
Open Scope string_scope.
Open Scope list_scope.
Open Scope R_scope.

(** Squared distance of two vectors (of the same sizes). *)
Definition distance3 (x y : t3) : R :=
  rsum (Nat.min (n0 x) (n0 y)) (fun n => rsum (Nat.min (n1 x) (n1 y)) (fun i => rsum (Nat.min (n2 x) (n2 y)) (fun k => (v3 x n i k - v3 y n i k) ^ 2))).
Fixpoint distance (x y : states) : R :=
  match x, y with
  | (_, u) :: x, (_, v) :: y => distance3 u v + distance x y
  | _, _ => 0
  end.
Definition system_distance (x y : system) : R :=
  distance (sys_state x) (sys_state y) + distance (sys_costate x) (sys_costate y) + distance (sys_data x) (sys_data y).

Definition small_error (tol : R) (env : list system) : bool :=
  match nth_error env 2, nth_error env 4 with
  | Some euler, Some heun => if Rle_dec (system_distance euler heun) tol then true else false
  | _, _ => false
  end.

Definition step_control (tol : R) : integrator := fun env =>
  match List.length env with
  | 1%nat => Some (Rhs 0 0)
  | 2%nat => Some (Combine (1, 0%nat) [(1, 1%nat)])
  | 3%nat => Some (Rhs 1 2)
  | 4%nat => Some (Combine (1, 0%nat) [(1 / 2, 1%nat); (1 / 2, 3%nat)])
  | 5%nat => if small_error tol env then None else Some (Combine (1, 0%nat) [(1 / 2, 1%nat)])
  | 6%nat => Some (Rhs (1 / 2) 5)
  | 7%nat => Some (Combine (1, 5%nat) [(1 / 2, 6%nat)])
  | _ => None
  end.

Lemma distance_same x : forall x' y y', same_entries x x' -> same_entries y y' -> distance x y = distance x' y'.
Proof.
  induction x as [|[q u] x IH]; intros x' y y' Hx Hy; inversion Hx as [|? [q' u'] ? x0 [_ [[A [B C]] E]] Hx']; subst; [reflexivity|].
  inversion Hy as [|[o v] [o' v'] y0 y1 [_ [[A' [B' C']] F]] Hy']; subst; [reflexivity|].
  cbn [distance fst snd] in *. rewrite (IH x0 y0 y1) by auto. f_equal. unfold distance3. rewrite <- A, <- B, <- C, <- A', <- B', <- C'.
  apply rsum_ext; intros n Hn. apply rsum_ext; intros i Hi. apply rsum_ext; intros k Hk. rewrite E, F; auto; repeat split; lia.
Qed.

Lemma step_control_entries tol : looks_at_entries (step_control tol).
Proof.
  intros e e' H. unfold step_control.
  assert (L : List.length e = List.length e') by (induction H; cbn; auto). rewrite <- L.
  destruct (List.length e) as [|[|[|[|[|[|n]]]]]] eqn:El; try reflexivity.
  replace (small_error tol e') with (small_error tol e); [reflexivity|]. clear L El.
  unfold small_error.
  assert (N : forall k, match nth_error e k, nth_error e' k with Some x, Some y => same_system x y | None, None => True | _, _ => False end).
  { induction H as [|x y e e' Hxy H IH]; intros [|k]; cbn; [exact I|exact I|exact Hxy|exact (IH k)]. }
  pose proof (N 2%nat) as N2. pose proof (N 4%nat) as N4.
  destruct (nth_error e 2) as [x|], (nth_error e' 2) as [x'|]; try contradiction; auto.
  destruct (nth_error e 4) as [y|], (nth_error e' 4) as [y'|]; try contradiction; auto.
  destruct N2 as [A1 [A2 A3]], N4 as [B1 [B2 B3]]. unfold system_distance.
  rewrite (distance_same _ _ _ _ A1 B1), (distance_same _ _ _ _ A2 B2), (distance_same _ _ _ _ A3 B3). reflexivity.
Qed.

(** One particle; a sample alone and together with a second, larger one. *)
Definition sc_state : states := [("q1", col 1 1 (fun _ => 1)); ("q2", col 1 1 (fun _ => 0))].
Definition sc_costate : states := [("p_q1", col 1 1 (fun _ => 0)); ("p_q2", col 1 1 (fun _ => 1))].
Definition sc_alone : states := [("q1", mkT3 1 1 1 (fun _ _ _ => 0)); ("q2", mkT3 1 1 1 (fun _ _ _ => 0))].
Definition sc_together : states := [("q1", mkT3 2 1 1 (fun n _ _ => match n with O => 0 | _ => 100 end)); ("q2", mkT3 2 1 1 (fun _ _ _ => 0))].

Ltac evalStep := lazy -[Rplus Rmult Rdiv Rinv Rminus Ropp INR IZR rsum]; reflexivity.

Notation sc_step := (step (updown_rhs idf) (fun _ => updown_parameters idf init0 1 1 None) (fun _ => updown_costate onef)).

(** The instructions of the integrator before and after the decision. *)
Definition attempt : list instr :=
  [Rhs 0 0; Combine (1, 0%nat) [(1, 1%nat)]; Rhs 1 2; Combine (1, 0%nat) [(1 / 2, 1%nat); (1 / 2, 3%nat)]].
Definition halves : list instr :=
  [Combine (1, 0%nat) [(1 / 2, 1%nat)]; Rhs (1 / 2) 5; Combine (1, 5%nat) [(1 / 2, 6%nat)]].

Lemma step_length rhs par cos env i env' : step rhs par cos env i = Ok env' -> List.length env' = S (List.length env).
Proof.
  destruct i as [t j|[a j] l]; cbn [step]; destruct (fetch env j) as [z|]; cbn [bind]; try discriminate.
  - destruct (field _ _ _ t z) as [z'|]; cbn [bind]; try discriminate. intros H. injection H as <-. rewrite app_length. cbn. lia.
  - destruct (foldM _ l _) as [z'|]; cbn [bind]; try discriminate. intros H. injection H as <-. rewrite app_length. cbn. lia.
Qed.

Lemma follow rhs par cos next prog : forall n env env', foldM (step rhs par cos) prog env = Ok env' ->
  (forall k i e, nth_error prog k = Some i -> List.length e = (List.length env + k)%nat -> (k = O -> e = env) -> next e = Some i) ->
  integrate rhs par cos next (List.length prog + n) env = integrate rhs par cos next n env'.
Proof.
  induction prog as [|i prog IH]; intros n env env' H Hn; cbn [foldM List.length Nat.add] in *.
  - injection H as <-. reflexivity.
  - cbn [integrate]. rewrite (Hn O i env eq_refl) by (auto; lia). destruct (step rhs par cos env i) as [e|] eqn:Es; cbn [bind] in *; [|discriminate].
    apply IH; auto. intros k i' e' Hk Hl _. apply (Hn (S k) i' e' Hk); [|discriminate]. rewrite (step_length _ _ _ _ _ _ Es) in Hl. lia.
Qed.

(** The up-down model with hand-written equations (identity as nonlinearity), at most 20 instructions. *)
Definition updown_integrate (next : integrator) (start : system) : result (list system) :=
  integrate (updown_rhs idf) (fun _ => updown_parameters idf init0 1 1 None) (fun _ => updown_costate onef) next 20 [start].

Definition sc_run (x : states) : result (list system) := updown_integrate (step_control 100) (mkSystem sc_state sc_costate x).

Lemma sc_alone_values : exists f0 y1 f1 y2 a b,
  let e0 := mkSystem sc_state sc_costate sc_alone in
  foldM sc_step attempt [e0] = Ok [e0; f0; y1; f1; y2] /\ system_distance y1 y2 <= 100
  /\ sys_data y2 = [("q1", a); ("q2", b)] /\ n1 a = 1%nat /\ n2 a = 1%nat /\ v3 a 0 0 0 = - 3 / 2.
Proof.
  do 6 eexists. cbv zeta. split; [evalStep|]. split; [|split; [reflexivity|split; [reflexivity|split; [reflexivity|cbn; lra]]]].
  unfold system_distance. cbn. unfold Rdiv. rewrite ?Rinv_1. match goal with |- ?g <= _ => ring_simplify g end. lra.
Qed.

Lemma sc_together_values : exists f0 y1 f1 y2 h g z a b,
  let e0 := mkSystem sc_state sc_costate sc_together in
  foldM sc_step attempt [e0] = Ok [e0; f0; y1; f1; y2] /\ 100 < system_distance y1 y2
  /\ foldM sc_step halves [e0; f0; y1; f1; y2] = Ok [e0; f0; y1; f1; y2; h; g; z]
  /\ sys_data z = [("q1", a); ("q2", b)] /\ v3 a 0 0 0 = - 3 / 8.
Proof.
  do 9 eexists. cbv zeta. split; [evalStep|]. split; [|split; [evalStep|split; [reflexivity|cbn; lra]]].
  unfold system_distance. cbn. unfold Rdiv. rewrite ?Rinv_1. match goal with |- _ < ?g => ring_simplify g end. lra.
Qed.

Lemma attempt_next k i e : nth_error attempt k = Some i -> List.length e = (1 + k)%nat -> step_control 100 e = Some i.
Proof. intros Hk Hl. unfold step_control. rewrite Hl. do 4 (destruct k; [cbn in Hk |- *; exact Hk|]). destruct k; discriminate Hk. Qed.

Lemma sc_alone_result : exists env d a b, sc_run sc_alone = Ok env /\ List.length env = 5%nat /\ nth_error env 4 = Some d
  /\ sys_data d = [("q1", a); ("q2", b)] /\ n1 a = 1%nat /\ n2 a = 1%nat /\ v3 a 0 0 0 = - 3 / 2.
Proof.
  destruct sc_alone_values as [f0 [y1 [f1 [y2 [a [b [E [S [D [N1 [N2 V]]]]]]]]]]].
  exists [mkSystem sc_state sc_costate sc_alone; f0; y1; f1; y2], y2, a, b. repeat split; auto.
  unfold sc_run, updown_integrate. change 20%nat with (List.length attempt + 16)%nat. rewrite (follow _ _ _ _ attempt 16 _ _ E).
  - cbn [integrate]. unfold step_control. cbn [List.length small_error nth_error]. unfold small_error. cbn [nth_error].
    destruct (Rle_dec (system_distance y1 y2) 100); [reflexivity|contradiction].
  - intros k i e Hk Hl _. apply (attempt_next k i e Hk Hl).
Qed.

Lemma sc_together_result : exists env d a b, sc_run sc_together = Ok env /\ List.length env = 8%nat /\ nth_error env 7 = Some d
  /\ sys_data d = [("q1", a); ("q2", b)] /\ v3 a 0 0 0 = - 3 / 8.
Proof.
  destruct sc_together_values as [f0 [y1 [f1 [y2 [h [g [z [a [b [E [S [E2 [D V]]]]]]]]]]]]].
  exists [mkSystem sc_state sc_costate sc_together; f0; y1; f1; y2; h; g; z], z, a, b. repeat split; auto.
  unfold sc_run, updown_integrate. change 20%nat with (List.length attempt + 16)%nat. rewrite (follow _ _ _ _ attempt 16 _ _ E).
  - change 16%nat with (List.length halves + 13)%nat. rewrite (follow _ _ _ _ halves 13 _ _ E2).
    + cbn [integrate]. reflexivity.
    + intros k i e Hk Hl H0. unfold step_control. rewrite Hl. cbn [List.length Nat.add]. destruct k as [|[|[|k]]].
      * rewrite H0 by reflexivity. unfold small_error. cbn [nth_error].
        destruct (Rle_dec (system_distance y1 y2) 100); [lra|exact Hk].
      * exact Hk.
      * exact Hk.
      * destruct k; discriminate Hk.
  - intros k i e Hk Hl _. apply (attempt_next k i e Hk Hl).
Qed.

Lemma split_last (e : list system) d k : nth_error e k = Some d -> List.length e = S k -> e = removelast e ++ [d].
Proof.
  revert e. induction k as [|k IH]; intros [|x e] Hn Hl; cbn in Hn, Hl; try discriminate.
  - injection Hn as ->. destruct e; [reflexivity|discriminate].
  - destruct e as [|z e]; [discriminate|]. change (removelast (x :: z :: e)) with (x :: removelast (z :: e)). cbn [app]. f_equal.
    apply IH; auto.
Qed.

Lemma sc_stops x e : sc_run x = Ok e -> (List.length e < 20)%nat -> step_control 100 e = None.
Proof.
  intros Hr Hl. unfold sc_run, updown_integrate in Hr.
  assert (G : forall n env f, integrate (updown_rhs idf) (fun _ => updown_parameters idf init0 1 1 None) (fun _ => updown_costate onef) (step_control 100) n env = Ok f ->
     step_control 100 f = None \/ (List.length f = List.length env + n)%nat).
  { clear. induction n as [|n IH]; intros env f Hi; cbn [integrate] in Hi.
    - injection Hi as <-. right. lia.
    - destruct (step_control 100 env) as [i|] eqn:Es; [|injection Hi as <-; auto].
      destruct (step _ _ _ env i) as [env'|] eqn:Est; cbn [bind] in Hi; [|discriminate Hi].
      destruct (IH _ _ Hi) as [H|H]; auto. right. rewrite H.
      rewrite (step_length _ _ _ _ _ _ Est). lia. }
  destruct (G _ _ _ Hr) as [H|H]; auto. change (List.length e = 1 + 20)%nat in H. lia.
Qed.

Theorem step_control_mixes : exists next s c x y env1 env2 d1 d2,
  looks_at_entries next /\ batch_of 1 x /\ batch_of 2 y /\ same_sample 0 0 x y
  /\ updown_integrate next (mkSystem s c x) = Ok (env1 ++ [d1])
  /\ updown_integrate next (mkSystem s c y) = Ok (env2 ++ [d2])
  /\ next (env1 ++ [d1]) = None /\ next (env2 ++ [d2]) = None
  /\ ~ same_sample 0 0 (sys_data d1) (sys_data d2).
Proof.
  destruct sc_alone_result as [e1 [d1 [a1 [b1 [E1 [L1 [N1 [D1 [S1 [S2 V1]]]]]]]]]].
  destruct sc_together_result as [e2 [d2 [a2 [b2 [E2 [L2 [N2 [D2 V2]]]]]]]].
  exists (step_control 100), sc_state, sc_costate, sc_alone, sc_together, (removelast e1), (removelast e2), d1, d2.
  rewrite <- (split_last e1 d1 4%nat N1 L1), <- (split_last e2 d2 7%nat N2 L2).
  split; [apply step_control_entries|]. split; [repeat constructor|]. split; [repeat constructor|].
  split; [repeat constructor; cbn; intros; destruct i; reflexivity|].
  split; [unfold sc_run in E1; exact E1|]. split; [unfold sc_run in E2; exact E2|].
  split; [apply (sc_stops _ _ E1); lia|]. split; [apply (sc_stops _ _ E2); lia|].
  rewrite D1, D2. intros H. inversion H as [|? ? ? ? [_ [A1 [A2 A3]]] _]; subst. cbn [snd fst] in *.
  specialize (A3 O O). rewrite S1, S2 in A3. rewrite (A3 ltac:(lia) ltac:(lia)) in V1. lra.
Qed.

(** The integration of the standalone script. *)
From Coq Require Import List String Reals Arith Lia Lra Bool ZArith.
From Verif Require Import Base BaseFacts Tensor RealSum VecNet VecModel VecSpec VecProofs VecProofs2 VecProofs3 VecProofs4 VecProofs5
  StandaloneModel StandaloneSpec StandaloneProofs StandaloneProofs2 StandaloneProofs3 StandaloneProofs4.
Import ListNotations.
Open Scope string_scope.
Open Scope R_scope.

Definition four (a b c d : t3) : sdict t3 := [("p1", a); ("p2", b); ("q1", c); ("q2", d)].

Lemma moved_four h N D d e a b c g a' b' c' g' :
  of_shape N D d a -> of_shape N D e b -> of_shape N D d c -> of_shape N D e g ->
  of_shape N D d a' -> of_shape N D e b' -> of_shape N D d c' -> of_shape N D e g' ->
  exists Y, moved h (four a b c g) (four a' b' c' g') = Ok Y /\ standalone_states N D d e Y
    /\ moved_along h (four a' b' c' g') (four a b c g) Y.
Proof.
  intros S1 S2 S3 S4 T1 T2 T3 T4.
  pose proof (own3 _ _ _ _ S1) as O1. pose proof (own3 _ _ _ _ S2) as O2.
  pose proof (own3 _ _ _ _ S3) as O3. pose proof (own3 _ _ _ _ S4) as O4.
  pose proof (map3_is (Rmult h) _ _ _ _ _ (own3 _ _ _ _ T1)) as U1. pose proof (map3_is (Rmult h) _ _ _ _ _ (own3 _ _ _ _ T2)) as U2.
  pose proof (map3_is (Rmult h) _ _ _ _ _ (own3 _ _ _ _ T3)) as U3. pose proof (map3_is (Rmult h) _ _ _ _ _ (own3 _ _ _ _ T4)) as U4.
  destruct (zip3_is Rplus _ _ _ _ _ _ _ O1 U1) as [y1 [E1 Y1]]. destruct (zip3_is Rplus _ _ _ _ _ _ _ O2 U2) as [y2 [E2 Y2]].
  destruct (zip3_is Rplus _ _ _ _ _ _ _ O3 U3) as [y3 [E3 Y3]]. destruct (zip3_is Rplus _ _ _ _ _ _ _ O4 U4) as [y4 [E4 Y4]].
  exists (four y1 y2 y3 y4). split.
  { unfold moved, four. cbn [mapM fst snd]. sdi. cbn [fst snd]. sdi. rewrite E1. sdi. rewrite E2. sdi. rewrite E3. sdi. rewrite E4. reflexivity. }
  split. { exists y1, y2, y3, y4. split; [reflexivity|]. split; [apply Y1|]. split; [apply Y2|]. split; [apply Y3|apply Y4]. }
  destruct S1 as [A1 [A2 A3]], S2 as [B1 [B2 B3]], S3 as [C1 [C2 C3]], S4 as [D1 [D2 D3]].
  split.
  { unfold four, same_shape. repeat constructor; cbn [fst snd];
      match goal with H : is3 _ _ _ _ ?y |- _ = _ ?y => destruct H as [[? [? ?]] _]; congruence end. }
  intros ix q x f y n i k Hx HF Hy Hr.
  destruct ix as [|[|[|[|ix]]]]; cbn in Hx, Hy; try discriminate; try (destruct ix; discriminate);
    injection Hx as <- <-; injection Hy as <-; destruct Hr as [R0 [R1 R2]];
    rewrite ?A1, ?A2, ?A3, ?B1, ?B2, ?B3, ?C1, ?C2, ?C3, ?D1, ?D2, ?D3 in R0, R1, R2;
    (destruct HF as [HF|[HF|[HF|[HF|[]]]]]; try discriminate HF; injection HF as <-);
    match goal with H : is3 _ _ _ _ ?y |- v3 ?y _ _ _ = _ => rewrite (proj2 H) by lia; reflexivity end.
Qed.

Section Step.
Variables nl dnl : R -> R.
Variables N D d e : nat.
Hypothesis HN : (0 < N)%nat.
Hypothesis HD : (0 < D)%nat.
Hypothesis Hd : (0 < d)%nat.
Hypothesis He : (0 < e)%nat.
Variable h : R.

Definition mid (X : sdict t3) : sdict t3 :=
  match (rhs <- compute_rhs nl dnl X ;; M <- moved (1 / 2 * h) X rhs ;; rhs2 <- compute_rhs nl dnl M ;; moved h X rhs2) with
  | Ok Y => Y | Raise _ => X end.

Lemma rhs_shape X : standalone_states N D d e X -> exists F, compute_rhs nl dnl X = Ok F /\ standalone_states N D d e F.
Proof.
  intros [p1 [p2 [q1 [q2 [-> [S1 [S2 [S3 S4]]]]]]]].
  destruct (rhs_is nl dnl N D d e _ _ _ _ _ _ _ _ (own3 _ _ _ _ S1) (own3 _ _ _ _ S2) (own3 _ _ _ _ S3) (own3 _ _ _ _ S4))
    as [r1 [r2 [r3 [r4 [Er [I1 [I2 [I3 I4]]]]]]]].
  eexists. split; [exact Er|]. exists r1, r2, r3, r4. split; [reflexivity|]. split; [apply I1|]. split; [apply I2|]. split; [apply I3|apply I4].
Qed.

Lemma moved_shape t X F : standalone_states N D d e X -> standalone_states N D d e F ->
  exists Y, moved t X F = Ok Y /\ standalone_states N D d e Y /\ moved_along t F X Y.
Proof.
  intros [p1 [p2 [q1 [q2 [-> [S1 [S2 [S3 S4]]]]]]]] [a [b [c [g [-> [T1 [T2 [T3 T4]]]]]]]].
  exact (moved_four t N D d e _ _ _ _ _ _ _ _ S1 S2 S3 S4 T1 T2 T3 T4).
Qed.

Lemma mid_step X : standalone_states N D d e X ->
  exists F M F', compute_rhs nl dnl X = Ok F /\ moved (1 / 2 * h) X F = Ok M /\ compute_rhs nl dnl M = Ok F'
    /\ moved h X F' = Ok (mid X) /\ standalone_states N D d e (mid X) /\ midpoint_step (compute_rhs nl dnl) h X (mid X).
Proof.
  intros HX. destruct (rhs_shape X HX) as [F [EF HF]]. destruct (moved_shape (1 / 2 * h) X F HX HF) as [M [EM [HM AM]]].
  destruct (rhs_shape M HM) as [F' [EF' HF']]. destruct (moved_shape h X F' HX HF') as [Y [EY [HY AY]]].
  assert (Em : mid X = Y) by (unfold mid; rewrite EF; cbn [bind]; rewrite EM; cbn [bind]; rewrite EF'; cbn [bind]; rewrite EY; reflexivity).
  rewrite Em. exists F, M, F'. repeat split; auto. exists F, M, F'. replace (h / 2) with (1 / 2 * h) by field. auto.
Qed.

Definition six (en la a b c g : list R) : sdict (list R) :=
  [("energy", en); ("lagrangian", la); ("p1", a); ("p2", b); ("q1", c); ("q2", g)].

Definition energy_of (X : sdict t3) : R := match compute_energy nl X with Ok v => v | Raise _ => 0 end.

Lemma energies X : standalone_states N D d e X ->
  compute_energy nl X = Ok (energy_of X) /\ compute_lagrangian nl dnl X = Ok (2 * energy_of X).
Proof.
  intros [p1 [p2 [q1 [q2 [-> [S1 [S2 [S3 S4]]]]]]]].
  pose proof (own3 _ _ _ _ S1) as O1. pose proof (own3 _ _ _ _ S2) as O2.
  pose proof (own3 _ _ _ _ S3) as O3. pose proof (own3 _ _ _ _ S4) as O4. unfold energy_of.
  rewrite (energy_is nl N D d e _ _ _ _ _ _ _ _ O1 O2 O3 O4).
  split; [reflexivity|exact (lagrangian_is nl dnl N D d e _ _ _ _ _ _ _ _ O1 O2 O3 O4 HN)].
Qed.

Lemma step_is X en la a b c g : standalone_states N D d e X ->
  advect_step nl dnl h (X, six en la a b c g)
  = Ok (mid X, six (en ++ [energy_of (mid X)])%list (la ++ [2 * energy_of (mid X)])%list
                 (a ++ [first_entry "p1" (mid X)])%list (b ++ [first_entry "p2" (mid X)])%list
                 (c ++ [first_entry "q1" (mid X)])%list (g ++ [first_entry "q2" (mid X)])%list).
Proof.
  intros HX. destruct (mid_step X HX) as [F [M [F' [E1 [E2 [E3 [E4 [HY _]]]]]]]].
  unfold advect_step. cbn [fst snd]. rewrite E1. cbn [bind]. rewrite E2. cbn [bind]. rewrite E3. cbn [bind]. rewrite E4. cbn [bind].
  destruct (energies _ HY) as [G1 G2]. remember (mid X) as Y eqn:EY. clear EY E1 E2 E3 E4.
  destruct HY as [p1 [p2 [q1 [q2 [-> [S1 [S2 [S3 S4]]]]]]]].
  cbn [foldM fst snd].
  rewrite (entry_is p1 N D d _ 0 0 0 (own3 _ _ _ _ S1)) by auto. cbn [bind].
  replace (append_to "p1" (v3 p1 0 0 0) (six en la a b c g)) with (Ok (six en la (a ++ [v3 p1 0 0 0])%list b c g)) by reflexivity. cbn [bind].
  rewrite (entry_is p2 N D e _ 0 0 0 (own3 _ _ _ _ S2)) by auto. cbn [bind].
  match goal with |- context [append_to "p2" ?x (six ?en ?la ?a ?b ?c ?g)] =>
    replace (append_to "p2" x (six en la a b c g)) with (Ok (six en la a (b ++ [x])%list c g)) by reflexivity end. cbn [bind].
  rewrite (entry_is q1 N D d _ 0 0 0 (own3 _ _ _ _ S3)) by auto. cbn [bind].
  match goal with |- context [append_to "q1" ?x (six ?en ?la ?a ?b ?c ?g)] =>
    replace (append_to "q1" x (six en la a b c g)) with (Ok (six en la a b (c ++ [x])%list g)) by reflexivity end. cbn [bind].
  rewrite (entry_is q2 N D e _ 0 0 0 (own3 _ _ _ _ S4)) by auto. cbn [bind].
  match goal with |- context [append_to "q2" ?x (six ?en ?la ?a ?b ?c ?g)] =>
    replace (append_to "q2" x (six en la a b c g)) with (Ok (six en la a b c (g ++ [x])%list)) by reflexivity end. cbn [bind].
  rewrite G1. cbn [bind].
  match goal with |- context [append_to "energy" ?x (six ?en ?la ?a ?b ?c ?g)] =>
    replace (append_to "energy" x (six en la a b c g)) with (Ok (six (en ++ [x])%list la a b c g)) by reflexivity end. cbn [bind].
  rewrite G2. cbn [bind].
  match goal with |- context [append_to "lagrangian" ?x (six ?en ?la ?a ?b ?c ?g)] =>
    replace (append_to "lagrangian" x (six en la a b c g)) with (Ok (six en (la ++ [x])%list a b c g)) by reflexivity end. cbn [bind].
  reflexivity.
Qed.

Definition path (s : sdict t3) (k : nat) : sdict t3 := Nat.iter k mid s.

Lemma path_shape s k : standalone_states N D d e s -> standalone_states N D d e (path s k).
Proof. intros H. induction k as [|k IH]; cbn; auto. destruct (mid_step _ IH) as [? [? [? [_ [_ [_ [_ [HY _]]]]]]]]. exact HY. Qed.

Definition recorded (f : sdict t3 -> R) (s : sdict t3) (n : nat) : list R := map (fun k => f (path s (S k))) (seq 0 n).

Lemma recorded_S f s n : recorded f s (S n) = (recorded f s n ++ [f (mid (path s n))])%list.
Proof. unfold recorded. rewrite seq_S, map_app. reflexivity. Qed.

Lemma loop_is s : standalone_states N D d e s -> forall n,
  foldM (fun sr (_ : nat) => advect_step nl dnl h sr) (seq 0 n) (s, six [] [] [] [] [] [])
  = Ok (path s n, six (recorded energy_of s n) (recorded (fun X => 2 * energy_of X) s n) (recorded (first_entry "p1") s n)
         (recorded (first_entry "p2") s n) (recorded (first_entry "q1") s n) (recorded (first_entry "q2") s n)).
Proof.
  intros Hs. induction n as [|n IH]; [reflexivity|].
  rewrite seq_S, foldM_app, IH. cbn [bind foldM]. rewrite (step_is _ _ _ _ _ _ _ (path_shape s n Hs)). cbn [bind].
  rewrite !recorded_S. reflexivity.
Qed.
End Step.

(** ** Number of steps *)
Lemma steps_positive h : 0 < h -> exists n, number_of_steps h = Ok n /\ INR n <= 1 / h < INR n + 1.
Proof.
  intros Hh. unfold number_of_steps. destruct (Req_EM_T h 0); [lra|]. eexists. split; [reflexivity|].
  assert (H1 : 0 < 1 / h) by (unfold Rdiv; rewrite Rmult_1_l; apply Rinv_0_lt_compat; auto).
  unfold py_int. destruct (Rle_dec 0 (1 / h)); [|lra].
  destruct (base_Int_part (1 / h)) as [B1 B2].
  assert (H0 : (0 <= Int_part (1 / h))%Z).
  { destruct (Z_lt_le_dec (Int_part (1 / h)) 0) as [Hlt|]; auto. exfalso.
    assert (Int_part (1 / h) <= -1)%Z by lia. apply IZR_le in H. lra. }
  rewrite INR_IZR_INZ, Z2Nat.id by auto. lra.
Qed.

Lemma steps_negative h : h < 0 -> number_of_steps h = Ok 0%nat.
Proof.
  intros Hh. unfold number_of_steps. destruct (Req_EM_T h 0); [lra|]. f_equal.
  assert (H1 : 1 / h < 0) by (unfold Rdiv; rewrite Rmult_1_l; apply Rinv_lt_0_compat; auto).
  unfold py_int. destruct (Rle_dec 0 (1 / h)); [lra|].
  assert (H0 : (0 <= Int_part (- (1 / h)))%Z).
  { destruct (Z_lt_le_dec (Int_part (- (1 / h))) 0) as [Hlt|]; auto. exfalso. destruct (base_Int_part (- (1 / h))) as [B1 B2].
    assert (Int_part (- (1 / h)) <= -1)%Z by lia. apply IZR_le in H. lra. }
  lia.
Qed.

Lemma advect_is nl dnl N D d e s h : (0 < N)%nat -> (0 < D)%nat -> (0 < d)%nat -> (0 < e)%nat ->
  standalone_states N D d e s -> 0 < h ->
  exists n (X : nat -> sdict t3) (E : nat -> R) res,
    INR n <= 1 / h < INR n + 1
    /\ X 0%nat = s /\ (forall k, (k < n)%nat -> midpoint_step (compute_rhs nl dnl) h (X k) (X (S k)))
    /\ (forall k, compute_energy nl (X k) = Ok (E k) /\ compute_lagrangian nl dnl (X k) = Ok (2 * E k))
    /\ advect nl dnl h s = Ok (X n, res)
    /\ (forall name, In name ["p1"; "p2"; "q1"; "q2"] ->
          sd_item name res = Ok (map (fun k => first_entry name (X k)) (seq 1 n)))
    /\ sd_item "energy" res = Ok (map E (seq 1 n)) /\ sd_item "lagrangian" res = Ok (map (fun k => 2 * E k) (seq 1 n)).
Proof.
  intros HN HD Hd He Hs Hh. destruct (steps_positive h Hh) as [n [En Hn]].
  assert (Hrec : forall f, recorded nl dnl h f s n = map (fun k => f (path nl dnl h s k)) (seq 1 n)).
  { intros f. unfold recorded. rewrite <- seq_shift, map_map. reflexivity. }
  exists n, (path nl dnl h s), (fun k => energy_of nl (path nl dnl h s k)).
  assert (Empty : empty_results s = six [] [] [] [] [] []).
  { destruct Hs as [p1 [p2 [q1 [q2 [-> _]]]]]. reflexivity. }
  eexists. split; [exact Hn|]. split; [reflexivity|].
  split. { intros k Hk. destruct (mid_step nl dnl N D d e h _ (path_shape nl dnl N D d e h s k Hs)) as [? [? [? [_ [_ [_ [_ [_ H]]]]]]]]. exact H. }
  split. { intros k. apply (energies nl dnl N D d e HN). apply path_shape. exact Hs. }
  split. { unfold advect. rewrite En. cbn [bind]. rewrite Empty. apply (loop_is nl dnl N D d e HN HD Hd He). exact Hs. }
  rewrite !Hrec. split; [|split; reflexivity].
  intros name [<-|[<-|[<-|[<-|[]]]]]; reflexivity.
Qed.

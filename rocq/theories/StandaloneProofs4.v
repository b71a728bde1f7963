(** The difference quotients of the standalone script. *)
From Coq Require Import List String Reals Arith Lia Lra Bool ZArith.
From Verif Require Import Base BaseFacts Tensor RealSum VecNet VecModel VecSpec VecProofs VecProofs2 VecProofs3 VecProofs4 VecProofs5
  StandaloneModel StandaloneSpec StandaloneProofs StandaloneProofs2 StandaloneProofs3.
Import ListNotations.
Open Scope string_scope.
Open Scope R_scope.

Lemma in_bounds i j k a b c : (i < a)%nat -> (j < b)%nat -> (k < c)%nat ->
  Nat.ltb i a && Nat.ltb j b && Nat.ltb k c = true.
Proof. intros. destruct (Nat.ltb_spec i a), (Nat.ltb_spec j b), (Nat.ltb_spec k c); try lia; reflexivity. Qed.

Lemma entry_is x a b c f i j k : is3 a b c f x -> (i < a)%nat -> (j < b)%nat -> (k < c)%nat -> entry x i j k = Ok (f i j k).
Proof. intros [[A [B C]] H] Hi Hj Hk. unfold entry. rewrite A, B, C, in_bounds by auto. rewrite H; auto. Qed.

Lemma set_entry_is x a b c f i j k y : is3 a b c f x -> (i < a)%nat -> (j < b)%nat -> (k < c)%nat ->
  exists z, set_entry x i j k y = Ok z /\ is3 a b c (upd f i j k y) z.
Proof.
  intros [[A [B C]] H] Hi Hj Hk. unfold set_entry. rewrite A, B, C, in_bounds by auto. eexists. split; [reflexivity|].
  split; [repeat split|]. cbn. intros. unfold upd, at_. destruct (_ && _); auto.
Qed.

(** ** The loops *)
Section Loops.
Variables N D d : nat.
Hypothesis HD : (0 < D)%nat.
Variable f : nat -> nat -> result R.
Variable Qt : nat -> nat -> R.
Hypothesis Hf : forall i j, (i < N)%nat -> (j < d)%nat -> f i j = Ok (Qt i j).

Definition filled (a b : nat) (n i k : nat) : R :=
  if Nat.eqb i 0 && (Nat.ltb n a || (Nat.eqb n a && Nat.ltb k b)) then Qt n k else 0.

Lemma is3_ext a b c u v x : (forall n i k, (n < a)%nat -> (i < b)%nat -> (k < c)%nat -> u n i k = v n i k) ->
  is3 a b c u x -> is3 a b c v x.
Proof. intros E [S H]. split; auto. intros. rewrite H, E; auto. Qed.

Ltac cases := repeat match goal with
  | |- context [Nat.eqb ?x ?y] => destruct (Nat.eqb_spec x y); subst
  | |- context [Nat.ltb ?x ?y] => destruct (Nat.ltb_spec x y) end; cbn [andb orb]; try reflexivity; try lia.

Lemma inner a : (a < N)%nat -> forall m b g, (b + m = d)%nat -> is3 N D d (filled a b) g ->
  exists g', foldM (fun g j => v <- f a j ;; set_entry g a 0 j v) (seq b m) g = Ok g' /\ is3 N D d (filled (S a) 0) g'.
Proof.
  intros Ha. induction m as [|m IH]; intros b g Hb Hg; cbn [seq foldM].
  - exists g. split; auto. revert Hg. apply is3_ext. intros n i k Hn Hi Hk. unfold filled. cases.
  - rewrite Hf by lia. cbn [bind]. destruct (set_entry_is g N D d _ a 0 b (Qt a b) Hg) as [z [-> Hz]]; auto; [lia|].
    cbn [bind]. apply IH; [lia|]. revert Hz. apply is3_ext. intros n i k Hn Hi Hk. unfold upd, at_, filled. cases.
Qed.

Lemma outer : forall m a g, (a + m = N)%nat -> is3 N D d (filled a 0) g ->
  exists g', foldM (fun g i => foldM (fun g j => v <- f i j ;; set_entry g i 0 j v) (seq 0 d) g) (seq a m) g = Ok g'
    /\ is3 N D d (filled N 0) g'.
Proof.
  induction m as [|m IH]; intros a g Ha Hg; cbn [seq foldM].
  - exists g. split; auto. replace N with a at 2 by lia. exact Hg.
  - destruct (inner a ltac:(lia) d 0 g ltac:(lia) Hg) as [g' [-> Hg']]. cbn [bind]. apply IH; auto. lia.
Qed.

Lemma loops x : of_shape N D d x ->
  exists g, foldM (fun g i => foldM (fun g j => v <- f i j ;; set_entry g i 0 j v) (seq 0 (n2 x)) g) (seq 0 (n0 x)) (zeros_like x) = Ok g
    /\ is3 N D d (fun n i k => if Nat.eqb i 0 then Qt n k else 0) g.
Proof.
  intros [A [B C]]. rewrite A, C.
  destruct (outer N 0 (zeros_like x) ltac:(lia)) as [g [E Hg]].
  - split; [repeat split; cbn; auto|]. cbn. intros. unfold filled. cases.
  - exists g. split; auto. revert Hg. apply is3_ext. intros n i k Hn Hi Hk. unfold filled. cases.
Qed.
End Loops.

(** ** All four states *)
Section All.
Variables nl dnl : R -> R.
Variables N D : nat.
Hypothesis HD : (0 < D)%nat.

(** The difference quotients of a function of all entries. *)
Lemma differences s name coname x c m (F : (nat -> nat -> nat -> R) -> R) l1 r :
  of_shape N D m x -> sd_item name s = Ok x ->
  compute_rhs nl dnl s = Ok r -> sd_item coname r = Ok c ->
  compute_hamiltonian nl dnl s = Ok l1 -> l1 = F (v3 x) ->
  (forall x' f, is3 N D m f x' -> compute_hamiltonian nl dnl (sd_set name x' s) = Ok (F f)) ->
  forall h, h <> 0 -> exists g, finite_differences nl dnl s h name coname = Ok (g, c) /\
    is3 N D m (fun n i k => if Nat.eqb i 0 then (F (upd (v3 x) n 0 k (v3 x n 0 k + h)) - F (v3 x)) / h else 0) g.
Proof.
  intros Sx Ex Er Ec El El1 HF h Hh. unfold finite_differences. rewrite Er. cbn [bind]. rewrite El. cbn [bind]. rewrite Ex. cbn [bind].
  destruct (loops N D m HD (quotient nl dnl s x l1 h name) (fun n k => (F (upd (v3 x) n 0 k (v3 x n 0 k + h)) - F (v3 x)) / h)) with (x := x)
    as [g [Eg Hg]]; auto.
  - intros i j Hi Hj. unfold quotient. pose proof (own3 _ _ _ _ Sx) as Ox. rewrite (entry_is x N D m _ i 0 j Ox) by auto. cbn [bind].
    destruct (set_entry_is x N D m _ i 0 j (v3 x i 0 j + h) Ox) as [x' [-> Hx']]; auto. cbn [bind].
    rewrite (HF _ _ Hx'). cbn [bind]. destruct (Req_EM_T h 0); [contradiction|]. rewrite El1. reflexivity.
  - rewrite Eg. cbn [bind]. rewrite Ec. cbn [bind]. exists g. auto.
Qed.


Lemma checked s name coname x c m (F : (nat -> nat -> nat -> R) -> R) l1 r dF sign :
  of_shape N D m x -> sd_item name s = Ok x ->
  compute_rhs nl dnl s = Ok r -> sd_item coname r = Ok c -> of_shape N D m c ->
  compute_hamiltonian nl dnl s = Ok l1 -> l1 = F (v3 x) ->
  (forall x' f, is3 N D m f x' -> compute_hamiltonian nl dnl (sd_set name x' s) = Ok (F f)) ->
  (forall n k, (n < N)%nat -> (k < m)%nat -> F (upd (v3 x) n 0 k (v3 x n 0 k)) = F (v3 x)) ->
  (forall n k, (n < N)%nat -> (k < m)%nat -> derivable_pt_lim (fun y => F (upd (v3 x) n 0 k y)) (v3 x n 0 k) (dF n k)) ->
  (forall n k, (n < N)%nat -> (k < m)%nat -> dF n k + sign * v3 c n 0 k = 0) ->
  gradient_check (fun h => finite_differences nl dnl s h name coname) sign N D m 1.
Proof.
  intros Sx Ex Er Ec Sc El El1 HF Hsame HdF Hc.
  pose proof (differences s name coname x c m F l1 r Sx Ex Er Ec El El1 HF) as Hd.
  exists c. split; [exact Sc|]. split. { intros h Hh. destruct (Hd h Hh) as [g [E Hg]]. exists g. split; [exact E|apply Hg]. }
  intros n i k Hn Hi Hi1 Hk delta Hdelta. assert (i = O) by lia. subst i.
  destruct (HdF n k Hn Hk delta Hdelta) as [eta He]. exists eta. split; [apply cond_pos|].
  intros h g Hh Hlt Eg. destruct (Hd h Hh) as [g' [E Hg]]. rewrite Eg in E. injection E as <-.
  rewrite (proj2 Hg) by auto. cbn [Nat.eqb]. specialize (He h Hh Hlt). rewrite Hsame in He by auto.
  replace (_ + sign * _) with ((F (upd (v3 x) n 0 k (v3 x n 0 k + h)) - F (v3 x)) / h - dF n k); [exact He|].
  specialize (Hc n k Hn Hk). lra.
Qed.
End All.

Lemma EE_ext nl N D d e P1 P2 Q1 Q2 P1' P2' Q1' Q2' :
  (forall n i k, P1 n i k = P1' n i k) -> (forall n i k, P2 n i k = P2' n i k) ->
  (forall n i k, Q1 n i k = Q1' n i k) -> (forall n i k, Q2 n i k = Q2' n i k) ->
  EE nl N D d e P1 P2 Q1 Q2 = EE nl N D d e P1' P2' Q1' Q2'.
Proof.
  intros H1 H2 H3 H4. unfold EE, L1, L2, B1, B2. f_equal.
  f_equal; [f_equal; [f_equal|]|]; apply rsum_ext; intros; apply rsum_ext; intros; f_equal; f_equal; apply rsum_ext; intros;
    try (apply rsum_ext; intros); rewrite ?H1, ?H2, ?H3, ?H4; reflexivity.
Qed.

Lemma gradient_checks nl dnl N D d e s : (0 < N)%nat -> (0 < D)%nat -> standalone_states N D d e s ->
  gradient_check (fun h => finite_differences nl dnl s h "q1" "p1") 1 N D d 1
  /\ ((forall q2 n k, sd_item "q2" s = Ok q2 -> (n < N)%nat -> (k < e)%nat -> derivable_pt_lim nl (v3 q2 n 0 k) (dnl (v3 q2 n 0 k))) ->
      gradient_check (fun h => finite_differences nl dnl s h "q2" "p2") 1 N D e 1)
  /\ gradient_check (fun h => finite_differences nl dnl s h "p1" "q1") (-1) N D d 1
  /\ gradient_check (fun h => finite_differences nl dnl s h "p2" "q2") (-1) N D e 1.
Proof.
  intros HN HD [p1 [p2 [q1 [q2 [-> [S1 [S2 [S3 S4]]]]]]]].
  pose proof (own3 _ _ _ _ S1) as O1. pose proof (own3 _ _ _ _ S2) as O2.
  pose proof (own3 _ _ _ _ S3) as O3. pose proof (own3 _ _ _ _ S4) as O4.
  pose proof (hamiltonian_is nl dnl N D d e _ _ _ _ _ _ _ _ O1 O2 O3 O4 HN) as Hh.
  destruct (rhs_is nl dnl N D d e _ _ _ _ _ _ _ _ O1 O2 O3 O4) as [r1 [r2 [r3 [r4 [Er [I1 [I2 [I3 I4]]]]]]]].
  split; [|split; [|split]].
  - eapply (checked nl dnl N D HD _ "q1" "p1" q1 r1 d (fun f => INR N * EE nl N D d e (v3 p1) (v3 p2) f (v3 q2))
      _ _ (fun n k => - dp1 N D e (v3 p2) (v3 q1) n 0 k)); [exact S3|reflexivity|exact Er|reflexivity|apply I1|exact Hh|reflexivity| | | |].
    + intros x' f Hx'. cbn. exact (hamiltonian_is nl dnl N D d e _ _ _ _ _ _ _ _ O1 O2 Hx' O4 HN).
    + intros. f_equal. apply EE_ext; auto. intros; apply upd_same.
    + intros. apply gradient_q1; auto.
    + intros. rewrite (proj2 I1) by auto. ring.
  - intros Hnl. eapply (checked nl dnl N D HD _ "q2" "p2" q2 r2 e (fun f => INR N * EE nl N D d e (v3 p1) (v3 p2) (v3 q1) f)
      _ _ (fun n k => - dp2 nl dnl N D d (v3 p1) (v3 q2) n 0 k)); [exact S4|reflexivity|exact Er|reflexivity|apply I2|exact Hh|reflexivity| | | |].
    + intros x' f Hx'. cbn. exact (hamiltonian_is nl dnl N D d e _ _ _ _ _ _ _ _ O1 O2 O3 Hx' HN).
    + intros. f_equal. apply EE_ext; auto. intros; apply upd_same.
    + intros. apply gradient_q2; auto.
    + intros. rewrite (proj2 I2) by auto. ring.
  - eapply (checked nl dnl N D HD _ "p1" "q1" p1 r3 d (fun f => INR N * EE nl N D d e f (v3 p2) (v3 q1) (v3 q2))
      _ _ (fun n k => dq1 nl N D e (v3 p1) (v3 q2) n 0 k)); [exact S1|reflexivity|exact Er|reflexivity|apply I3|exact Hh|reflexivity| | | |].
    + intros x' f Hx'. cbn. exact (hamiltonian_is nl dnl N D d e _ _ _ _ _ _ _ _ Hx' O2 O3 O4 HN).
    + intros. f_equal. apply EE_ext; auto. intros; apply upd_same.
    + intros. apply gradient_p1; auto.
    + intros. rewrite (proj2 I3) by auto. ring.
  - eapply (checked nl dnl N D HD _ "p2" "q2" p2 r4 e (fun f => INR N * EE nl N D d e (v3 p1) f (v3 q1) (v3 q2))
      _ _ (fun n k => dq2 N D d (v3 p2) (v3 q1) n 0 k)); [exact S2|reflexivity|exact Er|reflexivity|apply I4|exact Hh|reflexivity| | | |].
    + intros x' f Hx'. cbn. exact (hamiltonian_is nl dnl N D d e _ _ _ _ _ _ _ _ O1 Hx' O3 O4 HN).
    + intros. f_equal. apply EE_ext; auto. intros; apply upd_same.
    + intros. apply gradient_p2; auto.
    + intros. rewrite (proj2 I4) by auto. ring.
Qed.

(** The rows above the first are never differenced. *)
Definition ones (a b c : nat) : t3 := mkT3 a b c (fun _ _ _ => 1).
Definition two_rows : sdict t3 :=
  [("p1", ones 1 2 1); ("p2", ones 1 2 1); ("q1", ones 1 2 1); ("q2", ones 1 2 1)].

Lemma two_rows_shape : standalone_states 1 2 1 1 two_rows.
Proof. do 4 eexists. split; [reflexivity|]. repeat split. Qed.

Lemma two_rows_fail nl dnl : ~ gradient_check (fun h => finite_differences nl dnl two_rows h "q1" "p1") 1 1 2 1 2.
Proof.
  intros [c [Sc [Hok Hc]]]. destruct (Hc 0%nat 1%nat 0%nat ltac:(lia) ltac:(lia) ltac:(lia) ltac:(lia) 1 Rlt_0_1) as [eta [He Hlim]].
  assert (Hne : eta / 2 <> 0) by lra. destruct (Hok _ Hne) as [g [Eg Sg]].
  specialize (Hlim (eta / 2) g Hne ltac:(rewrite Rabs_right; lra) Eg).
  assert (O : is3 1 2 1 (fun _ _ _ => 1) (ones 1 2 1)) by (repeat split).
  destruct (rhs_is nl dnl 1 2 1 1 _ _ _ _ _ _ _ _ O O O O) as [r1 [r2 [r3 [r4 [Er [I1 _]]]]]].
  pose proof (hamiltonian_is nl dnl 1 2 1 1 _ _ _ _ _ _ _ _ O O O O ltac:(lia)) as Hh.
  destruct (differences nl dnl 1 2 ltac:(lia) two_rows "q1" "p1" (ones 1 2 1) r1 1
     (fun f => INR 1 * EE nl 1 2 1 1 (fun _ _ _ => 1) (fun _ _ _ => 1) f (fun _ _ _ => 1)) _ _ (proj1 O) eq_refl Er eq_refl Hh eq_refl) 
    with (h := eta / 2) as [g' [Eg' Hg']]; auto.
  - intros x' f Hx'. exact (hamiltonian_is nl dnl 1 2 1 1 _ _ _ _ _ _ _ _ O O Hx' O ltac:(lia)).
  - rewrite Eg in Eg'. injection Eg' as <- <-. rewrite (proj2 Hg'), (proj2 I1) in Hlim by lia.
    unfold dp1, L2 in Hlim. cbn in Hlim.
    replace (0 + 1 * _) with (-2) in Hlim by field. rewrite Rabs_left in Hlim; lra.
Qed.

(** Derivatives of the Hamiltonian of the standalone script and its difference quotients. *)
From Coq Require Import List String Reals Arith Lia Lra Bool ZArith.
From Verif Require Import Base BaseFacts Tensor RealSum VecNet VecModel VecSpec VecProofs VecProofs2 VecProofs3 VecProofs4 VecProofs5
  StandaloneModel StandaloneSpec StandaloneProofs StandaloneProofs2.
Import ListNotations.
Open Scope string_scope.
Open Scope R_scope.

Definition at_ (n i k a b c : nat) : bool := Nat.eqb n a && Nat.eqb i b && Nat.eqb k c.
Definition upd (f : nat -> nat -> nat -> R) (a b c : nat) (y : R) (n i k : nat) : R :=
  if at_ n i k a b c then y else f n i k.

Lemma upd_same f a b c n i k : upd f a b c (f a b c) n i k = f n i k.
Proof.
  unfold upd, at_. destruct (Nat.eqb_spec n a), (Nat.eqb_spec i b), (Nat.eqb_spec k c); cbn; subst; reflexivity.
Qed.

Lemma sum_delta N D a b (v : R) : (a < N)%nat -> (b < D)%nat ->
  rsum N (fun n => rsum D (fun i => if Nat.eqb n a && Nat.eqb i b then v else 0)) = v.
Proof.
  intros Ha Hb. rewrite (rsum_single N _ a Ha).
  - rewrite Nat.eqb_refl. cbn [andb]. rewrite (rsum_single D _ b Hb); [rewrite Nat.eqb_refl; reflexivity|].
    intros i _ Hi. destruct (Nat.eqb_spec i b); [congruence|reflexivity].
  - intros n _ Hn. apply rsum_all_zero. intros. destruct (Nat.eqb_spec n a); [congruence|reflexivity].
Qed.

Lemma derivable_div (g : R -> R) (x l r : R) : derivable_pt_lim g x l -> derivable_pt_lim (fun y => g y / r) x (l / r).
Proof.
  intros H. apply (derivable_ext (mult_real_fct (/ r) g)); [intros; unfold mult_real_fct, Rdiv; ring|].
  apply (derivable_eq _ _ (/ r * l)); [unfold Rdiv; ring|]. apply derivable_pt_lim_scal. exact H.
Qed.

(** A weight as a function of one entry. *)
Lemma weight_derivable N D a b (F : nat -> nat -> R -> R) (v x r : R) : (a < N)%nat -> (b < D)%nat ->
  (forall n i, (n < N)%nat -> (i < D)%nat -> derivable_pt_lim (F n i) x (if Nat.eqb n a && Nat.eqb i b then v else 0)) ->
  derivable_pt_lim (fun y => rsum N (fun n => rsum D (fun i => F n i y)) / r) x (v / r).
Proof.
  intros Ha Hb H. apply derivable_div. rewrite <- (sum_delta N D a b v Ha Hb).
  apply (rsum_derivable N (fun n y => rsum D (fun i => F n i y))). intros n Hn.
  apply (rsum_derivable D (fun i y => F n i y)). intros i Hi. auto.
Qed.

Lemma constant_derivable (f : R -> R) x : (forall y, f y = f x) -> derivable_pt_lim f x 0.
Proof.
  intros H. apply (derivable_ext (fct_cte (f x))); [intros; unfold fct_cte; symmetry; apply H|]. apply derivable_pt_lim_const.
Qed.

Lemma square_derivable (f : R -> R) x l : derivable_pt_lim f x l -> derivable_pt_lim (fun y => (f y) ^ 2) x (2 * f x * l).
Proof.
  intros H. apply (derivable_ext (mult_fct f f)); [intros; unfold mult_fct; ring|].
  apply (derivable_eq _ _ (l * f x + f x * l)); [ring|]. apply derivable_pt_lim_mult; exact H.
Qed.

(** Sums of squares. *)
Lemma squares_derivable a b (M : nat -> nat -> R -> R) (dM : nat -> nat -> R) x :
  (forall i k, (i < a)%nat -> (k < b)%nat -> derivable_pt_lim (M i k) x (dM i k)) ->
  derivable_pt_lim (fun y => rsum a (fun i => rsum b (fun k => (M i k y) ^ 2))) x
    (2 * rsum a (fun i => rsum b (fun k => M i k x * dM i k))).
Proof.
  intros H. apply (derivable_eq _ _ (rsum a (fun i => rsum b (fun k => 2 * M i k x * dM i k)))).
  { rewrite <- rsum_scal. apply rsum_ext; intros. rewrite <- rsum_scal. apply rsum_ext; intros. ring. }
  apply (rsum_derivable a (fun i y => rsum b (fun k => (M i k y) ^ 2))). intros i Hi.
  apply (rsum_derivable b (fun k y => (M i k y) ^ 2)). intros k Hk. apply square_derivable; auto.
Qed.

Lemma energy_derivable N D d e (l2 l1 b2 b1 : nat -> nat -> R -> R) (dl2 dl1 db2 db1 : nat -> nat -> R) x :
  (forall i k, (i < e)%nat -> (k < d)%nat -> derivable_pt_lim (l2 i k) x (dl2 i k)) ->
  (forall i k, (i < d)%nat -> (k < e)%nat -> derivable_pt_lim (l1 i k) x (dl1 i k)) ->
  (forall i k, (i < D)%nat -> (k < e)%nat -> derivable_pt_lim (b2 i k) x (db2 i k)) ->
  (forall i k, (i < D)%nat -> (k < d)%nat -> derivable_pt_lim (b1 i k) x (db1 i k)) ->
  derivable_pt_lim (fun y => INR N *
     (1 / 2 * (rsum e (fun i => rsum d (fun k => (l2 i k y) ^ 2)) + rsum d (fun i => rsum e (fun k => (l1 i k y) ^ 2))
      + rsum D (fun i => rsum e (fun k => (b2 i k y) ^ 2)) + rsum D (fun i => rsum d (fun k => (b1 i k y) ^ 2))))) x
   (INR N * (rsum e (fun i => rsum d (fun k => l2 i k x * dl2 i k)) + rsum d (fun i => rsum e (fun k => l1 i k x * dl1 i k))
      + rsum D (fun i => rsum e (fun k => b2 i k x * db2 i k)) + rsum D (fun i => rsum d (fun k => b1 i k x * db1 i k)))).
Proof.
  intros H2 H1 G2 G1.
  apply squares_derivable in H2, H1, G2, G1.
  match type of H2 with derivable_pt_lim ?f _ ?v => set (f2 := f) in *; set (v2 := v) in * end.
  match type of H1 with derivable_pt_lim ?f _ ?v => set (f1 := f) in *; set (v1 := v) in * end.
  match type of G2 with derivable_pt_lim ?f _ ?v => set (g2 := f) in *; set (w2 := v) in * end.
  match type of G1 with derivable_pt_lim ?f _ ?v => set (g1 := f) in *; set (w1 := v) in * end.
  apply (derivable_ext (mult_real_fct (INR N * (1 / 2)) (plus_fct (plus_fct (plus_fct f2 f1) g2) g1))).
  { intros y. unfold mult_real_fct, plus_fct, f2, f1, g2, g1. ring. }
  apply (derivable_eq _ _ (INR N * (1 / 2) * (v2 + v1 + w2 + w1))); [unfold v2, v1, w2, w1; field|].
  apply derivable_pt_lim_scal. repeat apply derivable_pt_lim_plus; assumption.
Qed.

Section Gradient.
Variables nl dnl : R -> R.
Variables N D d e : nat.
Variables P1 P2 Q1 Q2 : nat -> nat -> nat -> R.
Hypothesis HN : (0 < N)%nat.
Let INRN : INR N <> 0. Proof. apply not_0_INR. lia. Qed.
Variables a b : nat.
Hypothesis Ha : (a < N)%nat.
Hypothesis Hb : (b < D)%nat.

Lemma zeros3 x y z : x = 0 -> y = 0 -> z = 0 -> forall r s, r = s -> x + r + y + z = s.
Proof. intros -> -> -> r s ->. ring. Qed.

Ltac zs := apply rsum_all_zero; intros; apply rsum_all_zero; intros; ring.
Ltac cst := apply constant_derivable; intros; reflexivity.

(** Summing against an indicator of one column, resp. row. *)
Lemma pick_column m l c (M : nat -> nat -> R) (v : nat -> R) : (c < l)%nat ->
  rsum m (fun i => rsum l (fun k => M i k * (if Nat.eqb k c then v i else 0))) = rsum m (fun i => M i c * v i).
Proof.
  intros Hc. apply rsum_ext; intros i _. rewrite (rsum_single l _ c Hc).
  - rewrite Nat.eqb_refl. reflexivity.
  - intros k _ Hk. destruct (Nat.eqb_spec k c); [congruence|ring].
Qed.
Lemma pick_row m l c (M : nat -> nat -> R) (v : nat -> R) : (c < m)%nat ->
  rsum m (fun i => rsum l (fun k => M i k * (if Nat.eqb i c then v k else 0))) = rsum l (fun k => M c k * v k).
Proof.
  intros Hc. rewrite (rsum_single m _ c Hc).
  - rewrite Nat.eqb_refl. reflexivity.
  - intros i _ Hi. apply rsum_all_zero. intros k _. destruct (Nat.eqb_spec i c); [congruence|ring].
Qed.
Lemma pick_entry m l c c' (M : nat -> nat -> R) (v : R) : (c < m)%nat -> (c' < l)%nat ->
  rsum m (fun i => rsum l (fun k => M i k * (if Nat.eqb i c && Nat.eqb k c' then v else 0))) = M c c' * v.
Proof.
  intros Hc Hc'. rewrite (rsum_single m _ c Hc).
  - rewrite Nat.eqb_refl. cbn [andb]. rewrite (rsum_single l _ c' Hc').
    + rewrite Nat.eqb_refl. reflexivity.
    + intros k _ Hk. destruct (Nat.eqb_spec k c'); [congruence|ring].
  - intros i _ Hi. apply rsum_all_zero. intros k _. destruct (Nat.eqb_spec i c); [congruence|cbn [andb]; ring].
Qed.

Lemma gradient_q1 c : (c < d)%nat ->
  derivable_pt_lim (fun y => INR N * EE nl N D d e P1 P2 (upd Q1 a b c y) Q2) (Q1 a b c) (- dp1 N D e P2 Q1 a b c).
Proof.
  intros Hc. unfold EE. eapply derivable_eq; [|eapply (energy_derivable N D d e
     (fun j k y => L2 N D P2 (upd Q1 a b c y) j k) (fun k j y => L1 nl N D P1 Q2 k j) (fun i j y => B2 N P2 i j) (fun i k y => B1 N P1 i k)
     (fun j k => (if Nat.eqb k c then P2 a b j else 0) / INR N) (fun _ _ => 0) (fun _ _ => 0) (fun _ _ => 0))].
  - assert (E0 : forall j k, L2 N D P2 (upd Q1 a b c (Q1 a b c)) j k = L2 N D P2 Q1 j k).
    { intros j k. unfold L2. f_equal. apply rsum_ext; intros. apply rsum_ext; intros. rewrite upd_same. reflexivity. }
    symmetry. transitivity (INR N * rsum e (fun j => rsum d (fun k => L2 N D P2 Q1 j k * (if Nat.eqb k c then P2 a b j / INR N else 0)))).
    2:{ f_equal. rewrite (rsum_all_zero d), (rsum_all_zero D), (rsum_all_zero D); try (intros; apply rsum_all_zero; intros; ring).
        rewrite !Rplus_0_r. apply rsum_ext; intros j _. apply rsum_ext; intros k _. rewrite E0.
        destruct (Nat.eqb k c); unfold Rdiv; ring. }
    rewrite (pick_column e d c (L2 N D P2 Q1) (fun j => P2 a b j / INR N) Hc). unfold dp1. rewrite Ropp_involutive, <- rsum_scal.
    apply rsum_ext; intros. field. auto.
  - intros j k Hj Hk. apply (weight_derivable N D a b (fun n i y => P2 n i j * upd Q1 a b c y n i k)); auto.
    intros n i Hn Hi. unfold upd, at_. destruct (Nat.eqb_spec n a), (Nat.eqb_spec i b), (Nat.eqb_spec k c); cbn [andb]; subst; try cst.
    apply (derivable_ext (mult_real_fct (P2 a b j) id)); [reflexivity|].
    apply (derivable_eq _ _ (P2 a b j * 1)); [ring|]. apply derivable_pt_lim_scal, derivable_pt_lim_id.
  - intros; cst.
  - intros; cst.
  - intros; cst.
Qed.

Lemma gradient_q2 c : (c < e)%nat -> derivable_pt_lim nl (Q2 a b c) (dnl (Q2 a b c)) ->
  derivable_pt_lim (fun y => INR N * EE nl N D d e P1 P2 Q1 (upd Q2 a b c y)) (Q2 a b c) (- dp2 nl dnl N D d P1 Q2 a b c).
Proof.
  intros Hc Hnl. unfold EE. eapply derivable_eq; [|eapply (energy_derivable N D d e
     (fun j k y => L2 N D P2 Q1 j k) (fun k j y => L1 nl N D P1 (upd Q2 a b c y) k j) (fun i j y => B2 N P2 i j) (fun i k y => B1 N P1 i k)
     (fun _ _ => 0) (fun k j => (if Nat.eqb j c then dnl (Q2 a b c) * P1 a b k else 0) / INR N) (fun _ _ => 0) (fun _ _ => 0))].
  - assert (E0 : forall k j, L1 nl N D P1 (upd Q2 a b c (Q2 a b c)) k j = L1 nl N D P1 Q2 k j).
    { intros j k. unfold L1. f_equal. apply rsum_ext; intros. apply rsum_ext; intros. rewrite upd_same. reflexivity. }
    symmetry. transitivity (INR N * rsum d (fun k => rsum e (fun j => L1 nl N D P1 Q2 k j * (if Nat.eqb j c then dnl (Q2 a b c) * P1 a b k / INR N else 0)))).
    2:{ f_equal. rewrite (rsum_all_zero e), (rsum_all_zero D), (rsum_all_zero D); try (intros; apply rsum_all_zero; intros; ring).
        rewrite !Rplus_0_r, Rplus_0_l. apply rsum_ext; intros j _. apply rsum_ext; intros k _. rewrite E0.
        destruct (Nat.eqb k c); unfold Rdiv; ring. }
    rewrite (pick_column d e c (L1 nl N D P1 Q2) (fun k => dnl (Q2 a b c) * P1 a b k / INR N) Hc). unfold dp2.
    replace (- (- dnl (Q2 a b c) * rsum d (fun k => P1 a b k * L1 nl N D P1 Q2 k c)))
      with (dnl (Q2 a b c) * rsum d (fun k => P1 a b k * L1 nl N D P1 Q2 k c)) by ring.
    rewrite <- !rsum_scal. apply rsum_ext; intros. field. auto.
  - intros; cst.
  - intros k j Hk Hj. apply (weight_derivable N D a b (fun n i y => nl (upd Q2 a b c y n i j) * P1 n i k)); auto.
    intros n i Hn Hi. unfold upd, at_. destruct (Nat.eqb_spec n a), (Nat.eqb_spec i b), (Nat.eqb_spec j c); cbn [andb]; subst; try cst.
    apply (derivable_ext (mult_real_fct (P1 a b k) nl)); [intros; unfold mult_real_fct; ring|].
    apply (derivable_eq _ _ (P1 a b k * dnl (Q2 a b c))); [ring|]. apply derivable_pt_lim_scal. exact Hnl.
  - intros; cst.
  - intros; cst.
Qed.

Lemma bias_derivable (P : nat -> nat -> nat -> R) c i k :
  derivable_pt_lim (fun y => rsum N (fun n => upd P a b c y n i k) / INR N) (P a b c)
    ((if Nat.eqb i b && Nat.eqb k c then 1 else 0) / INR N).
Proof.
  apply derivable_div.
  apply (derivable_eq _ _ (rsum N (fun n => if Nat.eqb n a then if Nat.eqb i b && Nat.eqb k c then 1 else 0 else 0))).
  { rewrite (rsum_single N _ a Ha); [rewrite Nat.eqb_refl; reflexivity|]. intros n _ Hn. destruct (Nat.eqb_spec n a); [congruence|reflexivity]. }
  apply (rsum_derivable N (fun n y => upd P a b c y n i k)). intros n Hn. unfold upd, at_.
  destruct (Nat.eqb_spec n a), (Nat.eqb_spec i b), (Nat.eqb_spec k c); cbn [andb]; subst; try cst.
  apply derivable_pt_lim_id.
Qed.

Lemma gradient_p1 c : (c < d)%nat ->
  derivable_pt_lim (fun y => INR N * EE nl N D d e (upd P1 a b c y) P2 Q1 Q2) (P1 a b c) (dq1 nl N D e P1 Q2 a b c).
Proof.
  intros Hc. unfold EE. eapply derivable_eq; [|eapply (energy_derivable N D d e
     (fun j k y => L2 N D P2 Q1 j k) (fun k j y => L1 nl N D (upd P1 a b c y) Q2 k j) (fun i j y => B2 N P2 i j) (fun i k y => B1 N (upd P1 a b c y) i k)
     (fun _ _ => 0) (fun k j => (if Nat.eqb k c then nl (Q2 a b j) else 0) / INR N) (fun _ _ => 0)
     (fun i k => (if Nat.eqb i b && Nat.eqb k c then 1 else 0) / INR N))].
  - assert (E0 : forall k j, L1 nl N D (upd P1 a b c (P1 a b c)) Q2 k j = L1 nl N D P1 Q2 k j).
    { intros j k. unfold L1. f_equal. apply rsum_ext; intros. apply rsum_ext; intros. rewrite upd_same. reflexivity. }
    assert (E1 : forall i k, B1 N (upd P1 a b c (P1 a b c)) i k = B1 N P1 i k).
    { intros i k. unfold B1. f_equal. apply rsum_ext; intros. rewrite upd_same. reflexivity. }
    symmetry. transitivity (INR N * (rsum d (fun k => rsum e (fun j => L1 nl N D P1 Q2 k j * (if Nat.eqb k c then nl (Q2 a b j) / INR N else 0)))
       + rsum D (fun i => rsum d (fun k => B1 N P1 i k * (if Nat.eqb i b && Nat.eqb k c then 1 / INR N else 0))))).
    2:{ f_equal. rewrite (rsum_all_zero e (fun j => rsum d (fun k => L2 N D P2 Q1 j k * 0))) by (intros; apply rsum_all_zero; intros; ring).
        rewrite (rsum_all_zero D (fun i => rsum e (fun j => B2 N P2 i j * 0))) by (intros; apply rsum_all_zero; intros; ring).
        rewrite Rplus_0_r, Rplus_0_l. f_equal; apply rsum_ext; intros i _; apply rsum_ext; intros k _.
        - rewrite E0. destruct (Nat.eqb i c); unfold Rdiv; ring.
        - rewrite E1. destruct (Nat.eqb i b && Nat.eqb k c); unfold Rdiv; ring. }
    rewrite (pick_row d e c (L1 nl N D P1 Q2) (fun j => nl (Q2 a b j) / INR N) Hc).
    rewrite (pick_entry D d b c (B1 N P1) (1 / INR N) Hb Hc). unfold dq1. rewrite Rmult_plus_distr_l. f_equal.
    + rewrite <- rsum_scal. apply rsum_ext; intros. field. auto.
    + field. auto.
  - intros; cst.
  - intros k j Hk Hj. apply (weight_derivable N D a b (fun n i y => nl (Q2 n i j) * upd P1 a b c y n i k)); auto.
    intros n i Hn Hi. unfold upd, at_. destruct (Nat.eqb_spec n a), (Nat.eqb_spec i b), (Nat.eqb_spec k c); cbn [andb]; subst; try cst.
    apply (derivable_ext (mult_real_fct (nl (Q2 a b j)) id)); [reflexivity|].
    apply (derivable_eq _ _ (nl (Q2 a b j) * 1)); [ring|]. apply derivable_pt_lim_scal, derivable_pt_lim_id.
  - intros; cst.
  - intros i k Hi Hk. apply bias_derivable.
Qed.

Lemma gradient_p2 c : (c < e)%nat ->
  derivable_pt_lim (fun y => INR N * EE nl N D d e P1 (upd P2 a b c y) Q1 Q2) (P2 a b c) (dq2 N D d P2 Q1 a b c).
Proof.
  intros Hc. unfold EE. eapply derivable_eq; [|eapply (energy_derivable N D d e
     (fun j k y => L2 N D (upd P2 a b c y) Q1 j k) (fun k j y => L1 nl N D P1 Q2 k j) (fun i j y => B2 N (upd P2 a b c y) i j) (fun i k y => B1 N P1 i k)
     (fun j k => (if Nat.eqb j c then Q1 a b k else 0) / INR N) (fun _ _ => 0)
     (fun i j => (if Nat.eqb i b && Nat.eqb j c then 1 else 0) / INR N) (fun _ _ => 0))].
  - assert (E0 : forall k j, L2 N D (upd P2 a b c (P2 a b c)) Q1 k j = L2 N D P2 Q1 k j).
    { intros j k. unfold L2. f_equal. apply rsum_ext; intros. apply rsum_ext; intros. rewrite upd_same. reflexivity. }
    assert (E1 : forall i k, B2 N (upd P2 a b c (P2 a b c)) i k = B2 N P2 i k).
    { intros i k. unfold B2. f_equal. apply rsum_ext; intros. rewrite upd_same. reflexivity. }
    symmetry. transitivity (INR N * (rsum e (fun j => rsum d (fun k => L2 N D P2 Q1 j k * (if Nat.eqb j c then Q1 a b k / INR N else 0)))
       + rsum D (fun i => rsum e (fun j => B2 N P2 i j * (if Nat.eqb i b && Nat.eqb j c then 1 / INR N else 0))))).
    2:{ f_equal. rewrite (rsum_all_zero d (fun k => rsum e (fun j => L1 nl N D P1 Q2 k j * 0))) by (intros; apply rsum_all_zero; intros; ring).
        rewrite (rsum_all_zero D (fun i => rsum d (fun k => B1 N P1 i k * 0))) by (intros; apply rsum_all_zero; intros; ring).
        rewrite !Rplus_0_r. f_equal; apply rsum_ext; intros i _; apply rsum_ext; intros k _.
        - rewrite E0. destruct (Nat.eqb i c); unfold Rdiv; ring.
        - rewrite E1. destruct (Nat.eqb i b && Nat.eqb k c); unfold Rdiv; ring. }
    rewrite (pick_row e d c (L2 N D P2 Q1) (fun k => Q1 a b k / INR N) Hc).
    rewrite (pick_entry D e b c (B2 N P2) (1 / INR N) Hb Hc). unfold dq2. rewrite Rmult_plus_distr_l. f_equal.
    + rewrite <- rsum_scal. apply rsum_ext; intros. field. auto.
    + field. auto.
  - intros j k Hj Hk. apply (weight_derivable N D a b (fun n i y => upd P2 a b c y n i j * Q1 n i k)); auto.
    intros n i Hn Hi. unfold upd, at_. destruct (Nat.eqb_spec n a), (Nat.eqb_spec i b), (Nat.eqb_spec j c); cbn [andb]; subst; try cst.
    apply (derivable_ext (mult_real_fct (Q1 a b k) id)); [intros; unfold mult_real_fct, id; ring|].
    apply (derivable_eq _ _ (Q1 a b k * 1)); [ring|]. apply derivable_pt_lim_scal, derivable_pt_lim_id.
  - intros; cst.
  - intros i k Hi Hk. apply bias_derivable.
  - intros; cst.
Qed.
End Gradient.

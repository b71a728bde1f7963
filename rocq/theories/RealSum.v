(** Finite sums of reals indexed by natural numbers.  No code of /repo is modelled here. *)
From Coq Require Import List Arith Lia Reals Lra.
Import ListNotations.
Open Scope R_scope.

(** Sum of [f 0], ..., [f (n-1)]. *)
Fixpoint rsum (n : nat) (f : nat -> R) : R :=
  match n with
  | O => 0
  | S m => rsum m f + f m
  end.

Lemma rsum_ext n f g : (forall i, (i < n)%nat -> f i = g i) -> rsum n f = rsum n g.
Proof.
  induction n as [|n IH]; intros H; cbn; [reflexivity|].
  rewrite IH by (intros; apply H; lia). rewrite (H n) by lia. reflexivity.
Qed.

Lemma rsum_zero n : rsum n (fun _ => 0) = 0.
Proof. induction n as [|n IH]; cbn; lra. Qed.

Lemma rsum_all_zero n f : (forall i, (i < n)%nat -> f i = 0) -> rsum n f = 0.
Proof. intros H. rewrite (rsum_ext n f (fun _ => 0)) by auto. apply rsum_zero. Qed.

Lemma rsum_plus n f g : rsum n (fun i => f i + g i) = rsum n f + rsum n g.
Proof. induction n as [|n IH]; cbn; lra. Qed.

Lemma rsum_minus n f g : rsum n (fun i => f i - g i) = rsum n f - rsum n g.
Proof. induction n as [|n IH]; cbn; lra. Qed.

Lemma rsum_scal n c f : rsum n (fun i => c * f i) = c * rsum n f.
Proof. induction n as [|n IH]; cbn; lra. Qed.

Lemma rsum_scal_r n c f : rsum n (fun i => f i * c) = rsum n f * c.
Proof. induction n as [|n IH]; cbn; lra. Qed.

Lemma rsum_opp n f : rsum n (fun i => - f i) = - rsum n f.
Proof. induction n as [|n IH]; cbn; lra. Qed.

Lemma rsum_swap n m f : rsum n (fun i => rsum m (fun j => f i j)) = rsum m (fun j => rsum n (fun i => f i j)).
Proof.
  induction n as [|n IH]; cbn.
  - symmetry. apply rsum_zero.
  - rewrite IH, rsum_plus. reflexivity.
Qed.

(** A sum with one non-zero term. *)
Lemma rsum_single n f k : (k < n)%nat -> (forall i, (i < n)%nat -> i <> k -> f i = 0) -> rsum n f = f k.
Proof.
  induction n as [|n IH]; intros Hk H; [lia|]. cbn.
  destruct (Nat.eq_dec k n) as [->|Hn].
  - rewrite rsum_all_zero by (intros; apply H; lia). lra.
  - rewrite IH by (lia || (intros; apply H; lia)). rewrite (H n) by lia. lra.
Qed.

Lemma rsum_nonneg n f : (forall i, (i < n)%nat -> 0 <= f i) -> 0 <= rsum n f.
Proof.
  induction n as [|n IH]; intros H; cbn; [lra|].
  pose proof (H n ltac:(lia)). pose proof (IH ltac:(intros; apply H; lia)). lra.
Qed.

Lemma rsum_nonneg_zero n f : (forall i, (i < n)%nat -> 0 <= f i) -> rsum n f = 0 ->
  forall i, (i < n)%nat -> f i = 0.
Proof.
  induction n as [|n IH]; intros H E i Hi; [lia|]. cbn in E.
  pose proof (H n ltac:(lia)). pose proof (rsum_nonneg n f ltac:(intros; apply H; lia)).
  destruct (Nat.eq_dec i n) as [->|Hn]; [lra|].
  apply IH; [intros; apply H; lia|lra|lia].
Qed.

Lemma rsum_shift n f : rsum (S n) f = f 0%nat + rsum n (fun i => f (S i)).
Proof. induction n as [|n IH]; [cbn; lra|]. cbn [rsum] in *. rewrite IH. lra. Qed.

Lemma rsum_split n m f : rsum (n + m) f = rsum n f + rsum m (fun i => f (n + i)%nat).
Proof.
  induction m as [|m IH]; cbn.
  - rewrite Nat.add_0_r. lra.
  - rewrite Nat.add_succ_r. cbn. rewrite IH. lra.
Qed.

(** The derivative of a sum. *)
Lemma rsum_derivable n (f : nat -> R -> R) (df : nat -> R) x :
  (forall i, (i < n)%nat -> derivable_pt_lim (f i) x (df i)) ->
  derivable_pt_lim (fun y => rsum n (fun i => f i y)) x (rsum n df).
Proof.
  induction n as [|n IH]; intros H; cbn.
  - apply derivable_pt_lim_const.
  - apply (derivable_pt_lim_plus (fun y => rsum n (fun i => f i y)) (f n)).
    + apply IH. intros. apply H. lia.
    + apply H. lia.
Qed.

(** Derivatives are insensitive to replacing the function by an equal one. *)
Lemma derivable_ext f g x l : (forall y, f y = g y) -> derivable_pt_lim f x l -> derivable_pt_lim g x l.
Proof.
  intros E D eps He. destruct (D eps He) as [d Hd]. exists d. intros h H1 H2.
  rewrite <- !E. apply Hd; assumption.
Qed.

Lemma derivable_eq f x l l' : l = l' -> derivable_pt_lim f x l -> derivable_pt_lim f x l'.
Proof. intros ->; auto. Qed.

(** Proofs for TriesModel. *)
From Coq Require Import List Reals Lra Lia.
From Coquelicot Require Import Coquelicot.
From Verif Require Import TriesModel TriesSpec.
Import ListNotations.
Open Scope list_scope.
Open Scope R_scope.

Lemma by_derive_differentiates : differentiates by_derive.
Proof.
  intros f x g [L D]. unfold by_derive.
  apply nth_ext with (d := 0) (d' := 0).
  - rewrite map_length, seq_length. congruence.
  - rewrite map_length, seq_length. intros n Hn.
    rewrite nth_indep with (d' := (fun i => Derive (fun t => f (with_entry i t x)) (nth i x 0)) 0%nat)
      by (rewrite map_length, seq_length; exact Hn).
    rewrite map_nth with (f := fun i => Derive (fun t => f (with_entry i t x)) (nth i x 0)).
    rewrite seq_nth by exact Hn. apply is_derive_unique. exact (D n Hn).
Qed.

Lemma with_entry_length i t x : (i < length x)%nat -> length (with_entry i t x) = length x.
Proof.
  intros H. unfold with_entry. rewrite app_length. cbn [length]. rewrite firstn_length, skipn_length. lia.
Qed.

Lemma entrywise_length op v w : length v = length w -> length (entrywise op v w) = length v.
Proof. intros H. unfold entrywise. rewrite map_length, combine_length. lia. Qed.

(** The sum over the entries of a function of the two tensors. *)
Definition both (h : R -> R -> R) (p x : list R) : R := total (entrywise h p x).

Lemma both_cons h a p b x : both h (a :: p) (b :: x) = h a b + both h p x.
Proof. reflexivity. Qed.

Lemma partials_cons f b x e g :
  is_derive (fun t => f (t :: x)) b e ->
  partials (fun y => f (b :: y)) x g -> partials f (b :: x) (e :: g).
Proof.
  intros D [L P]. split; [cbn; congruence|]. intros [|i] H.
  - exact D.
  - apply (P i). cbn in H. lia.
Qed.

Lemma partials_ext f f' x g :
  (forall y, length y = length x -> f y = f' y) -> partials f x g -> partials f' x g.
Proof.
  intros E [L P]. split; [exact L|]. intros i H.
  apply is_derive_ext with (f := fun t => f (with_entry i t x)); [|exact (P i H)].
  intros t. apply E. apply with_entry_length. exact H.
Qed.

Lemma partials_plus_const c f x g : partials f x g -> partials (fun y => c + f y) x g.
Proof.
  intros [L P]. split; [exact L|]. intros i H.
  replace (nth i g 0) with (plus (zero : R) (nth i g 0)) by (unfold plus, zero; cbn; ring).
  apply (is_derive_plus (K := R_AbsRing) (V := R_NormedModule) (fun _ => c) (fun t => f (with_entry i t x)));
    [apply (is_derive_const (K := R_AbsRing) (V := R_NormedModule))|exact (P i H)].
Qed.

(** Partial derivatives of such a sum with respect to the second and to the first tensor. *)
Lemma partials_second h h' :
  (forall a b, is_derive (fun t => h a t) b (h' a b)) ->
  forall p x, length p = length x -> partials (both h p) x (entrywise h' p x).
Proof.
  intros D. induction p as [|a p IH]; intros [|b x] L; try discriminate L.
  - split; [reflexivity|]. intros i H. cbn in H. lia.
  - change (entrywise h' (a :: p) (b :: x)) with (h' a b :: entrywise h' p x). apply partials_cons.
    + replace (h' a b) with (plus (h' a b) (zero : R)) by (unfold plus, zero; cbn; ring).
      apply (is_derive_plus (K := R_AbsRing) (V := R_NormedModule) (fun t => h a t) (fun _ => both h p x));
        [apply D|apply (is_derive_const (K := R_AbsRing) (V := R_NormedModule))].
    + apply (partials_ext (fun y => h a b + both h p y)); [intros; symmetry; apply both_cons|].
      apply partials_plus_const. apply IH. cbn in L. congruence.
Qed.

Lemma both_flip h p x : both h p x = both (fun a b => h b a) x p.
Proof.
  unfold both, entrywise. revert x. induction p as [|a p IH]; intros [|b x]; try reflexivity.
  cbn [combine map total fold_right fst snd]. f_equal. apply IH.
Qed.

Lemma entrywise_flip h p x : entrywise h p x = entrywise (fun a b => h b a) x p.
Proof.
  unfold entrywise. revert x. induction p as [|a p IH]; intros [|b x]; try reflexivity.
  cbn [combine map fst snd]. f_equal. apply IH.
Qed.

Lemma partials_first h h' :
  (forall a b, is_derive (fun t => h t b) a (h' a b)) ->
  forall p x, length p = length x -> partials (fun q => both h q x) p (entrywise h' p x).
Proof.
  intros D p x L. rewrite entrywise_flip.
  apply (partials_ext (both (fun a b => h b a) x)); [intros; symmetry; apply both_flip|].
  apply partials_second; [intros a b; apply D|congruence].
Qed.

(** The sums of the script in this form. *)
Lemma weighted_both p x : total (entrywise Rmult p (my_function x)) = both (fun a b => a * b ^ 3) p x.
Proof.
  unfold both, entrywise, my_function. revert x.
  induction p as [|a p IH]; intros [|b x]; try reflexivity.
  cbn [combine map total fold_right fst snd]. f_equal. apply IH.
Qed.

Lemma manual_entrywise p x : my_function2_manual p x = entrywise (fun a b => 3 * b ^ 2 * a) p x.
Proof.
  unfold my_function2_manual, entrywise, my_function_diff. revert x.
  induction p as [|a p IH]; intros [|b x]; try reflexivity.
  cbn [combine map fst snd]. f_equal. apply IH.
Qed.

Lemma both_plus h k p x : both h p x + both k p x = both (fun a b => h a b + k a b) p x.
Proof.
  unfold both, entrywise. revert x. induction p as [|a p IH]; intros [|b x]; cbn; try ring.
  specialize (IH x). cbn [total] in *. unfold total in IH. rewrite <- IH. ring.
Qed.

Lemma loss_manual_both p x : my_loss_manual p x = both (fun a b => 3 * b ^ 2 * a + a * b ^ 3) p x.
Proof.
  unfold my_loss_manual. rewrite manual_entrywise, weighted_both.
  change (total (entrywise (fun a b => 3 * b ^ 2 * a) p x)) with (both (fun a b => 3 * b ^ 2 * a) p x).
  apply both_plus.
Qed.

Section Grad.
Variable grad : (list R -> R) -> list R -> list R.
Hypothesis G : differentiates grad.

Lemma autodiff_manual p x :
  length p = length x -> my_function2_autodiff grad p x = my_function2_manual p x.
Proof.
  intros L. rewrite manual_entrywise. apply G.
  apply (partials_ext (both (fun a b => a * b ^ 3) p)); [intros; symmetry; apply weighted_both|].
  apply partials_second; [|exact L]. intros a b. auto_derive; [exact I|ring].
Qed.

Lemma losses_equal p x : length p = length x -> my_loss grad p x = my_loss_manual p x.
Proof. intros L. unfold my_loss, my_loss_manual. rewrite autodiff_manual by exact L. reflexivity. Qed.

Lemma manual_gradient p x :
  length p = length x ->
  partials (my_loss_manual p) x (entrywise (fun a b => 6 * b * a + 3 * b ^ 2 * a) p x).
Proof.
  intros L. apply (partials_ext (both (fun a b => 3 * b ^ 2 * a + a * b ^ 3) p)).
  - intros; symmetry; apply loss_manual_both.
  - apply partials_second; [|exact L]. intros a b. auto_derive; [exact I|ring].
Qed.

Lemma manual_weights p x :
  length p = length x ->
  partials (fun q => my_loss_manual q x) p (entrywise (fun _ b => 3 * b ^ 2 + b ^ 3) p x).
Proof.
  intros L. apply (partials_ext (fun q => both (fun a b => 3 * b ^ 2 * a + a * b ^ 3) q x)).
  - intros; symmetry; apply loss_manual_both.
  - apply partials_first; [|exact L]. intros a b. auto_derive; [exact I|ring].
Qed.

Lemma gradients p x :
  length p = length x ->
  grad (fun y => my_loss_manual p y) x = entrywise (fun a b => 6 * b * a + 3 * b ^ 2 * a) p x /\
  grad (fun y => my_loss grad p y) x = entrywise (fun a b => 6 * b * a + 3 * b ^ 2 * a) p x /\
  grad (fun q => my_loss_manual q x) p = entrywise (fun _ b => 3 * b ^ 2 + b ^ 3) p x /\
  grad (fun q => my_loss grad q x) p = entrywise (fun _ b => 3 * b ^ 2 + b ^ 3) p x.
Proof.
  intros L. split; [|split; [|split]].
  - apply G. exact (manual_gradient p x L).
  - apply G. apply (partials_ext (my_loss_manual p)); [|exact (manual_gradient p x L)].
    intros y Hy. symmetry. apply losses_equal. congruence.
  - apply G. exact (manual_weights p x L).
  - apply G. apply (partials_ext (fun q => my_loss_manual q x)); [|exact (manual_weights p x L)].
    intros q Hq. symmetry. apply losses_equal. congruence.
Qed.

Lemma minus_self v : entrywise Rminus v v = repeat 0 (length v).
Proof.
  unfold entrywise. induction v as [|a v IH]; [reflexivity|].
  cbn [combine map fst snd repeat length]. f_equal; [ring|exact IH].
Qed.

Lemma plus_self v : entrywise Rplus v v = map (fun a => 2 * a) v.
Proof.
  unfold entrywise. induction v as [|a v IH]; [reflexivity|].
  cbn [combine map fst snd]. f_equal; [ring|exact IH].
Qed.

Lemma squares_zero n : total (map (fun v => v ^ 2) (repeat 0 n)) = 0.
Proof.
  induction n as [|n IH]; [reflexivity|]. cbn [repeat map total fold_right].
  unfold total in IH. rewrite IH. ring.
Qed.

Lemma script p z :
  length p = length z ->
  let r := main grad z p in
  pr_square_difference r = 0 /\ pr_loss r = pr_loss_manual r /\
  pr_gradient r = Some (entrywise (fun a b => 6 * b * a + 3 * b ^ 2 * a) p z) /\
  pr_gradient_manual r = pr_gradient r /\
  pr_difference r = Some (repeat 0 (length z)) /\
  pr_weights r = Some (map (fun a => 2 * a) (entrywise (fun _ b => 3 * b ^ 2 + b ^ 3) p z)).
Proof.
  intros L r. destruct (gradients p z L) as (E1 & E2 & E3 & E4).
  unfold r, main. cbn [pr_square_difference pr_loss pr_loss_manual pr_gradient pr_gradient_manual
    pr_difference pr_weights accumulate]. rewrite E1, E2, E3, E4, (autodiff_manual p z L), !minus_self, plus_self.
  split; [apply squares_zero|]. split; [exact (losses_equal p z L)|].
  repeat split. rewrite entrywise_length by exact L. rewrite L. reflexivity.
Qed.
End Grad.

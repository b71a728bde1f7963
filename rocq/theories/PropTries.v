(** C140: the automatic and the manual derivatives of autodiff_tries.py agree. *)
From Coq Require Import List Reals Lra.
From Coquelicot Require Import Coquelicot.
From Verif Require Import TriesModel TriesSpec TriesProofs.
Import ListNotations.
Open Scope list_scope.
Open Scope R_scope.

Theorem C140_functions :
  forall grad, differentiates grad ->
  forall p x, length p = length x ->
  my_function2_autodiff grad p x = my_function2_manual p x /\ my_loss grad p x = my_loss_manual p x.
Proof. exact (fun grad G p x L => conj (autodiff_manual grad G p x L) (losses_equal grad G p x L)). Qed.
Print Assumptions C140_functions.

Theorem C140_gradients :
  forall p x, length p = length x ->
  partials (my_loss_manual p) x (entrywise (fun a b => 6 * b * a + 3 * b ^ 2 * a) p x) /\
  partials (fun q => my_loss_manual q x) p (entrywise (fun _ b => 3 * b ^ 2 + b ^ 3) p x).
Proof. exact (fun p x L => conj (manual_gradient p x L) (manual_weights p x L)). Qed.
Print Assumptions C140_gradients.

Theorem C140_script :
  forall grad, differentiates grad ->
  forall p z, length p = length z ->
  let r := main grad z p in
  pr_square_difference r = 0 /\ pr_loss r = pr_loss_manual r /\
  pr_gradient r = Some (entrywise (fun a b => 6 * b * a + 3 * b ^ 2 * a) p z) /\
  pr_gradient_manual r = pr_gradient r /\
  pr_difference r = Some (repeat 0 (length z)) /\
  pr_weights r = Some (map (fun a => 2 * a) (entrywise (fun _ b => 3 * b ^ 2 + b ^ 3) p z)).
Proof. exact script. Qed.
Print Assumptions C140_script.

(** Two entries: the losses are 3*1*2 + 2 + 3*4*5 + 5*8, the gradients 6*1*2 + 3*2 and 6*2*5 + 3*4*5. *)
Example C140_example :
  differentiates by_derive /\
  pr_loss (main by_derive [1; 2] [2; 5]) = 108 /\
  pr_gradient (main by_derive [1; 2] [2; 5]) = Some [18; 120].
Proof.
  split; [exact by_derive_differentiates|].
  destruct (C140_script by_derive by_derive_differentiates [2; 5] [1; 2] eq_refl) as (_ & E & F & _).
  rewrite E, F. split.
  - cbn [main pr_loss_manual].
    unfold my_loss_manual, my_function2_manual, my_function_diff, my_function, entrywise, total.
    cbn [map combine fst snd fold_right]. ring.
  - unfold entrywise. cbn [map combine fst snd]. apply f_equal. apply f_equal2; [ring|].
    apply f_equal2; [ring|reflexivity].
Qed.

(** Properties C35 and C36: parameters that minimise the energy. *)
From Coq Require Import List String Reals Arith Lia Lra.
From Verif Require Import Base Tensor EnergyModel EnergySpec RealSum EnergyProofs EnergyProofs2.
Import ListNotations.
Open Scope R_scope.

(** ** C35

    [potential] is a constant plus the linear form [g]; torch returns its gradient.  The parameters
    computed are the only minimiser of kinetic energy minus potential energy among all parameters of
    the same layout. *)
Theorem C35_unique_minimiser : forall grad default potential c g,
  objects_wf default -> Forall (fun w => 0 < w) (weights default) ->
  affine_in potential default c g -> is_gradient potential default (grad potential default) ->
  exists os, compute_parameters_directly grad default potential = Ok os /\
    same_layout default os /\ objects_wf os /\
    forall os', same_layout default os' -> objects_wf os' ->
      compute_lagrangian potential os <= compute_lagrangian potential os' /\
      (compute_lagrangian potential os' = compute_lagrangian potential os -> os' = os).
Proof. exact directly_minimises. Qed.
Print Assumptions C35_unique_minimiser.

(** In closed form, for any non-zero or zero weights. *)
Theorem C35_closed_form : forall grad default potential c g,
  objects_wf default -> affine_in potential default c g ->
  is_gradient potential default (grad potential default) ->
  exists os, compute_parameters_directly grad default potential = Ok os /\
    same_layout default os /\ objects_wf os /\
    forall e, (e < List.length (entries default))%nat -> at_ (entries os) e = g e / at_ (weights default) e.
Proof. exact directly_spec. Qed.
Print Assumptions C35_closed_form.

(** The kinetic energy is half the weighted sum of squares. *)
Theorem C35_kinetic_energy : forall os,
  kinetic_energy os =
  1 / 2 * rsum (List.length (entries os)) (fun e => at_ (weights os) e * at_ (entries os) e ^ 2).
Proof. exact kinetic_rsum. Qed.
Print Assumptions C35_kinetic_energy.

Theorem C35_kinetic_positive : forall os, Forall (fun w => 0 < w) (weights os) ->
  0 <= kinetic_energy os /\ (kinetic_energy os = 0 <-> Forall (fun x => x = 0) (entries os)).
Proof. exact kinetic_nonneg. Qed.
Print Assumptions C35_kinetic_positive.

(** ** C36

    The gradient iteration for the default kinetic energy and an affine potential: after [n]
    steps with learning rate [lr] the error of each entry has shrunk by [(1 - lr * w) ^ n]. *)
Theorem C36_error : forall grad potential c g lr n os,
  objects_wf os -> affine_in potential os c g -> Forall (fun w => w <> 0) (weights os) ->
  (forall os', same_layout os os' -> objects_wf os' ->
     is_gradient (compute_lagrangian potential) os' (grad (compute_lagrangian potential) os')) ->
  exists os', gradient_steps grad (compute_lagrangian potential) lr n os = Ok os' /\
    same_layout os os' /\ objects_wf os' /\
    forall e, (e < List.length (entries os))%nat ->
      let w := at_ (weights os) e in
      at_ (entries os') e - g e / w = (1 - lr * w) ^ n * (at_ (entries os) e - g e / w).
Proof. exact diagonal_error. Qed.
Print Assumptions C36_error.

(** What the code does: five steps with learning rate one half. *)
Theorem C36_five_iterations : forall grad default potential c g,
  objects_wf default -> affine_in potential default c g -> Forall (fun w => w <> 0) (weights default) ->
  (forall os', same_layout default os' -> objects_wf os' ->
     is_gradient (compute_lagrangian potential) os' (grad (compute_lagrangian potential) os')) ->
  exists os, compute_parameters_iteratively grad default potential = Ok os /\
    same_layout default os /\ objects_wf os /\
    forall e, (e < List.length (entries default))%nat ->
      let w := at_ (weights default) e in
      at_ (entries os) e - g e / w = (1 - 1 / 2 * w) ^ 5 * (at_ (entries default) e - g e / w).
Proof. exact (fun grad default potential c g => diagonal_error grad potential c g (1 / 2) 5 default). Qed.
Print Assumptions C36_five_iterations.

(** With more and more iterations an entry not yet optimal converges exactly for weights strictly
    between 0 and 4, and then to the optimum. *)
Theorem C36_convergence : forall grad potential c g os xs,
  objects_wf os -> affine_in potential os c g -> Forall (fun w => w <> 0) (weights os) ->
  (forall os', same_layout os os' -> objects_wf os' ->
     is_gradient (compute_lagrangian potential) os' (grad (compute_lagrangian potential) os')) ->
  (forall n, gradient_steps grad (compute_lagrangian potential) (1 / 2) n os = Ok (xs n)) ->
  forall e, (e < List.length (entries os))%nat -> at_ (entries os) e <> g e / at_ (weights os) e ->
    ((exists l, Un_cv (fun n => at_ (entries (xs n)) e) l) <-> 0 < at_ (weights os) e < 4) /\
    (0 < at_ (weights os) e < 4 -> Un_cv (fun n => at_ (entries (xs n)) e) (g e / at_ (weights os) e)).
Proof. exact iteration_converges. Qed.
Print Assumptions C36_convergence.

(** Any quadratic energy, with parameters coupled by a symmetric matrix [a]: the error seen along an eigenvector
    shrinks by one minus learning rate times eigenvalue in each step. *)
Theorem C36_coupled_error : forall grad f c a g lr n os,
  objects_wf os -> quadratic_in f os c a g ->
  (forall os', same_layout os os' -> objects_wf os' -> is_gradient f os' (grad f os')) ->
  exists os', gradient_steps grad f lr n os = Ok os' /\ same_layout os os' /\ objects_wf os' /\
    forall lambda v s, let d := List.length (entries os) in
      eigenvector d a lambda v -> (forall e, (e < d)%nat -> rsum d (fun j => a e j * s j) = g e) ->
      rsum d (fun e => v e * (at_ (entries os') e - s e)) =
      (1 - lr * lambda) ^ n * rsum d (fun e => v e * (at_ (entries os) e - s e)).
Proof. exact gradient_steps_spec. Qed.
Print Assumptions C36_coupled_error.

(** The optimal transport variant takes ten steps; it needs a parameter weight. *)
Theorem C36_optimal_transport : forall grad default potential rhs_values w c a g,
  objects_wf default ->
  quadratic_in (fun os => 1 / 2 * w * total (map sum_squares (rhs_values os)) - potential os) default c a g ->
  (forall os', same_layout default os' -> objects_wf os' ->
     let f := fun os => 1 / 2 * w * total (map sum_squares (rhs_values os)) - potential os in
     is_gradient f os' (grad f os')) ->
  exists os, ot_compute_parameters_iteratively grad default potential rhs_values (Some w) = Ok os /\
    same_layout default os /\ objects_wf os /\
    forall lambda v s, let d := List.length (entries default) in
      eigenvector d a lambda v -> (forall e, (e < d)%nat -> rsum d (fun j => a e j * s j) = g e) ->
      rsum d (fun e => v e * (at_ (entries os) e - s e)) =
      (1 - 1 / 2 * lambda) ^ 10 * rsum d (fun e => v e * (at_ (entries default) e - s e)).
Proof. exact ot_spec. Qed.
Print Assumptions C36_optimal_transport.

Theorem C36_optimal_transport_no_weight : forall grad default potential rhs_values,
  ot_compute_parameters_iteratively grad default potential rhs_values None = Raise TypeError.
Proof. exact ot_no_weight. Qed.
Print Assumptions C36_optimal_transport_no_weight.

(** ** A linear layer with two inputs and one output, weight 2 on its matrix and none on its bias. *)
Definition ex_objects : pobjs :=
  [("l1", mkPobj [("bias", mkT [1%nat] [0]); ("weight", mkT [1%nat; 2%nat] [1; 1])]
                 [("bias", None); ("weight", Some 2)])]%string.

Definition ex_form (e : nat) : R := nth e [-1; 3; 5] 0.

Definition ex_potential (os : pobjs) : R := 7 + rsum 3 (fun e => ex_form e * at_ (entries os) e).

(** The gradient of the potential, and that of the Lagrangian. *)
Definition ex_grad_potential (f : pobjs -> R) (os : pobjs) : list (tensor R) :=
  [mkT [1%nat] [-1]; mkT [1%nat; 2%nat] [3; 5]].

Definition ex_grad_lagrangian (f : pobjs -> R) (os : pobjs) : list (tensor R) :=
  let x := at_ (entries os) in
  [mkT [1%nat] [x 0%nat + 1]; mkT [1%nat; 2%nat] [2 * x 1%nat - 3; 2 * x 2%nat - 5]].

Example ex_objects_wf : objects_wf ex_objects.
Proof. split; repeat constructor. Qed.

Example C35_case :
  Forall (fun w => 0 < w) (weights ex_objects) /\
  affine_in ex_potential ex_objects 7 ex_form /\
  is_gradient ex_potential ex_objects (ex_grad_potential ex_potential ex_objects) /\
  compute_parameters_directly ex_grad_potential ex_objects ex_potential =
    Ok [("l1", mkPobj [("bias", mkT [1%nat] [-1]); ("weight", mkT [1%nat; 2%nat] [3 / 2; 5 / 2])]
                      [("bias", None); ("weight", Some 2)])]%string.
Proof.
  assert (A : affine_in ex_potential ex_objects 7 ex_form) by (intros os' L W; reflexivity).
  split; [cbn; repeat (apply Forall_cons; [lra|]); apply Forall_nil|]. split; [exact A|]. split; [|reflexivity].
  split; [repeat constructor|].
  intros e He. eapply derivable_eq; [|exact (affine_derivable _ _ _ _ ex_objects_wf A e He)].
  cbn in He. destruct e as [|[|[|e]]]; [reflexivity..|lia].
Qed.

Example C36_case :
  Forall (fun w => w <> 0) (weights ex_objects) /\
  (forall os', same_layout ex_objects os' -> objects_wf os' ->
     is_gradient (compute_lagrangian ex_potential) os' (ex_grad_lagrangian (compute_lagrangian ex_potential) os')).
Proof.
  split; [cbn; repeat (apply Forall_cons; [lra|]); apply Forall_nil|]. intros os' L W.
  assert (A : affine_in ex_potential ex_objects 7 ex_form) by (intros o _ _; reflexivity).
  pose proof (lagrangian_quadratic _ _ _ _ ex_objects_wf A) as Q.
  apply (quadratic_layout _ _ _ _ _ os') in Q; [|exact ex_objects_wf|exact W|exact L].
  split.
  - unfold same_layout, ex_objects in L. inversion L as [|x y a b (_ & _ & P) N]; subst. inversion N; subst.
    cbn [snd po_pars] in P. destruct y as [o [pars ws]]. cbn [snd po_pars] in P.
    inversion P as [|u v l l' [_ E1] P']; subst. inversion P' as [|u2 v2 l2 l2' [_ E2] P'']; subst.
    inversion P''; subst. unfold parameters. cbn [flat_map snd po_pars map app].
    apply Forall2_cons; [split; [exact E1|reflexivity]|].
    apply Forall2_cons; [split; [exact E2|reflexivity]|apply Forall2_nil].
  - intros e He. eapply derivable_eq; [|exact (quadratic_derivable _ _ _ _ _ W Q e He)].
    rewrite <- (same_layout_entries_length _ _ L ex_objects_wf W) in *.
    rewrite (rsum_diagonal ex_objects _ e (at_ (entries os')) He).
    cbn in He. unfold ex_grad_lagrangian, ex_form. destruct e as [|[|[|e]]]; [cbn; lra..|lia].
Qed.

(** A weight of 5 makes the iteration diverge: five steps multiply the error by about minus 7.6. *)
Example C36_diverging_case : (1 - 1 / 2 * 5) ^ 5 = - 243 / 32.
Proof. lra. Qed.

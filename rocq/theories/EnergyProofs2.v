(** Proofs about the energies: minimisers and the gradient iteration. *)
From Coq Require Import List String Bool Reals Arith Lia Lra Psatz.
From Verif Require Import Base BaseFacts Tensor TensorFacts ScdModel.
From Verif Require Import RealSum EnergyModel EnergySpec EnergyProofs.
Import ListNotations.
Open Scope R_scope.

Lemma tensor_div_one t : tdivide t 1 = t.
Proof.
  destruct t as [s l]. unfold tdivide. cbn. f_equal.
  rewrite <- (map_id l) at 2. apply map_ext. intros x. field.
Qed.

Lemma store_par_eq ws p k v :
  store_par ws p (k, v) = sd_set k (tdivide v (effective_weight ws k)) p.
Proof.
  unfold store_par, effective_weight. cbn [fst snd].
  destruct (sd_get k ws) as [[w|]|]; rewrite ?tensor_div_one; reflexivity.
Qed.

Lemma foldM_pure {A S} (f : S -> A -> S) l : forall s, foldM (fun s a => Ok (f s a)) l s = Ok (fold_left f l s).
Proof. induction l as [|a l IH]; intros s; cbn; [reflexivity|]. apply IH. Qed.

Lemma mapM_ext {A B} (f g : A -> result B) l : (forall a, f a = g a) -> mapM f l = mapM g l.
Proof. intros E. induction l as [|a l IH]; cbn; [reflexivity|]. rewrite E, IH. reflexivity. Qed.

Lemma map_snd_combine a b : List.length a = List.length b ->
  map (fun xy : R * R => snd xy) (combine a b) = b.
Proof. intros L. apply combine_snd. lia. Qed.

(** The direct computation stores gradient over weight. *)
Lemma divide_and_store_spec os g :
  objects_wf os -> Forall2 good (parameters os) g ->
  exists d os', extract_dict_from_tuple_parameter_objects g (parameter_dicts os) "grad_" = Ok d /\
    divide_and_store_in_parameter_objects os d = Ok os' /\
    same_layout os os' /\ objects_wf os' /\
    forall e, (e < List.length (entries os))%nat ->
      at_ (entries os') e = at_ (flat_map tdata g) e / at_ (weights os) e.
Proof.
  intros W F.
  destruct (update_objects (fun ws p kf => Ok (store_par ws p kf))
              (fun ws kt v => tdivide v (effective_weight ws (fst kt)))
              (fun w x y => y / w)) with (os := os) (g := g) as (d & os' & E1 & E2 & L & Wf & A); auto.
  - intros ws k t v p _ _ _ _. cbn [fst]. rewrite store_par_eq. reflexivity.
  - intros ws k t v H1 H2 H3. cbn [fst tdivide tdata].
    assert (S : List.length (tdata t) = List.length (tdata v)) by (unfold twf in *; congruence).
    rewrite <- (map_snd_combine _ _ S) at 1. rewrite map_map. reflexivity.
  - exists d, os'. split; [exact E1|]. split; [|auto].
    rewrite <- E2. unfold divide_and_store_in_parameter_objects. apply mapM_ext. intros op.
    destruct (sd_item (fst op) d) as [from|ex]; cbn [bind]; [|reflexivity].
    rewrite foldM_pure. reflexivity.
Qed.

Lemma add_multiple_spec os g m :
  objects_wf os -> Forall2 good (parameters os) g ->
  exists d os', extract_dict_from_tuple_parameter_objects g (parameter_dicts os) "grad_" = Ok d /\
    add_multiple_to_parameter_objects os d m = Ok os' /\
    same_layout os os' /\ objects_wf os' /\
    forall e, (e < List.length (entries os))%nat ->
      at_ (entries os') e = at_ (entries os) e + m * at_ (flat_map tdata g) e.
Proof.
  intros W F.
  destruct (update_objects (fun ws => add_par m)
              (fun ws kt v => mkT (tshape (snd kt))
                 (map (fun xy => fst xy + snd xy) (combine (tdata (snd kt)) (tdata (tscale m v)))))
              (fun w x y => x + m * y)) with (os := os) (g := g) as (d & os' & E1 & E2 & L & Wf & A); auto.
  - intros ws k t v p H1 H2 H3 H4. unfold add_par. cbn [fst snd]. unfold sd_item. rewrite H4. cbn [bind].
    unfold taddition. cbn [tscale tshape]. rewrite H1.
    replace (eqb_list (tshape t) (tshape t)) with true by (symmetry; apply eqb_list_eq; reflexivity). reflexivity.
  - intros ws k t v H1 H2 H3. cbn [snd tdata tscale].
    generalize (tdata v) as b. generalize (tdata t) as a.
    induction a as [|x a IH]; intros [|y b]; cbn; [reflexivity..|]. rewrite IH. reflexivity.
  - exists d, os'. auto.
Qed.

(** ** Derivatives of polynomials in the entries *)

Lemma at_set_nth x e y i : (e < List.length x)%nat ->
  at_ (set_nth e y x) i = if Nat.eqb i e then y else at_ x i.
Proof.
  intros He. unfold at_. destruct (Nat.eqb_spec i e) as [->|N].
  - pose proof (nth_error_set_nth_same e y x He) as H. apply nth_error_nth. exact H.
  - rewrite !nth_default_eq || idtac. pose proof (nth_error_set_nth_other e i y x ltac:(auto)) as H.
    destruct (nth_error x i) as [v|] eqn:E.
    + rewrite (nth_error_nth _ _ _ H), (nth_error_nth _ _ _ E). reflexivity.
    + apply nth_error_None in E. rewrite !nth_overflow; [reflexivity|exact E|].
      rewrite set_nth_length. exact E.
Qed.

Definition delta (i e : nat) : R := if Nat.eqb i e then 1 else 0.

Lemma entry_derivable x e i : (e < List.length x)%nat ->
  derivable_pt_lim (fun y => at_ (set_nth e y x) i) (at_ x e) (delta i e).
Proof.
  intros He. unfold delta.
  apply (derivable_ext (fun y => if Nat.eqb i e then y else at_ x i));
    [intros y; symmetry; apply at_set_nth; exact He|].
  destruct (Nat.eqb i e); [apply derivable_pt_lim_id|apply derivable_pt_lim_const].
Qed.

Lemma entry_at x e i : (e < List.length x)%nat -> at_ (set_nth e (at_ x e) x) i = at_ x i.
Proof. intros He. rewrite at_set_nth by exact He. destruct (Nat.eqb_spec i e) as [->|]; reflexivity. Qed.

Lemma rsum_delta n f e : (e < n)%nat -> rsum n (fun i => f i * delta i e) = f e.
Proof.
  intros He. rewrite (rsum_single n _ e He); unfold delta.
  - rewrite Nat.eqb_refl. lra.
  - intros i _ N. replace (Nat.eqb i e) with false by (symmetry; apply Nat.eqb_neq; exact N). lra.
Qed.

Lemma linear_derivable g x e n : n = List.length x -> (e < n)%nat ->
  derivable_pt_lim (fun y => rsum n (fun i => g i * at_ (set_nth e y x) i)) (at_ x e) (g e).
Proof.
  intros -> He. apply (derivable_eq _ _ (rsum (List.length x) (fun i => g i * delta i e))); [apply rsum_delta, He|].
  apply (rsum_derivable _ (fun i y => g i * at_ (set_nth e y x) i) (fun i => g i * delta i e)). intros i _.
  apply (derivable_pt_lim_scal (fun y => at_ (set_nth e y x) i)). apply entry_derivable, He.
Qed.

Lemma form_derivable a x e n : (forall i j, a i j = a j i) -> n = List.length x -> (e < n)%nat ->
  derivable_pt_lim
    (fun y => 1 / 2 * rsum n (fun i => rsum n (fun j => a i j * at_ (set_nth e y x) i * at_ (set_nth e y x) j)))
    (at_ x e) (rsum n (fun j => a e j * at_ x j)).
Proof.
  intros Sy -> He. set (n := List.length x) in *.
  apply (derivable_eq _ _ (1 / 2 * rsum n (fun i => rsum n (fun j =>
           a i j * delta i e * at_ x j + a i j * at_ x i * delta j e)))).
  - replace (rsum n (fun i => rsum n (fun j => a i j * delta i e * at_ x j + a i j * at_ x i * delta j e)))
      with (rsum n (fun j => a e j * at_ x j) + rsum n (fun i => a i e * at_ x i)).
    + rewrite (rsum_ext n (fun i => a i e * at_ x i) (fun i => a e i * at_ x i)) by (intros; rewrite Sy; reflexivity). lra.
    + rewrite (rsum_ext n (fun i => rsum n (fun j => a i j * delta i e * at_ x j + a i j * at_ x i * delta j e))
        (fun i => rsum n (fun j => a i j * at_ x j) * delta i e + a i e * at_ x i)).
      * rewrite rsum_plus. f_equal. rewrite (rsum_delta n (fun i => rsum n (fun j => a i j * at_ x j)) e He). reflexivity.
      * intros i _. rewrite rsum_plus. f_equal.
        -- rewrite <- rsum_scal_r. apply rsum_ext. intros; ring.
        -- rewrite (rsum_delta n (fun j => a i j * at_ x i) e He). reflexivity.
  - apply (derivable_pt_lim_scal (fun y => rsum n (fun i => rsum n (fun j => a i j * at_ (set_nth e y x) i * at_ (set_nth e y x) j)))).
    apply (rsum_derivable n (fun i y => rsum n (fun j => a i j * at_ (set_nth e y x) i * at_ (set_nth e y x) j))
             (fun i => rsum n (fun j => a i j * delta i e * at_ x j + a i j * at_ x i * delta j e))). intros i _.
    apply (rsum_derivable n (fun j y => a i j * at_ (set_nth e y x) i * at_ (set_nth e y x) j)
             (fun j => a i j * delta i e * at_ x j + a i j * at_ x i * delta j e)). intros j _.
    pose proof (derivable_pt_lim_mult (fun y => a i j * at_ (set_nth e y x) i) (fun y => at_ (set_nth e y x) j)
      (at_ x e) (a i j * delta i e) (delta j e)) as M.
    cbv beta in M. unfold mult_fct in M. rewrite !(entry_at x e) in M by exact He.
    apply M; [|apply entry_derivable, He].
    apply (derivable_pt_lim_scal (fun y => at_ (set_nth e y x) i)). apply entry_derivable, He.
Qed.

Lemma set_nth_layout os e y : objects_wf os ->
  same_layout os (with_entries os (set_nth e y (entries os))) /\
  objects_wf (with_entries os (set_nth e y (entries os))) /\
  entries (with_entries os (set_nth e y (entries os))) = set_nth e y (entries os).
Proof.
  intros W. pose proof (set_nth_length e y (entries os)) as L.
  split; [apply with_entries_layout|]. split; [apply with_entries_wf; auto|apply with_entries_entries; auto].
Qed.

Lemma affine_derivable f os c g : objects_wf os -> affine_in f os c g ->
  forall e, (e < List.length (entries os))%nat ->
  derivable_pt_lim (fun y => f (with_entries os (set_nth e y (entries os)))) (at_ (entries os) e) (g e).
Proof.
  intros W A e He.
  apply (derivable_ext (fun y => c + rsum (List.length (entries os)) (fun i => g i * at_ (set_nth e y (entries os)) i))).
  - intros y. destruct (set_nth_layout os e y W) as (L & W' & E).
    rewrite (A _ L W'), E. reflexivity.
  - apply (derivable_eq _ _ (0 + g e)); [lra|].
    apply (derivable_pt_lim_plus (fun _ => c)); [apply derivable_pt_lim_const|apply linear_derivable; auto].
Qed.

Lemma affine_gradient f os c g G : objects_wf os -> affine_in f os c g -> is_gradient f os G ->
  forall e, (e < List.length (entries os))%nat -> at_ (flat_map tdata G) e = g e.
Proof.
  intros W A [_ D] e He. eapply uniqueness_limite; [apply D, He|]. eapply affine_derivable; eauto.
Qed.

Lemma quadratic_derivable f os c a g : objects_wf os -> quadratic_in f os c a g ->
  forall e, (e < List.length (entries os))%nat ->
  derivable_pt_lim (fun y => f (with_entries os (set_nth e y (entries os)))) (at_ (entries os) e)
    (rsum (List.length (entries os)) (fun j => a e j * at_ (entries os) j) - g e).
Proof.
  intros W [Sy A] e He.
  set (n := List.length (entries os)) in *. set (x := entries os) in *.
  apply (derivable_ext (fun y => c + 1 / 2 * rsum n (fun i => rsum n (fun j => a i j * at_ (set_nth e y x) i * at_ (set_nth e y x) j))
     - rsum n (fun i => g i * at_ (set_nth e y x) i))).
  - intros y. destruct (set_nth_layout os e y W) as (L & W' & E).
    pose proof (A _ L W') as H. cbv zeta in H. rewrite E in H. symmetry. exact H.
  - apply (derivable_pt_lim_minus (fun y => c + 1 / 2 * rsum n (fun i => rsum n (fun j => a i j * at_ (set_nth e y x) i * at_ (set_nth e y x) j)))
      (fun y => rsum n (fun i => g i * at_ (set_nth e y x) i))); [|apply linear_derivable; auto].
    apply (derivable_eq _ _ (0 + rsum n (fun j => a e j * at_ x j))); [lra|].
    apply (derivable_pt_lim_plus (fun _ => c)); [apply derivable_pt_lim_const|apply form_derivable; auto].
Qed.

Lemma quadratic_gradient f os c a g G : objects_wf os -> quadratic_in f os c a g -> is_gradient f os G ->
  forall e, (e < List.length (entries os))%nat ->
  at_ (flat_map tdata G) e = rsum (List.length (entries os)) (fun j => a e j * at_ (entries os) j) - g e.
Proof.
  intros W Q [_ D] e He. eapply uniqueness_limite; [apply D, He|]. eapply quadratic_derivable; eauto.
Qed.

(** ** C35 *)

Lemma Forall_at (P : R -> Prop) l : Forall P l -> forall e, (e < List.length l)%nat -> P (at_ l e).
Proof. intros F e He. rewrite Forall_forall in F. apply F, nth_In, He. Qed.

Lemma at_ext a b : List.length a = List.length b -> (forall e, (e < List.length a)%nat -> at_ a e = at_ b e) -> a = b.
Proof. intros L H. apply (nth_ext a b 0 0); auto. Qed.

Lemma lagrangian_affine potential os c g os' : affine_in potential os c g -> objects_wf os ->
  same_layout os os' -> objects_wf os' ->
  compute_lagrangian potential os' =
  rsum (List.length (entries os)) (fun e => 1 / 2 * (at_ (weights os) e * at_ (entries os') e ^ 2) - g e * at_ (entries os') e) - c.
Proof.
  intros A W L W'. unfold compute_lagrangian. rewrite (A _ L W'), kinetic_rsum.
  rewrite <- (same_layout_entries_length _ _ L W W'), <- (same_layout_weights _ _ L W W').
  rewrite rsum_minus, rsum_scal. lra.
Qed.

Lemma directly_spec grad default potential c g :
  objects_wf default -> affine_in potential default c g ->
  is_gradient potential default (grad potential default) ->
  exists os, compute_parameters_directly grad default potential = Ok os /\
    same_layout default os /\ objects_wf os /\
    forall e, (e < List.length (entries default))%nat -> at_ (entries os) e = g e / at_ (weights default) e.
Proof.
  intros W A D.
  destruct (divide_and_store_spec default (grad potential default) W) as (d & os & E1 & E2 & L & W' & H).
  { destruct D as [F _]. exact F. }
  exists os. unfold compute_parameters_directly, gradient_dict. rewrite E1. cbn [bind].
  split; [exact E2|]. split; [exact L|]. split; [exact W'|]. intros e He.
  rewrite H by exact He. rewrite (affine_gradient _ _ _ _ _ W A D e He). reflexivity.
Qed.

Lemma directly_minimises grad default potential c g :
  objects_wf default -> Forall (fun w => 0 < w) (weights default) ->
  affine_in potential default c g -> is_gradient potential default (grad potential default) ->
  exists os, compute_parameters_directly grad default potential = Ok os /\
    same_layout default os /\ objects_wf os /\
    forall os', same_layout default os' -> objects_wf os' ->
      compute_lagrangian potential os <= compute_lagrangian potential os' /\
      (compute_lagrangian potential os' = compute_lagrangian potential os -> os' = os).
Proof.
  intros W P A D. destruct (directly_spec grad default potential c g W A D) as (os & E & L & W' & H).
  exists os. split; [exact E|]. split; [exact L|]. split; [exact W'|]. intros os' L' W''.
  rewrite (lagrangian_affine _ _ _ _ _ A W L W'), (lagrangian_affine _ _ _ _ _ A W L' W'').
  set (n := List.length (entries default)) in *.
  assert (Pw : forall e, (e < n)%nat -> 0 < at_ (weights default) e).
  { intros e He. apply (Forall_at (fun w => 0 < w)); [exact P|]. rewrite weights_length. exact He. }
  assert (Q : rsum n (fun e => 1 / 2 * (at_ (weights default) e * at_ (entries os') e ^ 2) - g e * at_ (entries os') e)
     - rsum n (fun e => 1 / 2 * (at_ (weights default) e * at_ (entries os) e ^ 2) - g e * at_ (entries os) e)
     = rsum n (fun e => 1 / 2 * at_ (weights default) e * (at_ (entries os') e - at_ (entries os) e) ^ 2)).
  { rewrite <- rsum_minus. apply rsum_ext. intros e He. rewrite (H e He). pose proof (Pw e He). field. lra. }
  assert (N : forall e, (e < n)%nat -> 0 <= 1 / 2 * at_ (weights default) e * (at_ (entries os') e - at_ (entries os) e) ^ 2).
  { intros e He. pose proof (Pw e He). pose proof (pow2_ge_0 (at_ (entries os') e - at_ (entries os) e)). nra. }
  split.
  - pose proof (rsum_nonneg n _ N). lra.
  - intros Eq. assert (Z : rsum n (fun e => 1 / 2 * at_ (weights default) e * (at_ (entries os') e - at_ (entries os) e) ^ 2) = 0) by lra.
    pose proof (rsum_nonneg_zero n _ N Z) as Z'. cbv beta in Z'.
    apply same_layout_entries_eq; auto.
    + apply (same_layout_trans _ default); [apply same_layout_sym; exact L'|exact L].
    + apply at_ext.
      * rewrite <- (same_layout_entries_length _ _ L W W'), <- (same_layout_entries_length _ _ L' W W''). reflexivity.
      * intros e He. rewrite <- (same_layout_entries_length _ _ L' W W'') in He. fold n in He.
        pose proof (Z' e He) as Ze. pose proof (Pw e He).
        assert (S : (at_ (entries os') e - at_ (entries os) e) ^ 2 = 0).
        { pose proof (pow2_ge_0 (at_ (entries os') e - at_ (entries os) e)). nra. }
        nra.
Qed.

Lemma kinetic_nonneg os : Forall (fun w => 0 < w) (weights os) ->
  0 <= kinetic_energy os /\ (kinetic_energy os = 0 <-> Forall (fun x => x = 0) (entries os)).
Proof.
  intros P. rewrite kinetic_rsum. set (n := List.length (entries os)).
  assert (N : forall e, (e < n)%nat -> 0 <= at_ (weights os) e * at_ (entries os) e ^ 2).
  { intros e He. assert (0 < at_ (weights os) e) by (apply (Forall_at (fun w => 0 < w)); [exact P|rewrite weights_length; exact He]).
    pose proof (pow2_ge_0 (at_ (entries os) e)). nra. }
  split; [pose proof (rsum_nonneg n _ N); lra|]. split.
  - intros Z. assert (Z2 : rsum n (fun e => at_ (weights os) e * at_ (entries os) e ^ 2) = 0) by lra.
    apply Forall_forall. intros x Hx. apply (In_nth _ _ 0) in Hx as (e & He & <-). fold n in He. fold (at_ (entries os) e).
    pose proof (rsum_nonneg_zero n _ N Z2 e He) as Ze. cbv beta in Ze.
    assert (0 < at_ (weights os) e) by (apply (Forall_at (fun w => 0 < w)); [exact P|rewrite weights_length; exact He]).
    assert (at_ (entries os) e ^ 2 = 0) by (pose proof (pow2_ge_0 (at_ (entries os) e)); nra). nra.
  - intros Z. rewrite rsum_all_zero; [lra|]. intros e He.
    rewrite (Forall_at _ _ Z e He). lra.
Qed.

(** ** C36 *)

Lemma is_gradient_good f os G : is_gradient f os G -> Forall2 good (parameters os) G.
Proof. intros [F _]. exact F. Qed.

Lemma quadratic_layout f os c a g os' : quadratic_in f os c a g -> objects_wf os -> objects_wf os' ->
  same_layout os os' -> quadratic_in f os' c a g.
Proof.
  intros [Sy A] W W' L. split; [exact Sy|]. intros o2 L2 W2. cbv zeta.
  rewrite <- (same_layout_entries_length _ _ L W W'). apply (A o2 (same_layout_trans _ _ _ L L2) W2).
Qed.

Lemma gradient_step_spec grad f os c a g lr :
  objects_wf os -> quadratic_in f os c a g -> is_gradient f os (grad f os) ->
  exists os', gradient_step grad f lr os = Ok os' /\ same_layout os os' /\ objects_wf os' /\
    forall e, (e < List.length (entries os))%nat ->
      at_ (entries os') e = at_ (entries os) e
        - lr * (rsum (List.length (entries os)) (fun j => a e j * at_ (entries os) j) - g e).
Proof.
  intros W Q D.
  destruct (add_multiple_spec os (grad f os) (- lr) W (is_gradient_good _ _ _ D)) as (d & os' & E1 & E2 & L & W' & H).
  exists os'. unfold gradient_step, gradient_dict. rewrite E1. cbn [bind]. split; [exact E2|].
  split; [exact L|]. split; [exact W'|]. intros e He. rewrite H by exact He.
  rewrite (quadratic_gradient _ _ _ _ _ _ W Q D e He). lra.
Qed.

Lemma gradient_steps_spec grad f c a g lr :
  forall n os, objects_wf os -> quadratic_in f os c a g ->
  (forall os', same_layout os os' -> objects_wf os' -> is_gradient f os' (grad f os')) ->
  exists os', gradient_steps grad f lr n os = Ok os' /\ same_layout os os' /\ objects_wf os' /\
    forall lambda v s, let d := List.length (entries os) in
      eigenvector d a lambda v -> (forall e, (e < d)%nat -> rsum d (fun j => a e j * s j) = g e) ->
      rsum d (fun e => v e * (at_ (entries os') e - s e)) =
      (1 - lr * lambda) ^ n * rsum d (fun e => v e * (at_ (entries os) e - s e)).
Proof.
  induction n as [|n IH]; intros os W Q D.
  - exists os. split; [reflexivity|]. split; [apply same_layout_refl|]. split; [exact W|].
    intros lambda v s d _ _. cbn [pow]. lra.
  - destruct (gradient_step_spec grad f os c a g lr W Q (D os (same_layout_refl os) W)) as (o1 & E1 & L1 & W1 & H1).
    destruct (IH o1 W1 (quadratic_layout _ _ _ _ _ _ Q W W1 L1)) as (o2 & E2 & L2 & W2 & H2).
    { intros os' L' W'. apply D; [exact (same_layout_trans _ _ _ L1 L')|exact W']. }
    exists o2. cbn [gradient_steps]. rewrite E1. cbn [bind]. split; [exact E2|].
    split; [exact (same_layout_trans _ _ _ L1 L2)|]. split; [exact W2|].
    intros lambda v s V St. set (d := List.length (entries os)) in *. specialize (H2 lambda v s). cbv zeta in H2.
    rewrite <- (same_layout_entries_length _ _ L1 W W1) in H2. fold d in H2. rewrite (H2 V St).
    cbn [pow]. rewrite Rmult_assoc, (Rmult_comm (1 - lr * lambda)), Rmult_assoc. f_equal. rewrite Rmult_comm.
    rewrite (rsum_ext d (fun e => v e * (at_ (entries o1) e - s e))
      (fun e => v e * (at_ (entries os) e - s e) - lr * (v e * rsum d (fun j => a e j * (at_ (entries os) j - s j))))).
    + rewrite rsum_minus, rsum_scal.
      replace (rsum d (fun e => v e * rsum d (fun j => a e j * (at_ (entries os) j - s j))))
        with (lambda * rsum d (fun e => v e * (at_ (entries os) e - s e))); [ring|].
      rewrite (rsum_ext d (fun e => v e * rsum d (fun j => a e j * (at_ (entries os) j - s j)))
         (fun e => rsum d (fun j => a e j * v e * (at_ (entries os) j - s j)))).
      * rewrite rsum_swap. rewrite <- rsum_scal. apply rsum_ext. intros j Hj.
        rewrite rsum_scal_r. rewrite (rsum_ext d (fun i => a i j * v i) (fun i => a j i * v i)).
        -- rewrite (V j Hj). ring.
        -- intros i _. destruct Q as [Sy _]. rewrite Sy. reflexivity.
      * intros e _. rewrite <- rsum_scal. apply rsum_ext. intros; ring.
    + intros e He. rewrite (H1 e He).
      rewrite (rsum_ext d (fun j => a e j * (at_ (entries os) j - s j)) (fun j => a e j * at_ (entries os) j - a e j * s j)) by (intros; ring).
      rewrite rsum_minus, (St e He). fold d. ring.
Qed.

(** The default kinetic energy with an affine potential. *)
Definition diagonal (os : pobjs) (i j : nat) : R := if Nat.eqb i j then at_ (weights os) i else 0.

Lemma rsum_diagonal os n i x : (i < n)%nat -> rsum n (fun j => diagonal os i j * x j) = at_ (weights os) i * x i.
Proof.
  intros Hi. rewrite (rsum_single n _ i Hi); unfold diagonal.
  - rewrite Nat.eqb_refl. reflexivity.
  - intros j _ N. replace (Nat.eqb i j) with false by (symmetry; apply Nat.eqb_neq; auto). lra.
Qed.

Lemma lagrangian_quadratic potential os c g : objects_wf os -> affine_in potential os c g ->
  quadratic_in (compute_lagrangian potential) os (- c) (diagonal os) g.
Proof.
  intros W A. split.
  - intros i j. unfold diagonal. rewrite Nat.eqb_sym. destruct (Nat.eqb_spec j i) as [->|]; reflexivity.
  - intros os' L' W'. cbv zeta. rewrite (lagrangian_affine _ _ _ _ _ A W L' W').
    set (n := List.length (entries os)). set (x := at_ (entries os')).
    rewrite rsum_minus, rsum_scal.
    rewrite (rsum_ext n (fun i => rsum n (fun j => diagonal os i j * x i * x j)) (fun e => at_ (weights os) e * x e ^ 2)).
    + unfold x. lra.
    + intros i Hi. rewrite (rsum_ext n _ (fun j => diagonal os i j * (x i * x j))) by (intros; ring).
      rewrite (rsum_diagonal os n i (fun j => x i * x j) Hi). ring.
Qed.

Lemma diagonal_error grad potential c g lr n os :
  objects_wf os -> affine_in potential os c g -> Forall (fun w => w <> 0) (weights os) ->
  (forall os', same_layout os os' -> objects_wf os' ->
     is_gradient (compute_lagrangian potential) os' (grad (compute_lagrangian potential) os')) ->
  exists os', gradient_steps grad (compute_lagrangian potential) lr n os = Ok os' /\ same_layout os os' /\ objects_wf os' /\
    forall e, (e < List.length (entries os))%nat ->
      let w := at_ (weights os) e in
      at_ (entries os') e - g e / w = (1 - lr * w) ^ n * (at_ (entries os) e - g e / w).
Proof.
  intros W A P D.
  destruct (gradient_steps_spec grad _ _ _ _ lr n os W (lagrangian_quadratic _ _ _ _ W A) D) as (os' & E & L & W' & H).
  exists os'. split; [exact E|]. split; [exact L|]. split; [exact W'|]. intros e He w.
  specialize (H w (fun i => delta i e) (fun i => g i / at_ (weights os) i)). cbv zeta in H.
  set (d := List.length (entries os)) in *.
  rewrite !(rsum_ext d (fun i => delta i e * _) (fun i => _ * delta i e)) in H by (intros; apply Rmult_comm).
  rewrite (rsum_delta d (fun i => at_ (entries os') i - g i / at_ (weights os) i) e He) in H.
  rewrite (rsum_delta d (fun i => at_ (entries os) i - g i / at_ (weights os) i) e He) in H.
  apply H.
  - intros j Hj. rewrite (rsum_diagonal os d j (fun i => delta i e) Hj). unfold delta, w.
    destruct (Nat.eqb_spec j e) as [->|]; lra.
  - intros i Hi. rewrite (rsum_diagonal os d i _ Hi).
    pose proof (Forall_at (fun w => w <> 0) _ P i ltac:(rewrite weights_length; exact Hi)). cbv beta in *. field. assumption.
Qed.

(** Geometric sequences. *)
Lemma geometric_limit r : Rabs r < 1 -> forall k, Un_cv (fun n => r ^ n * k) 0.
Proof.
  intros Hr k. replace 0 with (0 * k) by ring.
  apply (CV_mult (fun n => r ^ n) (fun _ => k)).
  - intros eps He. destruct (pow_lt_1_zero r Hr eps He) as [N HN]. exists N. intros n Hn.
    unfold R_dist. rewrite Rminus_0_r. apply HN. exact Hn.
  - intros eps He. exists 0%nat. intros. unfold R_dist. rewrite Rminus_diag_eq, Rabs_R0 by reflexivity. exact He.
Qed.

Lemma pow_ge_1 r n : 1 <= Rabs r -> 1 <= Rabs (r ^ n).
Proof.
  intros H. rewrite <- RPow_abs. induction n as [|n IH]; cbn; [lra|]. nra.
Qed.

Lemma geometric_diverges r k : 1 <= Rabs r -> r <> 1 -> k <> 0 -> forall s l, ~ Un_cv (fun n => s + r ^ n * k) l.
Proof.
  intros Hr N1 Nk s l C.
  set (m := Rabs ((r - 1) * k)).
  assert (Hm : 0 < m) by (apply Rabs_pos_lt; apply Rmult_integral_contrapositive_currified; lra).
  destruct (C (m / 2) ltac:(lra)) as [N HN].
  pose proof (HN N (Nat.le_refl N)) as A. pose proof (HN (S N) (Nat.le_succ_diag_r N)) as B.
  unfold R_dist in A, B.
  assert (T : Rabs (r ^ N * ((r - 1) * k)) < m).
  { replace (r ^ N * ((r - 1) * k)) with ((s + r ^ S N * k - l) - (s + r ^ N * k - l)) by (cbn [pow]; ring).
    eapply Rle_lt_trans; [apply Rabs_triang|]. rewrite Rabs_Ropp. lra. }
  rewrite Rabs_mult in T. fold m in T. pose proof (pow_ge_1 r N Hr). nra.
Qed.

Lemma geometric_converges_iff r k : r <> 1 -> k <> 0 -> forall s,
  (exists l, Un_cv (fun n => s + r ^ n * k) l) <-> Rabs r < 1.
Proof.
  intros N1 Nk s. split.
  - intros [l C]. destruct (Rlt_or_le (Rabs r) 1) as [H|H]; [exact H|]. exfalso. exact (geometric_diverges r k H N1 Nk s l C).
  - intros H. exists (s + 0). apply (CV_plus (fun _ => s)).
    + intros eps He. exists 0%nat. intros. unfold R_dist. rewrite Rminus_diag_eq, Rabs_R0 by reflexivity. exact He.
    + apply geometric_limit, H.
Qed.

Lemma Un_cv_ext' (a b : nat -> R) l : (forall n, a n = b n) -> Un_cv a l -> Un_cv b l.
Proof. intros E C eps He. destruct (C eps He) as [N HN]. exists N. intros n Hn. rewrite <- E. apply HN, Hn. Qed.

Lemma iteration_converges grad potential c g os xs :
  objects_wf os -> affine_in potential os c g -> Forall (fun w => w <> 0) (weights os) ->
  (forall os', same_layout os os' -> objects_wf os' ->
     is_gradient (compute_lagrangian potential) os' (grad (compute_lagrangian potential) os')) ->
  (forall n, gradient_steps grad (compute_lagrangian potential) (1 / 2) n os = Ok (xs n)) ->
  forall e, (e < List.length (entries os))%nat -> at_ (entries os) e <> g e / at_ (weights os) e ->
    ((exists l, Un_cv (fun n => at_ (entries (xs n)) e) l) <-> 0 < at_ (weights os) e < 4) /\
    (0 < at_ (weights os) e < 4 -> Un_cv (fun n => at_ (entries (xs n)) e) (g e / at_ (weights os) e)).
Proof.
  intros W A P D X e He Ne. set (w := at_ (weights os) e) in *. set (k := at_ (entries os) e - g e / w).
  assert (Nk : k <> 0) by (unfold k; lra).
  assert (Nw : w <> 0) by (apply (Forall_at (fun w => w <> 0) _ P); rewrite weights_length; exact He).
  assert (F : forall n, g e / w + (1 - 1 / 2 * w) ^ n * k = at_ (entries (xs n)) e).
  { intros n. destruct (diagonal_error grad potential c g (1 / 2) n os W A P D) as (o & E & _ & _ & H).
    rewrite X in E. injection E as ->. specialize (H e He). cbv zeta in H. fold w k in H. lra. }
  assert (R1 : Rabs (1 - 1 / 2 * w) < 1 <-> 0 < w < 4).
  { split; [intros H; apply Rabs_def2 in H; lra|intros H; apply Rabs_def1; lra]. }
  split.
  - rewrite <- R1, <- (geometric_converges_iff (1 - 1 / 2 * w) k ltac:(lra) Nk (g e / w)).
    split; intros [l C]; exists l.
    + apply (Un_cv_ext' (fun n => at_ (entries (xs n)) e)); [intros; symmetry; apply F|exact C].
    + exact (Un_cv_ext' _ _ _ F C).
  - intros H. apply (Un_cv_ext' _ _ _ F).
    cut (Un_cv (fun n => g e / w + (1 - 1 / 2 * w) ^ n * k) (g e / w + 0)); [rewrite Rplus_0_r; auto|].
    apply (CV_plus (fun _ => g e / w)).
    + intros eps Hp. exists 0%nat. intros. unfold R_dist. rewrite Rminus_diag_eq, Rabs_R0 by reflexivity. exact Hp.
    + apply geometric_limit, R1, H.
Qed.

Lemma ot_spec grad default potential rhs_values w c a g :
  objects_wf default ->
  quadratic_in (fun os => 1 / 2 * w * total (map sum_squares (rhs_values os)) - potential os) default c a g ->
  (forall os', same_layout default os' -> objects_wf os' ->
     let f := fun os => 1 / 2 * w * total (map sum_squares (rhs_values os)) - potential os in
     is_gradient f os' (grad f os')) ->
  exists os, ot_compute_parameters_iteratively grad default potential rhs_values (Some w) = Ok os /\
    same_layout default os /\ objects_wf os /\
    forall lambda v s, let d := List.length (entries default) in
      eigenvector d a lambda v -> (forall e, (e < d)%nat -> rsum d (fun j => a e j * s j) = g e) ->
      rsum d (fun e => v e * (at_ (entries os) e - s e)) =
      (1 - 1 / 2 * lambda) ^ 10 * rsum d (fun e => v e * (at_ (entries default) e - s e)).
Proof. intros W Q D. exact (gradient_steps_spec grad _ c a g (1 / 2) 10 default W Q D). Qed.

Lemma ot_no_weight grad default potential rhs_values :
  ot_compute_parameters_iteratively grad default potential rhs_values None = Raise TypeError.
Proof. reflexivity. Qed.

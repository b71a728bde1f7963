(** Proofs: parameters and whole runs for multiples of the costates. *)
From Coq Require Import List String Bool Reals Arith Lia Lra QArith Qcanon Qreals FunctionalExtensionality.
From Verif Require Import Base BaseFacts RealSum IntegratorModel FixedGridModel VecModel ParticlesModel ParticlesProofs2
  ScalingSpec ScalingProofs.
Import ListNotations.
Open Scope string_scope.
Open Scope list_scope.
Open Scope R_scope.

Notation lift m f := (bind m (fun x => Ok (f x))).

(** ** Only the layers matter *)
Definition plain (a : lin) : lin := mkLin (lin_weight a) (lin_bias a) None None.
Definition plains (th : pars) : pars := map (fun kl => (fst kl, plain (snd kl))) th.

Lemma plains_layers th th' : layers th = layers th' -> plains th = plains th'.
Proof.
  revert th'. induction th as [|[k a] th IH]; intros [|[k' a'] th'] H; try discriminate; [reflexivity|].
  cbn in *. injection H as -> E1 E2 H. unfold plain. cbn. rewrite E1, E2. f_equal. apply IH. exact H.
Qed.

Lemma item_plains k th : sd_item k (plains th) = lift (sd_item k th) plain.
Proof.
  unfold sd_item. induction th as [|[a x] th IH]; [reflexivity|]. cbn. destruct (String.eqb k a); [reflexivity|exact IH].
Qed.

Ltac plainly := rewrite ?item_plains;
  repeat match goal with |- context [sd_item ?k ?p] => destruct (sd_item k p); cbn [bind]; try reflexivity end.

Section Plain.
Variable nl dnl : R -> R.
Lemma updown_rhs_plain s th : updown_rhs nl s (plains th) = updown_rhs nl s th.
Proof. unfold updown_rhs. plainly. Qed.
Lemma universal_rhs_plain s th : universal_rhs nl s (plains th) = universal_rhs nl s th.
Proof. unfold universal_rhs. plainly. Qed.
Lemma general_rhs_plain s th : general_rhs nl s (plains th) = general_rhs nl s th.
Proof. unfold general_rhs. plainly. Qed.
Lemma debug_rhs_plain s th : debug_rhs nl s (plains th) = debug_rhs nl s th.
Proof. unfold debug_rhs. plainly. Qed.
Lemma simple_rhs_plain s th : simple_rhs nl s (plains th) = simple_rhs nl s th.
Proof. unfold simple_rhs. plainly. Qed.
Lemma dampened_q2_rhs_plain s th : dampened_q2_rhs nl s (plains th) = dampened_q2_rhs nl s th.
Proof. unfold dampened_q2_rhs. plainly. Qed.
Lemma symmetrized_rhs_plain s th : symmetrized_rhs nl s (plains th) = symmetrized_rhs nl s th.
Proof. unfold symmetrized_rhs. plainly. Qed.
Lemma periodic_rhs_plain s th : periodic_rhs nl s (plains th) = periodic_rhs nl s th.
Proof. unfold periodic_rhs. plainly. Qed.
Lemma updown_costate_plain s c th : updown_costate dnl s c (plains th) = updown_costate dnl s c th.
Proof. unfold updown_costate. plainly. Qed.
Lemma universal_costate_plain s c th : universal_costate dnl s c (plains th) = universal_costate dnl s c th.
Proof. unfold universal_costate. plainly. Qed.
Lemma general_costate_plain s c th : general_costate dnl s c (plains th) = general_costate dnl s c th.
Proof. unfold general_costate. plainly. Qed.
Lemma debug_costate_plain N s c th : debug_costate nl dnl N s c (plains th) = debug_costate nl dnl N s c th.
Proof. unfold debug_costate. plainly. Qed.
Lemma simple_costate_plain N s c th : simple_costate nl dnl N s c (plains th) = simple_costate nl dnl N s c th.
Proof. unfold simple_costate. plainly. Qed.
Lemma symmetrized_costate_plain s c th : symmetrized_costate dnl s c (plains th) = symmetrized_costate dnl s c th.
Proof. unfold symmetrized_costate. plainly. Qed.
Lemma periodic_costate_plain s c th : periodic_costate dnl s c (plains th) = periodic_costate dnl s c th.
Proof. unfold periodic_costate. plainly. Qed.
End Plain.

(** ** Parameters *)
Section Parameters.
Variable l : R.
Hypothesis L : l <> 0.
Variable nl dnl : R -> R.
Variable init : string -> (nat -> nat -> R) * (nat -> R).
Variable d e : nat.
Variable W W' : option R.
Variable ow ow' : R.
Hypothesis WN : number W <> 0.
Hypothesis WW : number W' = l * number W.
Hypothesis ON : ow <> 0.
Hypothesis OO : ow' = l * ow.

Lemma divide_number t w : divide_by_if_not_none t w = map2 (fun x => x / number w) t.
Proof. destruct w; [reflexivity|]. destruct t as [a b v]. unfold map2. cbn. f_equal. ext. field. Qed.

Lemma divide_sc t : divide_by_if_not_none (map2 (Rmult l) t) W' = divide_by_if_not_none t W.
Proof. rewrite !divide_number, WW. unfold map2. cbn. f_equal. ext. field. split; assumption. Qed.

Lemma divide_optional t : divide_by_if_not_none (map2 (Rmult l) t) (Some ow') = divide_by_if_not_none t (Some ow).
Proof. rewrite !divide_number. cbn [number]. rewrite OO. unfold map2. cbn. f_equal. ext. field. split; assumption. Qed.

Lemma penalty_number w t : penalty w t = number w * sum2 (map2 (fun x => x ^ 2) t).
Proof. destruct w; [reflexivity|]. unfold penalty. cbn [number]. ring. Qed.

Ltac scaled_parameters :=
  repeat first
    [ progress (rewrite ?item_multiple, ?transpose_sc, ?matmul33_l, ?matmul33_r, ?weight_loop_sc, ?mean_sc, ?tr_sc, ?bias_sc)
    | match goal with
      | |- context [bind ?m _] =>
          lazymatch m with
          | bind _ _ => fail
          | store_weight _ _ _ => fail
          | store_bias _ _ _ => fail
          | _ => destruct m; cbn [bind]; [|reflexivity]
          end
      end ];
  unfold store_weight, store_bias, updown_objects, universal_objects, general_objects, simple_objects, debug_objects,
    symmetrized_objects, periodic_objects;
  cbn -[divide_by_if_not_none map2 mean0 tr bias_of kinetic_energy];
  rewrite ?divide_sc, ?divide_optional.
Ltac same_layers := scaled_parameters; reflexivity.
Ltac same_penalty := scaled_parameters;
  unfold kinetic_energy, with_bias, with_weight, add_weight, snn_linear; cbn [fold_left fst snd lin_weight lin_bias weight_of_weight weight_of_bias];
  rewrite !penalty_number; cbn [number]; rewrite ?WW, ?OO; f_equal; ring.

Lemma updown_parameters_sc s c :
  lift (updown_parameters nl init d e W' s (multiple l c)) layers = lift (updown_parameters nl init d e W s c) layers.
Proof. unfold updown_parameters. same_layers. Qed.
Lemma universal_parameters_sc s c :
  lift (universal_parameters nl init d e W' ow' s (multiple l c)) layers = lift (universal_parameters nl init d e W ow s c) layers.
Proof. unfold universal_parameters. same_layers. Qed.
Lemma general_parameters_sc s c :
  lift (general_parameters nl init d e W' s (multiple l c)) layers = lift (general_parameters nl init d e W s c) layers.
Proof. unfold general_parameters. same_layers. Qed.
Lemma debug_parameters_sc N s c :
  lift (debug_parameters nl init d W' N s (multiple l c)) layers = lift (debug_parameters nl init d W N s c) layers.
Proof. unfold debug_parameters. same_layers. Qed.
Lemma simple_parameters_sc N s c :
  lift (simple_parameters nl init d W' N s (multiple l c)) layers = lift (simple_parameters nl init d W N s c) layers.
Proof. unfold simple_parameters. same_layers. Qed.
Lemma symmetrized_parameters_sc s c :
  lift (symmetrized_parameters nl init d e W' s (multiple l c)) layers = lift (symmetrized_parameters nl init d e W s c) layers.
Proof. unfold symmetrized_parameters. same_layers. Qed.
Lemma periodic_parameters_sc s c :
  lift (periodic_parameters nl init d e W' s (multiple l c)) layers = lift (periodic_parameters nl init d e W s c) layers.
Proof. unfold periodic_parameters. same_layers. Qed.
Lemma updown_penalty_sc s c :
  lift (updown_parameters nl init d e W' s (multiple l c)) kinetic_energy = lift (updown_parameters nl init d e W s c) (fun th => l * kinetic_energy th).
Proof. unfold updown_parameters. same_penalty. Qed.
Lemma universal_penalty_sc s c :
  lift (universal_parameters nl init d e W' ow' s (multiple l c)) kinetic_energy = lift (universal_parameters nl init d e W ow s c) (fun th => l * kinetic_energy th).
Proof. unfold universal_parameters. same_penalty. Qed.
Lemma general_penalty_sc s c :
  lift (general_parameters nl init d e W' s (multiple l c)) kinetic_energy = lift (general_parameters nl init d e W s c) (fun th => l * kinetic_energy th).
Proof. unfold general_parameters. same_penalty. Qed.
Lemma debug_penalty_sc N s c :
  lift (debug_parameters nl init d W' N s (multiple l c)) kinetic_energy = lift (debug_parameters nl init d W N s c) (fun th => l * kinetic_energy th).
Proof. unfold debug_parameters. same_penalty. Qed.
Lemma simple_penalty_sc N s c :
  lift (simple_parameters nl init d W' N s (multiple l c)) kinetic_energy = lift (simple_parameters nl init d W N s c) (fun th => l * kinetic_energy th).
Proof. unfold simple_parameters. same_penalty. Qed.
Lemma symmetrized_penalty_sc s c :
  lift (symmetrized_parameters nl init d e W' s (multiple l c)) kinetic_energy = lift (symmetrized_parameters nl init d e W s c) (fun th => l * kinetic_energy th).
Proof. unfold symmetrized_parameters. same_penalty. Qed.
Lemma periodic_penalty_sc s c :
  lift (periodic_parameters nl init d e W' s (multiple l c)) kinetic_energy = lift (periodic_parameters nl init d e W s c) (fun th => l * kinetic_energy th).
Proof. unfold periodic_parameters. same_penalty. Qed.
End Parameters.

(** ** Whole runs *)
Section Runs.
Variable l : R.
Hypothesis L : l <> 0.
Variable nl dnl : R -> R.
Variable init : string -> (nat -> nat -> R) * (nat -> R).
Variable d e : nat.
Variable W W' : option R.
Variable ow ow' : R.
Variable N : nat.
Hypothesis WN : number W <> 0.
Hypothesis WW : number W' = l * number W.
Hypothesis ON : ow <> 0.
Hypothesis OO : ow' = l * ow.
Notation family := (combine (vector_equations nl dnl init d e W ow N) (vector_equations nl dnl init d e W' ow' N)).

Ltac families I := cbn [combine vector_equations] in I;
  repeat (destruct I as [I|I]; [injection I as <- <-; cbn [eq_parameters eq_rhs eq_costate]|]); [..|contradiction].

Lemma parameters_multiple m m' s c : In (m, m') family ->
  lift (eq_parameters m' s (multiple l c)) layers = lift (eq_parameters m s c) layers.
Proof.
  intros I. families I.
  - apply updown_parameters_sc; assumption.
  - apply universal_parameters_sc; assumption.
  - apply general_parameters_sc; assumption.
  - apply debug_parameters_sc; assumption.
  - apply simple_parameters_sc; assumption.
  - apply updown_parameters_sc; assumption.
  - apply symmetrized_parameters_sc; assumption.
  - apply periodic_parameters_sc; assumption.
Qed.

Lemma penalty_multiple m m' s c : In (m, m') family ->
  lift (eq_parameters m' s (multiple l c)) kinetic_energy = lift (eq_parameters m s c) (fun th => l * kinetic_energy th).
Proof.
  intros I. families I.
  - apply updown_penalty_sc; assumption.
  - apply universal_penalty_sc; assumption.
  - apply general_penalty_sc; assumption.
  - apply debug_penalty_sc; assumption.
  - apply simple_penalty_sc; assumption.
  - apply updown_penalty_sc; assumption.
  - apply symmetrized_penalty_sc; assumption.
  - apply periodic_penalty_sc; assumption.
Qed.

Lemma rhs_layers m m' s th th' : In (m, m') family -> layers th' = layers th -> eq_rhs m' s th' = eq_rhs m s th.
Proof.
  intros I E. apply plains_layers in E. families I.
  - rewrite <- (updown_rhs_plain nl s th'), E. apply updown_rhs_plain.
  - rewrite <- (universal_rhs_plain nl s th'), E. apply universal_rhs_plain.
  - rewrite <- (general_rhs_plain nl s th'), E. apply general_rhs_plain.
  - rewrite <- (debug_rhs_plain nl s th'), E. apply debug_rhs_plain.
  - rewrite <- (simple_rhs_plain nl s th'), E. apply simple_rhs_plain.
  - rewrite <- (dampened_q2_rhs_plain nl s th'), E. apply dampened_q2_rhs_plain.
  - rewrite <- (symmetrized_rhs_plain nl s th'), E. apply symmetrized_rhs_plain.
  - rewrite <- (periodic_rhs_plain nl s th'), E. apply periodic_rhs_plain.
Qed.

Lemma costate_multiple m m' s c th th' : In (m, m') family -> layers th' = layers th ->
  eq_costate m' s (multiple l c) th' = lift (eq_costate m s c th) (multiple l).
Proof.
  intros I E. apply plains_layers in E. families I.
  - rewrite <- updown_costate_plain, E, updown_costate_plain. apply updown_costate_sc.
  - rewrite <- universal_costate_plain, E, universal_costate_plain. apply universal_costate_sc.
  - rewrite <- general_costate_plain, E, general_costate_plain. apply general_costate_sc.
  - rewrite <- debug_costate_plain, E, debug_costate_plain. apply debug_costate_sc.
  - rewrite <- simple_costate_plain, E, simple_costate_plain. apply simple_costate_sc.
  - rewrite <- updown_costate_plain, E, updown_costate_plain. apply updown_costate_sc.
  - rewrite <- symmetrized_costate_plain, E, symmetrized_costate_plain. apply symmetrized_costate_sc.
  - rewrite <- periodic_costate_plain, E, periodic_costate_plain. apply periodic_costate_sc.
Qed.

Lemma system_multiple m m' y : In (m, m') family ->
  system_rhs m' (multiple_system l y) = lift (system_rhs m y) (multiple_system l).
Proof.
  intros I. destruct y as [[s c] z]. unfold system_rhs, multiple_system.
  pose proof (parameters_multiple m m' s c I) as P.
  destruct (eq_parameters m s c) as [th|x], (eq_parameters m' s (multiple l c)) as [th'|x'];
    cbn [bind] in P; try discriminate; [|injection P as ->; reflexivity].
  injection P as P. cbn [bind].
  rewrite !(rhs_layers m m' _ th th' I P), (costate_multiple m m' s c th th' I P).
  destruct (eq_rhs m s th); [|reflexivity]. cbn [bind]. destruct (eq_rhs m z th); [|reflexivity]. cbn [bind].
  destruct (eq_costate m s c th); [|reflexivity]. cbn [bind]. reflexivity.
Qed.

Lemma plus_multiple s r : plus_states (multiple l s) (multiple l r) = lift (plus_states s r) (multiple l).
Proof.
  revert r. induction s as [|[k x] s IH]; intros [|[k' y] r]; try reflexivity. cbn [multiple map plus_states fst snd].
  unfold plus3 at 1 2. cbn [n0 n1 n2 map3]. destruct (_ && _); [|reflexivity]. cbn [bind]. fold (multiple l s) (multiple l r).
  rewrite IH. destruct (plus_states s r); [|reflexivity]. cbn [bind multiple map fst snd]. unfold map3. cbn [n0 n1 n2 v3].
  do 4 f_equal. ext. ring.
Qed.

Lemma times_multiple a s : times_states a (multiple l s) = multiple l (times_states a s).
Proof.
  unfold times_states, multiple. rewrite !map_map. apply map_ext. intros [k x]. cbn. f_equal. unfold map3. cbn. f_equal. ext. ring.
Qed.

Definition scaled (y y' : result system) : Prop := y' = lift y (multiple_system l).

Lemma run_multiple m m' other adj name o y t ys : In (m, m') family -> In name ["euler"; "midpoint"; "rk4"] ->
  fixed_odeint plus_system times_system (system_field m) other adj name o (Ok y) t = Ok ys ->
  fixed_odeint plus_system times_system (system_field m') other adj name o (Ok (multiple_system l y)) t
  = Ok (map (fun y => lift y (multiple_system l)) ys).
Proof.
  intros I NM H.
  destruct (fixed_odeint_rel plus_system times_system plus_system times_system scaled) with
    (f := system_field m) (f' := system_field m') (otherX := other) (otherY := other) (adj := adj) (name := name) (o := o)
    (x := Ok y : result system) (y := Ok (multiple_system l y) : result system) (t := t) (xs := ys) as (zs & Z & F).
  - intros x x' u u' A B. unfold scaled in *. subst. destruct x as [[[s c] z]|]; [|reflexivity].
    destruct x' as [[[s' c'] z']|]; [|reflexivity]. cbn [bind multiple_system plus_system]. rewrite plus_multiple.
    destruct (plus_states s s'); [|reflexivity]. cbn [bind]. destruct (plus_states c c'); [|reflexivity]. cbn [bind].
    destruct (plus_states z z'); reflexivity.
  - intros a x u A. unfold scaled in *. subst. destruct x as [[[s c] z]|]; [|reflexivity].
    cbn [bind multiple_system times_system]. rewrite times_multiple. reflexivity.
  - intros s x u A. unfold scaled in *. rewrite A. destruct x as [x|]; [|reflexivity]. cbn [bind system_field].
    apply system_multiple. exact I.
  - exact NM.
  - reflexivity.
  - exact H.
  - rewrite Z. f_equal. clear -F. induction F as [|a b ys zs A F IH]; [reflexivity|]. cbn. rewrite IH, A. reflexivity.
Qed.

Lemma run_multiple_ok m m' other adj name o y t ys : In (m, m') family -> In name ["euler"; "midpoint"; "rk4"] ->
  fixed_odeint plus_system times_system (system_field m) other adj name o (Ok y) t = Ok (map Ok ys) ->
  fixed_odeint plus_system times_system (system_field m') other adj name o (Ok (multiple_system l y)) t
  = Ok (map Ok (map (multiple_system l) ys)).
Proof.
  intros I NM H. rewrite (run_multiple m m' other adj name o y t _ I NM H), !map_map. reflexivity.
Qed.
End Runs.

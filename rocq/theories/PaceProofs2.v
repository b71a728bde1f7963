(** Proofs: models and runs with larger costates. *)
From Coq Require Import List String Bool Reals Arith ZArith Lia Lra QArith Qcanon Qreals FunctionalExtensionality.
From Verif Require Import Base BaseFacts RealSum IntegratorModel FixedGridModel FixedGridSpec VecModel ParticlesModel
  ParticlesProofs2 ScalingSpec ScalingProofs ScalingProofs2 PaceSpec PaceProofs.
Import ListNotations.
Open Scope string_scope.
Open Scope list_scope.
Open Scope R_scope.

Section Layers.
Variable l : R.
Notation sc := (map3 (Rmult l)).
Notation sc2 := (map2 (Rmult l)).

(** [l] times a layer, without the weights of the penalty. *)
Definition stretch (a : lin) : lin := mkLin (sc2 (lin_weight a)) (option_map sc2 (lin_bias a)) None None.
Definition stretches (th : pars) : pars := map (fun kl => (fst kl, stretch (snd kl))) th.

Lemma stretches_layers th th' : layers th' = times_layers l (layers th) -> plains th' = stretches th.
Proof.
  revert th'. induction th as [|[k a] th IH]; intros [|[k' a'] th'] H; try discriminate; [reflexivity|].
  cbn in *. injection H as -> E1 E2 H. unfold plain, stretch. cbn. rewrite E1, E2. f_equal. apply IH. exact H.
Qed.

Lemma item_stretches k th : sd_item k (stretches th) = lift (sd_item k th) stretch.
Proof.
  unfold sd_item. induction th as [|[a x] th IH]; [reflexivity|]. cbn. destruct (String.eqb k a); [reflexivity|exact IH].
Qed.

Lemma matmul_w x w : matmul32 x (sc2 w) = lift (matmul32 x w) sc.
Proof.
  unfold matmul32. cbn [m0 m1 v2 map2]. destruct (Nat.eqb _ _); [|reflexivity]. cbn [bind]. unfold map3. cbn [n0 n1 n2 v3].
  do 2 f_equal. ext. rewrite <- rsum_scale. apply rsum_ext. intros; ring.
Qed.

Lemma forward_stretch a x : forward (stretch a) x = lift (forward a x) sc.
Proof.
  unfold forward, f_linear, stretch. cbn [lin_weight lin_bias]. rewrite tr_sc, matmul_w.
  destruct (matmul32 x (tr (lin_weight a))) as [y|]; [|reflexivity]. cbn [bind].
  destruct (lin_bias a) as [b|]; [|reflexivity]. cbn [option_map].
  change (mkT3 1 (m0 (sc2 b)) (m1 (sc2 b)) (fun _ => v2 (sc2 b))) with (sc (mkT3 1 (m0 b) (m1 b) (fun _ => v2 b))).
  rewrite plus_sc. destruct (zip3 Rplus y _) as [z|]; [|reflexivity]. cbn [bind n0 n1 n2 map3]. destruct (_ && _); reflexivity.
Qed.

Lemma unused_stretch nl q a : unused_dot_q nl q (stretch a) = lift (unused_dot_q nl q a) sc.
Proof.
  unfold unused_dot_q, stretch. cbn [lin_weight lin_bias]. rewrite tr_sc, matmul_w.
  destruct (matmul32 (map3 nl q) (tr (lin_weight a))) as [y|]; [|reflexivity]. cbn [bind].
  destruct (lin_bias a) as [b|]; [|reflexivity]. cbn [option_map].
  change (mkT3 1 (m0 (sc2 b)) (m1 (sc2 b)) (fun _ => v2 (sc2 b))) with (sc (mkT3 1 (m0 b) (m1 b) (fun _ => v2 b))).
  apply plus_sc.
Qed.

Lemma costate_loop_w dnl N q p A : costate_loop dnl N q p (sc2 A) = lift (costate_loop dnl N q p A) sc.
Proof.
  unfold costate_loop.
  match goal with |- foldM ?f' _ ?z = lift (foldM ?f _ _) _ =>
    transitivity (foldM f' (seq 0 N) (sc z)); [f_equal; unfold zeros_like, map3; cbn; f_equal; ext; ring|] end.
  apply foldM_lift. intros acc i. unfold row. destruct (Nat.ltb i (n0 q)); [|reflexivity]. cbn [bind].
  destruct (Nat.ltb i (n0 p)); [|reflexivity]. cbn [bind n1 n2 v3].
  unfold matmul22. cbn [m0 m1 v2 map2]. destruct (Nat.eqb (n2 p) (m0 A)); [|reflexivity]. cbn [bind].
  unfold zip2. cbn [m0 m1 v2 map2]. destruct (bdim (n1 q) (n1 p)) as [a|]; [|reflexivity]. cbn [bind].
  destruct (bdim (n2 q) (m1 A)) as [b|]; [|reflexivity]. cbn [bind]. unfold set_row. cbn [n0 n1 n2 map3 m0 m1].
  destruct (negb _); [reflexivity|]. destruct (_ && _); [|reflexivity]. cbn [bind]. unfold map3. cbn [n0 n1 n2 v3 v2].
  do 2 f_equal. ext. destruct (Nat.eqb _ i); [|reflexivity].
  rewrite (rsum_ext _ _ (fun j => l * (v3 p i (bidx (n1 p) a (bidx a (n1 acc) x0)) j * v2 A j (bidx (m1 A) b (bidx b (n2 acc) x1))))) by (intros; ring).
  rewrite rsum_scale. ring.
Qed.

Lemma minus_undampened x q : zip3 Rminus (sc x) (map3 (Rmult general_dampening) q)
  = lift (zip3 Rminus x (map3 (Rmult general_dampening) q)) sc.
Proof.
  unfold zip3. cbn [n0 n1 n2 v3 map3]. destruct (bdim (n0 x) _); [|reflexivity]. cbn [bind].
  destruct (bdim (n1 x) _); [|reflexivity]. cbn [bind]. destruct (bdim (n2 x) _); [|reflexivity]. cbn [bind].
  unfold map3. cbn [n0 n1 n2 v3]. do 2 f_equal. ext. unfold general_dampening. ring.
Qed.

Ltac stretching :=
  repeat first
    [ progress (rewrite ?item_stretches, ?forward_stretch, ?unused_stretch, ?matmul_w, ?costate_loop_w, ?plus_sc, ?minus_sc, ?mult_sc, ?opp_sc, ?minus_undampened)
    | reflexivity
    | progress cbn [lin_weight stretch]
    | match goal with
      | |- context [bind ?m _] =>
          lazymatch m with
          | bind _ _ => fail
          | _ => destruct m; cbn [bind]; [|reflexivity]
          end
      end ].

Variable nl dnl : R -> R.

Lemma updown_rhs_st s th : updown_rhs nl s (stretches th) = lift (updown_rhs nl s th) (multiple l).
Proof. unfold updown_rhs. stretching. Qed.
Lemma universal_rhs_st s th : universal_rhs nl s (stretches th) = lift (universal_rhs nl s th) (multiple l).
Proof. unfold universal_rhs. stretching. Qed.
Lemma general_rhs_st s th : general_rhs nl s (stretches th) = lift (general_rhs nl s th) (multiple l).
Proof. unfold general_rhs. stretching. Qed.
Lemma debug_rhs_st s th : debug_rhs nl s (stretches th) = lift (debug_rhs nl s th) (multiple l).
Proof. unfold debug_rhs. stretching. Qed.
Lemma simple_rhs_st s th : simple_rhs nl s (stretches th) = lift (simple_rhs nl s th) (multiple l).
Proof. unfold simple_rhs. stretching. Qed.
Lemma symmetrized_rhs_st s th : symmetrized_rhs nl s (stretches th) = lift (symmetrized_rhs nl s th) (multiple l).
Proof. unfold symmetrized_rhs. stretching. Qed.
Lemma periodic_rhs_st s th : periodic_rhs nl s (stretches th) = lift (periodic_rhs nl s th) (multiple l).
Proof. unfold periodic_rhs. stretching. Qed.
Lemma updown_costate_st s c th : updown_costate dnl s c (stretches th) = lift (updown_costate dnl s c th) (multiple l).
Proof. unfold updown_costate. stretching. Qed.
Lemma universal_costate_st s c th : universal_costate dnl s c (stretches th) = lift (universal_costate dnl s c th) (multiple l).
Proof. unfold universal_costate. stretching. Qed.
Lemma general_costate_st s c th : general_costate dnl s c (stretches th) = lift (general_costate dnl s c th) (multiple l).
Proof. unfold general_costate. stretching. Qed.
Lemma debug_costate_st N s c th : debug_costate nl dnl N s c (stretches th) = lift (debug_costate nl dnl N s c th) (multiple l).
Proof. unfold debug_costate. stretching. Qed.
Lemma simple_costate_st N s c th : simple_costate nl dnl N s c (stretches th) = lift (simple_costate nl dnl N s c th) (multiple l).
Proof. unfold simple_costate. stretching. Qed.
Lemma symmetrized_costate_st s c th : symmetrized_costate dnl s c (stretches th) = lift (symmetrized_costate dnl s c th) (multiple l).
Proof. unfold symmetrized_costate. stretching. Qed.
Lemma periodic_costate_st s c th : periodic_costate dnl s c (stretches th) = lift (periodic_costate dnl s c th) (multiple l).
Proof. unfold periodic_costate. stretching. Qed.

(** ** Parameters *)
Variable init : string -> (nat -> nat -> R) * (nat -> R).
Variable d e : nat.
Variable W : option R.
Variable ow : R.

Lemma divide_st t w : divide_by_if_not_none (sc2 t) w = sc2 (divide_by_if_not_none t w).
Proof. destruct w; [|reflexivity]. unfold divide_by_if_not_none, map2. cbn. f_equal. ext. unfold Rdiv. ring. Qed.

Ltac stretched_parameters :=
  repeat first
    [ progress (rewrite ?item_multiple, ?transpose_sc, ?matmul33_l, ?matmul33_r, ?weight_loop_sc, ?mean_sc, ?tr_sc, ?bias_sc)
    | match goal with
      | |- context [bind ?m _] =>
          lazymatch m with
          | bind _ _ => fail
          | store_weight _ _ _ => fail
          | store_bias _ _ _ => fail
          | _ => destruct m; cbn [bind]; [|reflexivity]
          end
      end ];
  unfold store_weight, store_bias, updown_objects, universal_objects, general_objects, simple_objects, debug_objects,
    symmetrized_objects, periodic_objects;
  cbn -[divide_by_if_not_none map2 mean0 tr bias_of];
  rewrite ?divide_st; reflexivity.

Lemma updown_parameters_st s c :
  lift (updown_parameters nl init d e W s (multiple l c)) layers = lift (updown_parameters nl init d e W s c) (fun th => times_layers l (layers th)).
Proof. unfold updown_parameters. stretched_parameters. Qed.
Lemma universal_parameters_st s c :
  lift (universal_parameters nl init d e W ow s (multiple l c)) layers = lift (universal_parameters nl init d e W ow s c) (fun th => times_layers l (layers th)).
Proof. unfold universal_parameters. stretched_parameters. Qed.
Lemma general_parameters_st s c :
  lift (general_parameters nl init d e W s (multiple l c)) layers = lift (general_parameters nl init d e W s c) (fun th => times_layers l (layers th)).
Proof. unfold general_parameters. stretched_parameters. Qed.
Lemma debug_parameters_st N s c :
  lift (debug_parameters nl init d W N s (multiple l c)) layers = lift (debug_parameters nl init d W N s c) (fun th => times_layers l (layers th)).
Proof. unfold debug_parameters. stretched_parameters. Qed.
Lemma simple_parameters_st N s c :
  lift (simple_parameters nl init d W N s (multiple l c)) layers = lift (simple_parameters nl init d W N s c) (fun th => times_layers l (layers th)).
Proof. unfold simple_parameters. stretched_parameters. Qed.
Lemma symmetrized_parameters_st s c :
  lift (symmetrized_parameters nl init d e W s (multiple l c)) layers = lift (symmetrized_parameters nl init d e W s c) (fun th => times_layers l (layers th)).
Proof. unfold symmetrized_parameters. stretched_parameters. Qed.
Lemma periodic_parameters_st s c :
  lift (periodic_parameters nl init d e W s (multiple l c)) layers = lift (periodic_parameters nl init d e W s c) (fun th => times_layers l (layers th)).
Proof. unfold periodic_parameters. stretched_parameters. Qed.
End Layers.

(** ** The system *)
Lemma multiple_twice l x : multiple l (multiple l x) = multiple (l * l) x.
Proof.
  unfold multiple. rewrite map_map. apply map_ext. intros [k y]. cbn. f_equal. unfold map3. cbn. f_equal. ext. ring.
Qed.

Section System.
Variable l : R.
Variable nl dnl : R -> R.
Variable init : string -> (nat -> nat -> R) * (nat -> R).
Variable d e : nat.
Variable W : option R.
Variable ow : R.
Variable N : nat.
Notation models := (vector_equations nl dnl init d e W ow N).

Lemma parameters_pace m s c : In m models ->
  lift (eq_parameters m s (multiple l c)) layers = lift (eq_parameters m s c) (fun th => times_layers l (layers th)).
Proof.
  intros I. cbn [vector_equations] in I.
  repeat (destruct I as [I|I]; [subst m; cbn [eq_parameters]|]); [..|contradiction].
  - apply updown_parameters_st.
  - apply universal_parameters_st.
  - apply general_parameters_st.
  - apply debug_parameters_st.
  - apply simple_parameters_st.
  - apply updown_parameters_st.
  - apply symmetrized_parameters_st.
  - apply periodic_parameters_st.
Qed.

Lemma system_pace k m y : In k [0; 1; 2; 3; 4; 6; 7]%nat -> nth_error models k = Some m ->
  system_rhs m (multiple_system l y) = lift (system_rhs m y) (faster l).
Proof.
  intros K E. destruct y as [[s c] z]. unfold system_rhs, multiple_system.
  pose proof (parameters_pace m s c (nth_error_In _ _ E)) as P.
  destruct (eq_parameters m s c) as [th|x], (eq_parameters m s (multiple l c)) as [th'|x'];
    cbn [bind] in P; try discriminate; [|injection P as ->; reflexivity].
  injection P as P. apply stretches_layers in P. cbn [bind].
  assert (R : forall u, eq_rhs m u th' = lift (eq_rhs m u th) (multiple l)).
  { intros u.
    repeat (destruct K as [<-|K]; [cbn in E; injection E as <-; cbn [eq_rhs]|]); [..|contradiction].
    - rewrite <- updown_rhs_plain, P. apply updown_rhs_st.
    - rewrite <- universal_rhs_plain, P. apply universal_rhs_st.
    - rewrite <- general_rhs_plain, P. apply general_rhs_st.
    - rewrite <- debug_rhs_plain, P. apply debug_rhs_st.
    - rewrite <- simple_rhs_plain, P. apply simple_rhs_st.
    - rewrite <- symmetrized_rhs_plain, P. apply symmetrized_rhs_st.
    - rewrite <- periodic_rhs_plain, P. apply periodic_rhs_st. }
  assert (C : eq_costate m s (multiple l c) th' = lift (eq_costate m s c th) (multiple (l * l))).
  { assert (H : eq_costate m s (multiple l c) th' = lift (lift (eq_costate m s c th) (multiple l)) (multiple l)).
    { clear R. repeat (destruct K as [<-|K]; [cbn in E; injection E as <-; cbn [eq_costate]|]); [..|contradiction].
      - rewrite <- updown_costate_plain, P, updown_costate_sc, updown_costate_st. reflexivity.
      - rewrite <- universal_costate_plain, P, universal_costate_sc, universal_costate_st. reflexivity.
      - rewrite <- general_costate_plain, P, general_costate_sc, general_costate_st. reflexivity.
      - rewrite <- debug_costate_plain, P, debug_costate_sc, debug_costate_st. reflexivity.
      - rewrite <- simple_costate_plain, P, simple_costate_sc, simple_costate_st. reflexivity.
      - rewrite <- symmetrized_costate_plain, P, symmetrized_costate_sc, symmetrized_costate_st. reflexivity.
      - rewrite <- periodic_costate_plain, P, periodic_costate_sc, periodic_costate_st. reflexivity. }
    rewrite H. destruct (eq_costate m s c th); [|reflexivity]. cbn [bind]. rewrite multiple_twice. reflexivity. }
  rewrite !R, C.
  destruct (eq_rhs m s th); [|reflexivity]. cbn [bind]. destruct (eq_rhs m z th); [|reflexivity]. cbn [bind].
  destruct (eq_costate m s c th); reflexivity.
Qed.
End System.

(** ** Runs *)
Lemma times_twice a b s : times_states (real a) (times_states (real b) s) = times_states (real (a * b)%Qc) s.
Proof.
  unfold times_states. rewrite map_map. apply map_ext. intros [k x]. cbn [fst snd]. f_equal. unfold map3. cbn [n0 n1 n2 v3].
  f_equal. ext. unfold real. cbn [Qcmult Q2Qc this]. rewrite (Qeq_eqR _ _ (Qred_correct _)), Q2R_mult. ring.
Qed.

Lemma system_laws : linear_laws plus_system times_system.
Proof.
  split.
  - intros a b [[[s c] z]|x]; [|reflexivity]. cbn [times_system bind]. fold (real a) (real b).
    change (Q2R (this (a * b)%Qc)) with (real (a * b)%Qc). rewrite <- !times_twice. reflexivity.
  - intros a [[[s c] z]|x]; [|reflexivity]. intros [[[s' c'] z']|x]; [|reflexivity].
    cbn [times_system plus_system bind].
    assert (P : forall u v, plus_states (times_states (real a) u) (times_states (real a) v) = lift (plus_states u v) (times_states (real a)))
      by (intros; apply plus_multiple).
    unfold real in P. rewrite !P.
    destruct (plus_states s s'); [|reflexivity]. cbn [bind]. destruct (plus_states c c'); [|reflexivity]. cbn [bind].
    destruct (plus_states z z'); reflexivity.
Qed.

Lemma run_pace l nl dnl init d e W ow N k m other other' adj name o o' y t ys : (0 < l)%Qc ->
  In k [0; 1; 2; 3; 4; 6; 7]%nat -> nth_error (vector_equations nl dnl init d e W ow N) k = Some m ->
  In name ["euler"; "midpoint"; "rk4"] -> longer_steps l o o' ->
  fixed_odeint plus_system times_system (system_field m) other adj name o' (Ok y) (longer l t) = Ok (map Ok ys) ->
  fixed_odeint plus_system times_system (system_field m) other' adj name o (Ok (multiple_system (real l) y)) t
  = Ok (map Ok (map (multiple_system (real l)) ys)).
Proof.
  intros L K E NM LS H.
  rewrite (odeint_longer l L plus_system times_system system_laws (system_field m)
    (fun s y => times_system l (system_field m (l * s)%Qc y)) other other' adj name o o' (Ok y) t
    (fun _ _ => eq_refl) NM LS) in H.
  destruct (fixed_odeint_rel plus_system times_system plus_system times_system (scaled (real l))) with
    (f := fun s y => times_system l (system_field m (l * s)%Qc y)) (f' := system_field m) (otherX := other') (otherY := other')
    (adj := adj) (name := name) (o := o)
    (x := Ok y : result system) (y := Ok (multiple_system (real l) y) : result system) (t := t) (xs := map Ok ys) as (zs & Z & F).
  - intros x x' u u' A B. unfold scaled in *. subst. destruct x as [[[s c] z]|]; [|reflexivity].
    destruct x' as [[[s' c'] z']|]; [|reflexivity]. cbn [bind multiple_system plus_system]. rewrite plus_multiple.
    destruct (plus_states s s'); [|reflexivity]. cbn [bind]. destruct (plus_states c c'); [|reflexivity]. cbn [bind].
    destruct (plus_states z z'); reflexivity.
  - intros a x u A. unfold scaled in *. subst. destruct x as [[[s c] z]|]; [|reflexivity].
    cbn [bind multiple_system times_system]. rewrite times_multiple. reflexivity.
  - intros s x u A. unfold scaled in *. rewrite A. destruct x as [x|]; [|reflexivity]. cbn [bind system_field].
    rewrite (system_pace (real l) nl dnl init d e W ow N k m x K E).
    destruct (system_rhs m x) as [[[ds dc] dz]|]; [|reflexivity]. cbn [bind times_system multiple_system faster].
    fold (real l). change times_states with multiple. rewrite multiple_twice. reflexivity.
  - exact NM.
  - reflexivity.
  - exact H.
  - rewrite Z. f_equal. rewrite map_map. clear -F. remember (map Ok ys) as q eqn:Q. revert ys Q.
    induction F as [|a b q zs A F IH]; intros [|v ys] Q; try discriminate; [reflexivity|].
    injection Q as -> Q. cbn [map]. rewrite <- (IH _ Q). rewrite A. reflexivity.
Qed.

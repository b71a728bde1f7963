(** Proofs: another order of the units of the second variable, whole runs. *)
From Coq Require Import List String Bool Reals Arith Lia Lra QArith Qcanon Qreals FunctionalExtensionality.
From Verif Require Import Base BaseFacts RealSum IntegratorModel FixedGridModel VecModel ParticlesModel ParticlesProofs2
  ScalingProofs RotationSpec RotationProofs RotationProofs2 RotationProofs3 RelabelSpec RelabelProofs RelabelProofs2 InnerSpec InnerProofs.
Import ListNotations.
Open Scope string_scope.
Open Scope list_scope.
Open Scope R_scope.

Ltac widely := match goal with X : Forall (fun k => wide _ k _) _ |- _ =>
  first [exact (Forall_inv X)|exact (Forall_inv (Forall_inv_tail X))|exact (Forall_inv (Forall_inv_tail (Forall_inv_tail X)))
        |exact (Forall_inv (Forall_inv_tail (Forall_inv_tail (Forall_inv_tail X))))] end.

Section Lifted.
Variable u : nat.
Variable p : nat -> nat.
Hypothesis PERM : permutes u p.
Notation O := (order_matrix p).
Notation rots := (reorder_second p).

Lemma second_rots s : InnerProofs.rots u p s = rots s.
Proof. destruct s as [|a [|[k x] r]]; try reflexivity. cbn. rewrite (rot_is u p PERM). reflexivity. Qed.

Definition good_units (y : system) : Prop := let '(s, c, z) := y in good2 u "q2" s /\ good2 u "p_q2" c /\ good2 u "q2" z.

Definition covariant_units (key : string) (m m' : result states) : Prop :=
  m' = lift m rots /\ forall r, m = Ok r -> good2 u key r.
Lemma covariant_is key m m' : covariant2 u p key m m' -> covariant_units key m m'.
Proof.
  intros [A B]. split; [|exact B]. rewrite A. destruct m; [|reflexivity]. cbn [bind]. rewrite second_rots. reflexivity.
Qed.

(** What the equations of a model have to satisfy. *)
Definition regrouping (m : equations) : Prop :=
  forall s c, good2 u "q2" s -> good2 u "p_q2" c ->
  exists f ks, parameters_turn u O f ks (eq_parameters m s c) (eq_parameters m (rots s) (rots c)) /\
    (forall s th, good2 u "q2" s -> all_fit u f th -> covariant_units "q2" (eq_rhs m s th) (eq_rhs m (rots s) (turns u O f th))) /\
    (forall th, all_fit u f th -> Forall (fun k => wide u k th) ks ->
       covariant_units "p_q2" (eq_costate m s c th) (eq_costate m (rots s) (rots c) (turns u O f th))).

Lemma inner_regrouping nl dnl init d e W ow N i m : In i [0; 1; 2; 5; 6; 7]%nat ->
  nth_error (vector_equations nl dnl init d e W ow N) i = Some m -> regrouping m.
Proof.
  intros I H s c Gs Gc. rewrite <- !second_rots.
  cbn [In] in I. repeat (destruct I as [<-|I]; [cbn in H; injection H as <-; cbn [eq_parameters eq_rhs eq_costate]|]); [..|contradiction].
  - exists updown_inner, ["l1"]. split; [apply updown_parameters_units; assumption|].
    split; intros; rewrite <- ?second_rots; apply covariant_is; [apply updown_rhs_units; assumption|].
    apply updown_costate_units; try assumption. widely.
  - exists universal_inner, ["l1"; "l3"]. split; [apply universal_parameters_units; assumption|].
    split; intros; rewrite <- ?second_rots; apply covariant_is; [apply universal_rhs_units; assumption|].
    apply universal_costate_units; try assumption; [widely|widely].
  - exists general_inner, ["l11"; "l14"; "l22"; "l23"]. split; [apply general_parameters_units; assumption|].
    split; intros; rewrite <- ?second_rots; apply covariant_is; [apply general_rhs_units; assumption|].
    apply general_costate_units; try assumption;
      [widely|widely
      |widely|widely].
  - exists updown_inner, ["l1"]. split; [apply updown_parameters_units; assumption|].
    split; intros; rewrite <- ?second_rots; apply covariant_is; [apply dampened_q2_rhs_units; assumption|].
    apply updown_costate_units; try assumption. widely.
  - exists updown_inner, ["l1"]. split; [apply symmetrized_parameters_units; assumption|].
    split; intros; rewrite <- ?second_rots; apply covariant_is; [apply symmetrized_rhs_units; assumption|].
    apply symmetrized_costate_units; try assumption. widely.
  - exists updown_inner, ["l1"]. split; [apply periodic_parameters_units; assumption|].
    split; intros; rewrite <- ?second_rots; apply covariant_is; [apply periodic_rhs_units; assumption|].
    apply periodic_costate_units; try assumption. widely.
Qed.

Lemma system_units m y : regrouping m -> good_units y ->
  system_rhs m (reorder_inner p y) = lift (system_rhs m y) (reorder_inner p) /\
  forall r, system_rhs m y = Ok r -> good_units r.
Proof.
  intros P G. destruct y as [[s c] z]. destruct G as (Gs & Gc & Gz). unfold system_rhs, reorder_inner.
  specialize (P s c Gs Gc).
  destruct P as (f & ks & (P1 & P2) & R & C). rewrite P1.
  destruct (eq_parameters m s c) as [th|] eqn:EP; cbn [bind]; [|split; [reflexivity|intros ? X; discriminate X]].
  destruct (P2 th eq_refl) as (F & Wd). destruct (R s th Gs F) as (R1 & R2). destruct (R z th Gz F) as (R3 & R4).
  destruct (C th F Wd) as (C1 & C2). rewrite R1, R3, C1.
  destruct (eq_rhs m s th) as [ds|]; cbn [bind]; [|split; [reflexivity|intros ? X; discriminate X]].
  destruct (eq_rhs m z th) as [dz|]; cbn [bind]; [|split; [reflexivity|intros ? X; discriminate X]].
  destruct (eq_costate m s c th) as [dc|]; cbn [bind]; [|split; [reflexivity|intros ? X; discriminate X]].
  split; [reflexivity|]. intros r X. injection X as <-. split; [exact (R2 _ eq_refl)|]. split; [exact (C2 _ eq_refl)|exact (R4 _ eq_refl)].
Qed.

Lemma plus_units s r : plus_states (rots s) (rots r) = lift (plus_states s r) rots.
Proof.
  destruct s as [|[k0 x0] [|[k x] s]], r as [|[k0' y0] [|[k' y] r]]; try reflexivity; cbn [reorder_second plus_states].
  all: try solve [destruct (plus3 x0 y0); reflexivity].
  destruct (plus3 x0 y0) as [z0|]; [|reflexivity]. cbn [bind].
  unfold plus3. cbn [n0 n1 n2 reorder]. destruct (_ && _); [|reflexivity]. cbn [bind].
  destruct (plus_states s r); reflexivity.
Qed.
Lemma plus_names s : forall r t, plus_states s r = Ok t -> map fst t = map fst s.
Proof.
  induction s as [|[a b] s IH]; intros [|[a' b'] r] t T; try discriminate.
  - injection T as <-. reflexivity.
  - cbn [plus_states] in T. apply bind_ok in T as (z & Z & T). apply bind_ok in T as (v & V & T). injection T as <-.
    cbn. f_equal. exact (IH _ _ V).
Qed.
Lemma plus_good2 key s r t : good2 u key s -> plus_states s r = Ok t -> good2 u key t.
Proof.
  intros ([k0 x0] & k & x & s' & -> & EX & K0 & K & NI). destruct r as [|[k0' y0] r]; [discriminate|]. cbn [plus_states]. intros H.
  apply bind_ok in H as (z0 & Z0 & H). apply bind_ok in H as (v & V & H). injection H as <-.
  destruct r as [|[k' y] r]; [discriminate|]. cbn [plus_states] in V. apply bind_ok in V as (z & Z & V). apply bind_ok in V as (w & W & V).
  injection V as <-. exists (k0, z0), k, z, w. split; [reflexivity|]. split; [|split; [exact K0|split; [exact K|]]].
  - unfold plus3 in Z. destruct (_ && _); [|discriminate]. injection Z as <-. exact EX.
  - rewrite (plus_names _ _ _ W). exact NI.
Qed.
Lemma times_units a s : times_states a (rots s) = rots (times_states a s).
Proof. destruct s as [|[k0 x0] [|[k x] s]]; reflexivity. Qed.
Lemma times_good2 key a s : good2 u key s -> good2 u key (times_states a s).
Proof.
  intros ([k0 x0] & k & x & r & -> & EX & K0 & K & NI). exists (k0, map3 (Rmult a) x0), k, (map3 (Rmult a) x), (times_states a r).
  split; [reflexivity|]. split; [exact EX|]. split; [exact K0|]. split; [exact K|].
  unfold times_states. rewrite map_map. exact NI.
Qed.

Lemma second_good key s : second_is u key s -> good2 u key s.
Proof. intros (a & x & r & E1 & E2 & E3 & E4). exists a, key, x, r. tauto. Qed.
Lemma with_units_good y : with_units u y -> good_units y.
Proof. destruct y as [[s c] z]. intros (A & B & C). split; [|split]; apply second_good; assumption. Qed.

Definition regrouped (y y' : result system) : Prop :=
  y' = lift y (reorder_inner p) /\ forall r, y = Ok r -> good_units r.

Lemma run_units m other adj name o y t ys : regrouping m -> with_units u y -> In name ["euler"; "midpoint"; "rk4"] ->
  fixed_odeint plus_system times_system (system_field m) other adj name o (Ok y) t = Ok (map Ok ys) ->
  fixed_odeint plus_system times_system (system_field m) other adj name o (Ok (reorder_inner p y)) t
  = Ok (map Ok (map (reorder_inner p) ys)).
Proof.
  intros I G NM H.
  destruct (fixed_odeint_rel plus_system times_system plus_system times_system regrouped) with
    (f := system_field m) (f' := system_field m) (otherX := other) (otherY := other) (adj := adj) (name := name) (o := o)
    (x := Ok y : result system) (y := Ok (reorder_inner p y) : result system) (t := t) (xs := map Ok ys : list (result system)) as (zs & Z & F).
  - intros x x' v v' (A & A') (B & B'). rewrite A, B. clear A B. unfold regrouped.
    match goal with |- _ = _ /\ (forall r, plus_system ?p ?q = Ok r -> _) => destruct p as [[[s c] z]|] eqn:?; [|split; [reflexivity|intros ? X; discriminate X]];
      destruct q as [[[s' c'] z']|] eqn:?; [|split; [reflexivity|intros ? X; discriminate X]] end.
    destruct (A' _ eq_refl) as (G1 & G2 & G3).
    cbn [bind reorder_inner plus_system] in *. rewrite !plus_units.
    destruct (plus_states s s') eqn:E1; cbn [bind] in *; [|split; [reflexivity|intros ? X; discriminate X]].
    destruct (plus_states c c') eqn:E2; cbn [bind] in *; [|split; [reflexivity|intros ? X; discriminate X]].
    destruct (plus_states z z') eqn:E3; cbn [bind] in *; [|split; [reflexivity|intros ? X; discriminate X]].
    split; [reflexivity|]. intros r X. injection X as <-. split; [exact (plus_good2 _ _ _ _ G1 E1)|]. split; [exact (plus_good2 _ _ _ _ G2 E2)|exact (plus_good2 _ _ _ _ G3 E3)].
  - intros a x v (A & A'). rewrite A. unfold regrouped. destruct x as [[[s c] z]|]; [|split; [reflexivity|intros ? X; discriminate X]].
    destruct (A' _ eq_refl) as (G1 & G2 & G3).
    cbn [bind reorder_inner times_system] in *. rewrite !times_units. split; [reflexivity|].
    intros r X. injection X as <-. split; [exact (times_good2 _ _ _ G1)|]. split; [exact (times_good2 _ _ _ G2)|exact (times_good2 _ _ _ G3)].
  - intros s x v (A & A'). rewrite A. unfold regrouped. destruct x as [x|]; [|split; [reflexivity|intros ? X; discriminate X]].
    cbn [bind system_field]. exact (system_units m x I (A' _ eq_refl)).
  - exact NM.
  - split; [reflexivity|]. intros r X. injection X as <-. exact (with_units_good _ G).
  - exact H.
  - rewrite Z. f_equal. clear -F. revert zs F. induction ys as [|a ys IH]; intros zs F.
    + inversion F. reflexivity.
    + inversion F as [|? b ? zs' A F']. cbn [map]. rewrite (IH _ F'). f_equal. exact (proj1 A).
Qed.

Lemma derivatives_units nl dnl init d e W ow N i m y : In i [0; 1; 2; 5; 6; 7]%nat ->
  nth_error (vector_equations nl dnl init d e W ow N) i = Some m -> with_units u y ->
  system_rhs m (reorder_inner p y) = lift (system_rhs m y) (reorder_inner p).
Proof. intros I H G. apply system_units; [exact (inner_regrouping _ _ _ _ _ _ _ _ _ _ I H)|exact (with_units_good _ G)]. Qed.

Lemma runs_units nl dnl init d e W ow N i m other adj name o y t ys : In i [0; 1; 2; 5; 6; 7]%nat ->
  nth_error (vector_equations nl dnl init d e W ow N) i = Some m -> with_units u y -> In name ["euler"; "midpoint"; "rk4"] ->
  fixed_odeint plus_system times_system (system_field m) other adj name o (Ok y) t = Ok (map Ok ys) ->
  fixed_odeint plus_system times_system (system_field m) other adj name o (Ok (reorder_inner p y)) t
  = Ok (map Ok (map (reorder_inner p) ys)).
Proof. intros I H. exact (run_units _ _ _ _ _ _ _ _ (inner_regrouping _ _ _ _ _ _ _ _ _ _ I H)). Qed.

(** What is read off the first variable does not depend on the order. *)
Lemma outer_same y : outer (reorder_inner p y) = outer y.
Proof.
  destruct y as [[s c] z]. destruct s as [|a [|[k x] s]], c as [|b [|[k' x'] c]], z as [|b' [|[k'' x''] z]]; reflexivity.
Qed.
Lemma outputs_units nl dnl init d e W ow N i m other adj name o y t ys : In i [0; 1; 2; 5; 6; 7]%nat ->
  nth_error (vector_equations nl dnl init d e W ow N) i = Some m -> with_units u y -> In name ["euler"; "midpoint"; "rk4"] ->
  fixed_odeint plus_system times_system (system_field m) other adj name o (Ok y) t = Ok (map Ok ys) ->
  exists zs, fixed_odeint plus_system times_system (system_field m) other adj name o (Ok (reorder_inner p y)) t = Ok (map Ok zs) /\
    map outer zs = map outer ys.
Proof.
  intros I H G NM R. exists (map (reorder_inner p) ys). split; [eapply runs_units; eassumption|].
  rewrite map_map. apply map_ext. exact outer_same.
Qed.
End Lifted.

(** Models whose right-hand side is a net of linear layers: energies, parameters and costates as
    functions of the entries. *)
From Coq Require Import List String Reals Arith Lia Lra Bool.
From Verif Require Import Base Tensor RealSum VecNet VecModel VecSpec.
Import ListNotations.
Open Scope R_scope.

Record layer := mkLayer { l_name : string; l_tgt : nat; l_src : nat; l_act : R -> R; l_dact : R -> R; l_bias : bool }.
Record net := mkNet { net_states : list (string * nat); net_layers : list layer; net_damp : nat -> R }.

Section Generic.
Variable G : net.
Let dl := mkLayer "" 0 0 (fun x => x) (fun _ => 1) false.
Definition layer_at (l : nat) : layer := nth l (net_layers G) dl.
Definition NL := List.length (net_layers G).
Definition NS := List.length (net_states G).
Definition dim (s : nat) : nat := snd (nth s (net_states G) (""%string, O)).
Definition tgt (l : nat) := l_tgt (layer_at l).
Definition src (l : nat) := l_src (layer_at l).
Definition act (l : nat) := l_act (layer_at l).
Definition dact (l : nat) := l_dact (layer_at l).
Definition hb (l : nat) := l_bias (layer_at l).
Definition damp := net_damp G.

(** Entries of dictionaries by position. *)
Definition entry (s : states) (a n i k : nat) : R :=
  match nth_error s a with Some (_, x) => v3 x n i k | None => 0 end.
Definition wentry (os : pars) (l k j : nat) : R :=
  match nth_error os l with Some (_, m) => v2 (lin_weight m) k j | None => 0 end.
Definition bentry (os : pars) (l k : nat) : R :=
  match nth_error os l with
  | Some (_, m) => match lin_bias m with Some b => v2 b 0 k | None => 0 end
  | None => 0
  end.
Definition wweight (os : pars) (l : nat) : R :=
  match nth_error os l with Some (_, m) => effective (weight_of_weight m) | None => 1 end.
Definition bweight (os : pars) (l : nat) : R :=
  match nth_error os l with
  | Some (_, m) => match lin_bias m with Some _ => effective (weight_of_bias m) | None => 1 end
  | None => 1
  end.

Definition layer_ok (y : layer) (om : string * lin) : Prop :=
  fst om = l_name y /\ m0 (lin_weight (snd om)) = dim (l_tgt y) /\ m1 (lin_weight (snd om)) = dim (l_src y)
  /\ if l_bias y then exists b, lin_bias (snd om) = Some b /\ m0 b = 1%nat /\ m1 b = dim (l_tgt y)
     else lin_bias (snd om) = None.
Definition pars_ok (os : pars) : Prop := Forall2 layer_ok (net_layers G) os.

Definition conforms (rhs : states -> pars -> result states) : Prop :=
  forall N D s os, has_states (net_states G) "" N D s -> pars_ok os ->
    exists r, rhs s os = Ok r /\ has_states (net_states G) "dot_" N D r /\
      forall a o x n i k, nth_error r a = Some (o, x) -> (n < N)%nat -> (i < D)%nat -> (k < dim a)%nat ->
        v3 x n i k = net_rhs NL dim tgt src act hb damp (wentry os) (bentry os) (entry s) a n i k.

(** ** Lists *)
Lemma Forall2_nth {A B} (P : A -> B -> Prop) la lb :
  Forall2 P la lb -> forall i b, nth_error lb i = Some b -> exists a, nth_error la i = Some a /\ P a b.
Proof.
  induction 1; intros [|i] z Hz; cbn in *; try discriminate.
  - injection Hz as <-. eauto.
  - eauto.
Qed.

Lemma Forall2_nth_l {A B} (P : A -> B -> Prop) la lb :
  Forall2 P la lb -> forall i a, nth_error la i = Some a -> exists b, nth_error lb i = Some b /\ P a b.
Proof.
  induction 1; intros [|i] z Hz; cbn in *; try discriminate.
  - injection Hz as <-. eauto.
  - eauto.
Qed.

Lemma Forall2_lengths {A B} (P : A -> B -> Prop) la lb : Forall2 P la lb -> List.length la = List.length lb.
Proof. induction 1; cbn; congruence. Qed.

Lemma nth_error_set {A} (l : list A) a v i :
  (a < List.length l)%nat -> nth_error (set_nth a v l) i = if Nat.eqb i a then Some v else nth_error l i.
Proof.
  revert a i. induction l as [|x l IH]; intros [|a] [|i] H; cbn in *; try lia; auto.
  apply IH. lia.
Qed.

Lemma Forall2_set {A B} (P : A -> B -> Prop) la lb a x y :
  Forall2 P la lb -> nth_error la a = Some x -> P x y -> Forall2 P la (set_nth a y lb).
Proof.
  intros H. revert a. induction H; intros [|a] Hx HP; cbn in *; try discriminate; auto.
  injection Hx as <-. auto.
Qed.

Lemma fold_left_rsum {A} (f : A -> R) l d :
  fold_left (fun e x => e + f x) l 0 = rsum (List.length l) (fun i => f (nth i l d)).
Proof.
  assert (H : forall e, fold_left (fun e x => e + f x) l e = e + rsum (List.length l) (fun i => f (nth i l d))).
  { induction l as [|x l IH]; intros e; cbn [fold_left List.length].
    - cbn. ring.
    - rewrite IH, rsum_shift. cbn [nth]. ring. }
  rewrite H. ring.
Qed.

(** ** Energies *)
Lemma has_states_nth pre N D s a : has_states (net_states G) pre N D s -> (a < NS)%nat ->
  exists q x, nth_error s a = Some (q, x) /\ of_shape N D (dim a) x.
Proof.
  intros H Ha.
  destruct (nth_error (net_states G) a) as [nd|] eqn:E; [|apply nth_error_None in E; unfold NS in Ha; lia].
  destruct (Forall2_nth_l _ _ _ H _ _ E) as [[q x] [Hx [_ Hs]]]. exists q, x. split; auto.
  unfold dim. rewrite (nth_error_nth _ _ _ E). exact Hs.
Qed.

Lemma zip3_same f x y a b c : of_shape a b c x -> of_shape a b c y ->
  zip3 f x y = Ok (mkT3 a b c (fun n i k => f (v3 x n i k) (v3 y n i k))).
Proof.
  intros [<- [<- <-]] [E0 [E1 E2]]. unfold zip3, bdim, bidx. rewrite E0, E1, E2, !Nat.eqb_refl. cbn [bind].
  rewrite ?E0, ?E1, ?E2, !Nat.eqb_refl. reflexivity.
Qed.

Lemma pairing_from N D names pc pr c r :
  has_states names pc N D c -> has_states names pr N D r -> forall e,
  foldM (fun e pr => x <- zip3 Rmult (snd (fst pr)) (snd (snd pr)) ;; Ok (e + sum2 (mean0 x))) (combine c r) e
  = Ok (e + rsum (List.length names) (fun a =>
       / INR N * sum3 N D (snd (nth a names (""%string, O))) (fun n i k => entry c a n i k * entry r a n i k))).
Proof.
  intros Hc. revert r. induction Hc as [|nd [q x] names c [_ Hx] Hc IH]; intros r Hr e.
  - inversion Hr; subst. cbn. f_equal. ring.
  - inversion Hr as [|? [o y] ? r' [_ Hy] Hr']; subst. cbn [combine foldM fst snd].
    cbn [snd] in Hx, Hy. rewrite (zip3_same _ _ _ _ _ _ Hx Hy). cbn [bind].
    rewrite (IH _ Hr'). f_equal. cbn [List.length]. rewrite rsum_shift. cbn [nth entry nth_error].
    rewrite <- Rplus_assoc. f_equal. f_equal.
    unfold sum2, mean0, sum0, map2, sum3; cbn [m0 m1 v2 n0 n1 n2 v3].
    rewrite (rsum_ext D _ (fun i => / INR N * rsum (snd nd) (fun k => rsum N (fun n => v3 x n i k * v3 y n i k)))).
    + rewrite rsum_scal. f_equal.
      rewrite (rsum_ext D _ (fun i => rsum N (fun n => rsum (snd nd) (fun k => v3 x n i k * v3 y n i k)))) by (intros; apply rsum_swap).
      apply rsum_swap.
    + intros i Hi. rewrite <- rsum_scal. apply rsum_ext; intros k Hk. unfold Rdiv. ring.
Qed.

Definition potential_of (N D : nat) (os : pars) (s c : states) : R :=
  net_potential N D NL NS dim tgt src act hb damp (wentry os) (bentry os) (entry s) (entry c).

Lemma potential_value rhs N D s c os : conforms rhs ->
  has_states (net_states G) "" N D s -> has_states (net_states G) "p_" N D c -> pars_ok os ->
  potential_energy rhs s c os = Ok (potential_of N D os s c).
Proof.
  intros Hc Hs Hp Ho. destruct (Hc _ _ _ _ Hs Ho) as [r [Er [Hr Hv]]].
  unfold potential_energy. rewrite Er. cbn [bind]. unfold pairing. rewrite (pairing_from N D _ _ _ _ _ Hp Hr).
  f_equal. rewrite Rplus_0_l. unfold potential_of, net_potential. apply rsum_ext; intros a Ha. f_equal.
  apply sum3_ext; intros n i k Hn Hi Hk. f_equal.
  destruct (has_states_nth _ _ _ _ _ Hr Ha) as [q [x [Ex _]]].
  unfold entry. rewrite Ex. eapply Hv; eauto.
Qed.

Lemma pars_nth os l : pars_ok os -> (l < NL)%nat ->
  exists o m, nth_error os l = Some (o, m) /\ layer_ok (layer_at l) (o, m).
Proof.
  intros H Hl. destruct (nth_error (net_layers G) l) as [y|] eqn:E; [|apply nth_error_None in E; unfold NL in Hl; lia].
  destruct (Forall2_nth_l _ _ _ H _ _ E) as [[o m] [Hm HP]]. exists o, m. split; auto.
  unfold layer_at. rewrite (nth_error_nth _ _ _ E). exact HP.
Qed.

Lemma penalty_value w t : penalty w t = effective w * rsum (m0 t) (fun i => rsum (m1 t) (fun k => v2 t i k ^ 2)).
Proof. unfold penalty, sum2, map2; cbn. destruct w; cbn; ring. Qed.

Lemma kinetic_value os : pars_ok os ->
  kinetic_energy os = net_kinetic NL dim tgt src hb (wweight os) (bweight os) (wentry os) (bentry os).
Proof.
  intros H. unfold kinetic_energy, net_kinetic. f_equal.
  rewrite (fold_left_rsum (fun ol : string * lin => penalty (weight_of_weight (snd ol)) (lin_weight (snd ol))
     + match lin_bias (snd ol) with None => 0 | Some b => penalty (weight_of_bias (snd ol)) b end) os
     (""%string, mkLin (mkT2 0 0 (fun _ _ => 0)) None None None)).
  rewrite <- (Forall2_lengths _ _ _ H). apply rsum_ext; intros l Hl.
  destruct (pars_nth _ _ H Hl) as [o [m [Em [_ [E0 [E1 E2]]]]]]. cbn [snd] in *.
  rewrite (nth_error_nth _ _ _ Em). cbn [snd].
  unfold wentry, bentry, wweight, bweight, hbr, hb, tgt, src. rewrite !Em.
  rewrite penalty_value, E0, E1. f_equal.
  destruct (l_bias (layer_at l)).
  - destruct E2 as [b [-> [B0 B1]]]. rewrite penalty_value, B0, B1. cbn [rsum]. rewrite Rplus_0_l, Rmult_1_l. reflexivity.
  - rewrite E2. ring.
Qed.

(** ** Parameters found by differentiation *)
Definition gWof (N D : nat) (s c : states) := gW N D tgt src act (entry s) (entry c).
Definition gbof (N D : nat) (c : states) := gb N D tgt (entry c).

Definition weights_ok (os : pars) : Prop :=
  Forall (fun om => effective (weight_of_weight (snd om)) <> 0 /\
            match lin_bias (snd om) with Some _ => effective (weight_of_bias (snd om)) <> 0 | None => True end) os.

Definition net_ok : Prop :=
  Forall (fun y => (l_tgt y < NS)%nat /\ (l_src y < NS)%nat /\
                   forall x, derivable_pt_lim (l_act y) x (l_dact y x)) (net_layers G).

Hypothesis HG : net_ok.

Lemma net_ok_at l : (l < NL)%nat -> (tgt l < NS)%nat /\ (src l < NS)%nat /\ forall x, derivable_pt_lim (act l) x (dact l x).
Proof.
  intros Hl. unfold tgt, src, act, dact.
  assert (In (layer_at l) (net_layers G)) by (apply nth_In; exact Hl).
  exact (proj1 (Forall_forall _ _) HG _ H).
Qed.

Lemma set_weight_ok os a o l w : pars_ok os -> nth_error os a = Some (o, l) -> same_sizes (lin_weight l) w ->
  pars_ok (set_nth a (o, with_weight w l) os).
Proof.
  intros H E [S0 S1]. destruct (Forall2_nth _ _ _ H _ _ E) as [y [Ey Hy]].
  eapply Forall2_set; eauto. destruct Hy as [Hn [H0 [H1 Hb]]]. cbn [fst snd] in *. repeat split; auto; cbn; congruence.
Qed.

Lemma set_bias_ok os a o l b b' : pars_ok os -> nth_error os a = Some (o, l) -> lin_bias l = Some b -> same_sizes b b' ->
  pars_ok (set_nth a (o, with_bias b' l) os).
Proof.
  intros H E Eb [S0 S1]. destruct (Forall2_nth _ _ _ H _ _ E) as [y [Ey Hy]].
  eapply Forall2_set; eauto. destruct Hy as [Hn [H0 [H1 Hb]]]. cbn [fst snd] in *. repeat split; auto.
  destruct (l_bias y).
  - destruct Hb as [b0 [E0 [A B]]]. rewrite Eb in E0. injection E0 as <-. exists b'. cbn. repeat split; congruence.
  - congruence.
Qed.

Section Gradient.
Variables (rhs : states -> pars -> result states) (N D : nat) (s c : states) (os : pars).
Hypothesis Hc : conforms rhs.
Hypothesis Hs : has_states (net_states G) "" N D s.
Hypothesis Hp : has_states (net_states G) "p_" N D c.
Hypothesis Ho : pars_ok os.

Lemma weight_derivative a o l i k :
  nth_error os a = Some (o, l) -> (i < m0 (lin_weight l))%nat -> (k < m1 (lin_weight l))%nat ->
  has_derivative (fun y => potential_energy rhs s c (set_nth a (o, with_weight (upd2 (lin_weight l) i k y) l) os))
    (v2 (lin_weight l) i k) (gWof N D s c a i k).
Proof.
  intros E Hi Hk.
  assert (Ha : (a < List.length os)%nat) by (apply nth_error_Some; congruence).
  assert (HaL : (a < NL)%nat) by (unfold NL; rewrite (Forall2_lengths _ _ _ Ho); exact Ha).
  destruct (Forall2_nth _ _ _ Ho _ _ E) as [y0 [Ey [_ [W0 [W1 _]]]]]. cbn [snd] in W0, W1.
  assert (Hat : layer_at a = y0) by (unfold layer_at; apply nth_error_nth; exact Ey).
  exists (fun y => potential_of N D (set_nth a (o, with_weight (upd2 (lin_weight l) i k y) l) os) s c). split.
  { intros y. apply potential_value; auto. eapply set_weight_ok; eauto. split; reflexivity. }
  unfold potential_of.
  set (x := v2 (lin_weight l) i k).
  eapply derivable_eq; [|apply (net_potential_derivable N D NL NS dim tgt src act hb damp)
     with (W := fun y => wentry (set_nth a (o, with_weight (upd2 (lin_weight l) i k y) l) os))
          (b := fun y => bentry (set_nth a (o, with_weight (upd2 (lin_weight l) i k y) l) os))
          (W' := fun l' i' k' => if Nat.eqb l' a then if Nat.eqb i' i then if Nat.eqb k' k then 1 else 0 else 0 else 0)
          (b' := fun _ _ => 0)].
  - rewrite (rsum_single NL _ a HaL).
    + rewrite (rsum_single (dim (tgt a)) _ i).
      * rewrite (rsum_single (dim (src a)) _ k).
        -- rewrite !Nat.eqb_refl. rewrite (rsum_all_zero (dim (tgt a))) by (intros; ring). unfold gWof. ring.
        -- unfold src. rewrite Hat. lia.
        -- intros k' Hk' Ek. rewrite Nat.eqb_refl. apply Nat.eqb_neq in Ek. rewrite Ek, !Nat.eqb_refl. ring.
      * unfold tgt. rewrite Hat. lia.
      * intros i' Hi' Ei. apply rsum_all_zero. intros. apply Nat.eqb_neq in Ei. rewrite Ei, Nat.eqb_refl. ring.
    + intros l' Hl' El. apply Nat.eqb_neq in El. rewrite El.
      rewrite (rsum_all_zero (dim (tgt l')) (fun k0 => rsum _ _)), (rsum_all_zero (dim (tgt l'))).
      * ring.
      * intros; ring.
      * intros. apply rsum_all_zero. intros; ring.
  - intros l0 Hl0. apply net_ok_at; auto.
  - intros l' i' k' Hl' Hi' Hk'. unfold wentry.
    destruct (Nat.eqb l' a) eqn:El.
    + apply (derivable_ext (fun y => v2 (upd2 (lin_weight l) i k y) i' k')).
      { intros y. rewrite nth_error_set, El by exact Ha. reflexivity. }
      cbn. destruct (Nat.eqb i' i); [destruct (Nat.eqb k' k)|]; try apply derivable_pt_lim_const. apply derivable_pt_lim_id.
    + apply (derivable_ext (fun y => match nth_error os l' with Some (_, m) => v2 (lin_weight m) i' k' | None => 0 end)).
      { intros y. rewrite nth_error_set, El by exact Ha. reflexivity. }
      apply derivable_pt_lim_const.
  - intros l' k' Hl' Hk'. apply (derivable_ext (fun y => bentry os l' k')).
    { intros y. unfold bentry. rewrite nth_error_set by exact Ha. destruct (Nat.eqb_spec l' a); auto. subst. rewrite E. reflexivity. }
    apply derivable_pt_lim_const.
Qed.

Lemma bias_derivative a o l b i k :
  nth_error os a = Some (o, l) -> lin_bias l = Some b -> (i < m0 b)%nat -> (k < m1 b)%nat ->
  has_derivative (fun y => potential_energy rhs s c (set_nth a (o, with_bias (upd2 b i k y) l) os))
    (v2 b i k) (gbof N D c a k).
Proof.
  intros E Eb Hi Hk.
  assert (Ha : (a < List.length os)%nat) by (apply nth_error_Some; congruence).
  assert (HaL : (a < NL)%nat) by (unfold NL; rewrite (Forall2_lengths _ _ _ Ho); exact Ha).
  destruct (Forall2_nth _ _ _ Ho _ _ E) as [y0 [Ey [_ [_ [_ B]]]]]. cbn [snd] in B.
  assert (Hat : layer_at a = y0) by (unfold layer_at; apply nth_error_nth; exact Ey).
  destruct (l_bias y0) eqn:Hb0; [|congruence].
  destruct B as [b0 [Eb0 [B0 B1]]]. rewrite Eb in Eb0. injection Eb0 as <-.
  assert (i = 0)%nat by lia. subst i.
  exists (fun y => potential_of N D (set_nth a (o, with_bias (upd2 b 0 k y) l) os) s c). split.
  { intros y. apply potential_value; auto. eapply set_bias_ok; eauto. split; reflexivity. }
  unfold potential_of.
  eapply derivable_eq; [|apply (net_potential_derivable N D NL NS dim tgt src act hb damp)
     with (W := fun y => wentry (set_nth a (o, with_bias (upd2 b 0 k y) l) os))
          (b := fun y => bentry (set_nth a (o, with_bias (upd2 b 0 k y) l) os))
          (W' := fun _ _ _ => 0)
          (b' := fun l' k' => if Nat.eqb l' a then if Nat.eqb k' k then 1 else 0 else 0)].
  - rewrite (rsum_single NL _ a HaL).
    + rewrite (rsum_all_zero (dim (tgt a)) (fun k0 => rsum _ _)) by (intros; apply rsum_all_zero; intros; ring).
      rewrite (rsum_single (dim (tgt a)) _ k).
      * rewrite !Nat.eqb_refl. unfold hbr, hb. rewrite Hat, Hb0. unfold gbof. ring.
      * unfold tgt. rewrite Hat. lia.
      * intros k' Hk' Ek. apply Nat.eqb_neq in Ek. rewrite Ek, Nat.eqb_refl. ring.
    + intros l' Hl' El. apply Nat.eqb_neq in El. rewrite El.
      rewrite (rsum_all_zero (dim (tgt l')) (fun k0 => rsum _ _)), (rsum_all_zero (dim (tgt l'))).
      * ring.
      * intros; ring.
      * intros. apply rsum_all_zero. intros; ring.
  - intros l0 Hl0. apply net_ok_at; auto.
  - intros l' i' k' Hl' Hi' Hk'. apply (derivable_ext (fun y => wentry os l' i' k')).
    { intros y. unfold wentry. rewrite nth_error_set by exact Ha. destruct (Nat.eqb_spec l' a); auto. subst. rewrite E. reflexivity. }
    apply derivable_pt_lim_const.
  - intros l' k' Hl' Hk'. unfold bentry.
    destruct (Nat.eqb l' a) eqn:El.
    + apply (derivable_ext (fun y => v2 (upd2 b 0 k y) 0 k')).
      { intros y. rewrite nth_error_set, El by exact Ha. reflexivity. }
      cbn. destruct (Nat.eqb k' k); [apply derivable_pt_lim_id|apply derivable_pt_lim_const].
    + apply (derivable_ext (fun y => match nth_error os l' with Some (_, m) => match lin_bias m with Some b => v2 b 0 k' | None => 0 end | None => 0 end)).
      { intros y. rewrite nth_error_set, El by exact Ha. reflexivity. }
      apply derivable_pt_lim_const.
Qed.

(** What the parameters found by differentiation are. *)
Definition optimal_entries (th : pars) : Prop :=
  (forall l k j, (l < NL)%nat -> (k < dim (tgt l))%nat -> (j < dim (src l))%nat ->
     wweight os l * wentry th l k j = gWof N D s c l k j) /\
  (forall l k, (l < NL)%nat -> hb l = true -> (k < dim (tgt l))%nat ->
     bweight os l * bentry th l k = gbof N D c l k).

Lemma has_derivative_unique F x u v : has_derivative F x u -> has_derivative F x v -> u = v.
Proof.
  intros [f [Hf Df]] [g [Hg Dg]].
  apply (uniqueness_limite f x); auto.
  apply (derivable_ext g); auto. intros y. specialize (Hf y). specialize (Hg y). congruence.
Qed.

Lemma same_objects_ok th : same_objects os th -> pars_ok th.
Proof.
  unfold pars_ok, same_objects. clear - Ho. intros H. revert th H. unfold pars_ok in Ho.
  induction Ho as [|y [o m] ly lo H1 H2 IH]; intros th H; inversion H as [|? [o' m'] ? th' [En [Es [Eb _]]] H3]; subst; constructor.
  - destruct H1 as [N1 [A [B C]]]. destruct Es as [S0 S1]. cbn [fst snd] in *. repeat split; cbn [fst snd]; try congruence.
    destruct (l_bias y).
    + destruct C as [b [E [B0 B1]]]. rewrite E in Eb. destruct (lin_bias m') as [b'|]; [|tauto].
      destruct Eb as [X Y]. exists b'. repeat split; congruence.
    + rewrite C in Eb. destruct (lin_bias m'); [tauto|reflexivity].
  - apply IH; auto.
Qed.

Lemma autodiff_iff th : autodiff_parameters rhs os s c th <-> same_objects os th /\ optimal_entries th.
Proof.
  split.
  - intros [HL H]. split; auto. pose proof (same_objects_ok _ HL) as Hth. split.
    + intros l k j Hl Hk Hj.
      destruct (pars_nth _ _ Ho Hl) as [o [m [Em [En [M0 [M1 _]]]]]].
      destruct (Forall2_nth_l _ _ _ HL _ _ Em) as [[o' m'] [Em' [Eo _]]]. cbn [fst snd] in *. subst o'.
      destruct (H _ _ _ _ Em Em') as [Hw _].
      unfold wweight, wentry. rewrite Em, Em'.
      eapply has_derivative_unique; [apply Hw; unfold tgt, src in *; lia|].
      apply weight_derivative; auto; unfold tgt, src in *; lia.
    + intros l k Hl Hbl Hk.
      destruct (pars_nth _ _ Ho Hl) as [o [m [Em [En [M0 [M1 Mb]]]]]].
      destruct (Forall2_nth_l _ _ _ HL _ _ Em) as [[o' m'] [Em' [Eo [_ [Sb _]]]]]. cbn [fst snd] in *. subst o'.
      destruct (H _ _ _ _ Em Em') as [_ Hw].
      unfold hb in Hbl. rewrite Hbl in Mb. destruct Mb as [b [Eb [B0 B1]]].
      rewrite Eb in Sb. destruct (lin_bias m') as [b'|] eqn:Eb'; [|tauto].
      unfold bweight, bentry. rewrite Em, Em', Eb, Eb'.
      eapply has_derivative_unique; [apply (Hw b b' 0%nat k); auto; unfold tgt in *; lia|].
      apply bias_derivative; auto; unfold tgt in *; lia.
  - intros [HL [HW HB]]. split; auto.
    intros a o l m El Em.
    assert (HaL : (a < NL)%nat) by (unfold NL; rewrite (Forall2_lengths _ _ _ Ho); apply nth_error_Some; congruence).
    destruct (pars_nth _ _ Ho HaL) as [o' [l' [El' [En [M0 [M1 Mb]]]]]]. rewrite El in El'. injection El' as <- <-.
    cbn [fst snd] in *. split.
    + intros i k Hi Hk. specialize (HW a i k HaL). unfold wweight, wentry in HW. rewrite El, Em in HW.
      rewrite HW by (unfold tgt, src; lia). apply weight_derivative; auto.
    + intros b b' i k Eb Eb' Hi Hk.
      assert (Hbb : hb a = true) by (unfold hb; destruct (l_bias (layer_at a)); auto; congruence).
      pose proof Hbb as Hbb'. unfold hb in Hbb'. rewrite Hbb' in Mb. destruct Mb as [b0 [E0 [B0 B1]]].
      rewrite Eb in E0. injection E0 as <-. assert (i = 0)%nat by lia. subst i.
      specialize (HB a k HaL Hbb). unfold bweight, bentry in HB. rewrite El, Em, Eb, Eb' in HB.
      rewrite HB by (unfold tgt; lia). apply bias_derivative; auto.
Qed.
End Gradient.
End Generic.

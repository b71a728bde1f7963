(** Reduced Lagrangian, costates and conservation for models whose right-hand side is a net. *)
From Coq Require Import List String Reals Arith Lia Lra Bool.
From Verif Require Import Base Tensor RealSum VecNet VecModel VecSpec VecProofs.
Import ListNotations.
Open Scope R_scope.

Section Reduced.
Variable G : net.
Hypothesis HG : net_ok G.
Notation L := (NL G).
Notation S_ := (NS G).
Notation dim := (dim G).
Notation tgt := (tgt G).
Notation src := (src G).
Notation act := (act G).
Notation dact := (dact G).
Notation hb := (hb G).
Notation damp := (damp G).
Variable rhs : states -> pars -> result states.
Hypothesis Hc : conforms G rhs.
Variable os : pars.
Hypothesis Ho : pars_ok G os.
Hypothesis Hw : weights_ok os.
Variables N D : nat.
Hypothesis HN : (0 < N)%nat.

Definition red (s c : states) : R :=
  net_lagrangian N D L S_ dim tgt src act hb damp (wweight os) (bweight os) (entry s) (entry c).

Lemma wweight_nz l : wweight os l <> 0.
Proof.
  unfold wweight. destruct (nth_error os l) as [[o m]|] eqn:E; [|lra].
  pose proof (proj1 (Forall_forall _ _) Hw _ (nth_error_In _ _ E)) as [H _]. exact H.
Qed.

Lemma bweight_nz l : bweight os l <> 0.
Proof.
  unfold bweight. destruct (nth_error os l) as [[o m]|] eqn:E; [|lra].
  pose proof (proj1 (Forall_forall _ _) Hw _ (nth_error_In _ _ E)) as [_ H]. cbn [snd] in H.
  destruct (lin_bias m); [exact H|lra].
Qed.

Lemma same_weights th : same_objects os th -> forall l, wweight th l = wweight os l /\ bweight th l = bweight os l.
Proof.
  intros H l. unfold wweight, bweight.
  destruct (nth_error os l) as [[o m]|] eqn:E.
  - destruct (Forall2_nth_l _ _ _ H _ _ E) as [[o' m'] [E' [_ [_ [B [A A']]]]]]. cbn [snd] in *. rewrite E', A, A'. split; auto.
    destruct (lin_bias m), (lin_bias m'); tauto.
  - assert (E' : nth_error th l = None).
    { apply nth_error_None. rewrite <- (Forall2_lengths _ _ _ H). apply nth_error_None. exact E. }
    rewrite E'. auto.
Qed.

Lemma net_kinetic_ext ww wb ww' wb' W b W' b' :
  (forall l, ww l = ww' l) -> (forall l, wb l = wb' l) ->
  (forall l k j, (l < L)%nat -> (k < dim (tgt l))%nat -> (j < dim (src l))%nat -> W l k j = W' l k j) ->
  (forall l k, (l < L)%nat -> hb l = true -> (k < dim (tgt l))%nat -> b l k = b' l k) ->
  net_kinetic L dim tgt src hb ww wb W b = net_kinetic L dim tgt src hb ww' wb' W' b'.
Proof.
  intros H1 H2 HW HB. unfold net_kinetic. f_equal. apply rsum_ext; intros l Hl. rewrite H1, H2. f_equal.
  - f_equal. apply rsum_ext; intros k Hk. apply rsum_ext; intros j Hj. rewrite HW; auto.
  - unfold hbr. destruct (hb l) eqn:E; [|ring]. do 2 f_equal. apply rsum_ext; intros k Hk. rewrite HB; auto.
Qed.

Lemma layer_out_ext W b W' b' q l n i k : (l < L)%nat -> (k < dim (tgt l))%nat ->
  (forall l k j, (l < L)%nat -> (k < dim (tgt l))%nat -> (j < dim (src l))%nat -> W l k j = W' l k j) ->
  (forall l k, (l < L)%nat -> hb l = true -> (k < dim (tgt l))%nat -> b l k = b' l k) ->
  layer_out dim src act hb W b q l n i k = layer_out dim src act hb W' b' q l n i k.
Proof.
  intros Hl Hk HW HB. unfold layer_out. f_equal.
  - apply rsum_ext; intros j Hj. rewrite HW; auto.
  - unfold hbr. destruct (hb l) eqn:E; [|ring]. rewrite HB; auto.
Qed.

Lemma net_rhs_ext W b W' b' q s n i k : (k < dim s)%nat ->
  (forall l k j, (l < L)%nat -> (k < dim (tgt l))%nat -> (j < dim (src l))%nat -> W l k j = W' l k j) ->
  (forall l k, (l < L)%nat -> hb l = true -> (k < dim (tgt l))%nat -> b l k = b' l k) ->
  net_rhs L dim tgt src act hb damp W b q s n i k = net_rhs L dim tgt src act hb damp W' b' q s n i k.
Proof.
  intros Hk HW HB. unfold net_rhs. f_equal. apply rsum_ext; intros l Hl.
  unfold ind. destruct (Nat.eqb_spec (tgt l) s); [|ring]. subst s. f_equal. apply layer_out_ext; auto.
Qed.

Lemma net_potential_ext W b W' b' q p :
  (forall l k j, (l < L)%nat -> (k < dim (tgt l))%nat -> (j < dim (src l))%nat -> W l k j = W' l k j) ->
  (forall l k, (l < L)%nat -> hb l = true -> (k < dim (tgt l))%nat -> b l k = b' l k) ->
  net_potential N D L S_ dim tgt src act hb damp W b q p = net_potential N D L S_ dim tgt src act hb damp W' b' q p.
Proof.
  intros HW HB. unfold net_potential. apply rsum_ext; intros s Hs. f_equal. apply sum3_ext; intros n i k Hn Hi Hk.
  f_equal. apply net_rhs_ext; auto.
Qed.

Lemma net_costate_ext W W' q p s n i j : (j < dim s)%nat ->
  (forall l k j, (l < L)%nat -> (k < dim (tgt l))%nat -> (j < dim (src l))%nat -> W l k j = W' l k j) ->
  net_costate L dim tgt src dact damp W q p s n i j = net_costate L dim tgt src dact damp W' q p s n i j.
Proof.
  intros Hj HW. unfold net_costate. f_equal. f_equal. apply rsum_ext; intros l Hl.
  unfold ind. destruct (Nat.eqb_spec (src l) s); [|ring]. subst s. f_equal. f_equal.
  apply rsum_ext; intros k Hk. rewrite HW; auto.
Qed.

Notation oW := (optW N D tgt src act (wweight os)).
Notation ob := (optb N D tgt (bweight os)).

Lemma optimal_W s c th : optimal_entries G N D s c os th ->
  forall l k j, (l < L)%nat -> (k < dim (tgt l))%nat -> (j < dim (src l))%nat ->
    wentry th l k j = oW (entry s) (entry c) l k j.
Proof.
  intros [H _] l k j Hl Hk Hj. specialize (H l k j Hl Hk Hj). unfold optW. unfold gWof in H. rewrite <- H.
  field. apply wweight_nz.
Qed.

Lemma optimal_b s c th : optimal_entries G N D s c os th ->
  forall l k, (l < L)%nat -> hb l = true -> (k < dim (tgt l))%nat -> bentry th l k = ob (entry c) l k.
Proof.
  intros [_ H] l k Hl Hb Hk. specialize (H l k Hl Hb Hk). unfold optb. unfold gbof in H. rewrite <- H.
  field. apply bweight_nz.
Qed.

Lemma lagrangian_value s c th :
  has_states (net_states G) "" N D s -> has_states (net_states G) "p_" N D c ->
  autodiff_parameters rhs os s c th -> lagrangian rhs N s c th = Ok (red s c).
Proof.
  intros Hs Hp Hth.
  apply (autodiff_iff G HG rhs N D s c os Hc Hs Hp Ho) in Hth. destruct Hth as [HL HO].
  pose proof (same_objects_ok G os Ho th HL) as Hok.
  unfold lagrangian. rewrite (potential_value G rhs N D s c th Hc Hs Hp Hok). cbn [bind].
  rewrite (kinetic_value G th Hok). unfold red, net_lagrangian. f_equal. f_equal. f_equal.
  - apply net_kinetic_ext; try (intros; apply (same_weights th HL)).
    + apply optimal_W; auto.
    + eapply optimal_b; eauto.
  - apply net_potential_ext.
    + apply optimal_W; auto.
    + eapply optimal_b; eauto.
Qed.

(** ** Existence of the parameters *)
Definition opt_lin (s c : states) (a : nat) (l : lin) : lin :=
  mkLin (mkT2 (m0 (lin_weight l)) (m1 (lin_weight l)) (oW (entry s) (entry c) a))
        (match lin_bias l with Some b => Some (mkT2 (m0 b) (m1 b) (fun _ => ob (entry c) a)) | None => None end)
        (weight_of_weight l) (weight_of_bias l).
Fixpoint opt_from (s c : states) (a : nat) (l : pars) : pars :=
  match l with [] => [] | (o, x) :: r => (o, opt_lin s c a x) :: opt_from s c (S a) r end.

Lemma opt_from_same s c a l : same_objects l (opt_from s c a l).
Proof.
  revert a. induction l as [|[o x] l IH]; intros a; constructor; auto. split; [reflexivity|].
  repeat split; cbn; auto. destruct (lin_bias x); cbn; auto. split; reflexivity. apply IH.
Qed.

Lemma opt_from_nth s c a l i : nth_error (opt_from s c a l) i
  = match nth_error l i with Some (o, x) => Some (o, opt_lin s c (a + i)%nat x) | None => None end.
Proof.
  revert a i. induction l as [|[o x] l IH]; intros a [|i]; cbn; auto.
  - rewrite Nat.add_0_r. reflexivity.
  - rewrite IH, Nat.add_succ_r. reflexivity.
Qed.

Lemma autodiff_exists s c :
  has_states (net_states G) "" N D s -> has_states (net_states G) "p_" N D c ->
  exists th, autodiff_parameters rhs os s c th.
Proof.
  intros Hs Hp. exists (opt_from s c 0 os).
  apply (autodiff_iff G HG rhs N D s c os Hc Hs Hp Ho). split; [apply opt_from_same|]. split.
  - intros l k j Hl Hk Hj. destruct (pars_nth G _ _ Ho Hl) as [o [m [Em _]]].
    pose proof (wweight_nz l) as NZ. unfold wweight at 1, wentry. unfold wweight in NZ. rewrite opt_from_nth, Em in *. cbn.
    unfold optW, wweight, gWof. rewrite Em. field. exact NZ.
  - intros l k Hl Hb Hk. destruct (pars_nth G _ _ Ho Hl) as [o [m [Em [_ [_ [_ Eb]]]]]]. cbn [snd] in Eb.
    unfold VecProofs.hb in Hb. rewrite Hb in Eb. destruct Eb as [b [Eb _]].
    pose proof (bweight_nz l) as NZ. unfold bweight at 1, bentry. unfold bweight in NZ. rewrite opt_from_nth, Em in *. cbn.
    rewrite Eb in *. cbn. unfold optb, bweight, gbof. rewrite Em, Eb. field. exact NZ.
Qed.

Lemma reduced_value s c v :
  has_states (net_states G) "" N D s -> has_states (net_states G) "p_" N D c ->
  (reduced_lagrangian rhs os N s c v <-> v = red s c).
Proof.
  intros Hs Hp. split.
  - intros [th [Hth E]]. rewrite (lagrangian_value s c th Hs Hp Hth) in E. congruence.
  - intros ->. destruct (autodiff_exists s c Hs Hp) as [th Hth]. exists th. split; auto. apply lagrangian_value; auto.
Qed.

(** ** Costates *)
Definition costate_conforms (costate : states -> states -> pars -> result states) : Prop :=
  forall s c th, has_states (net_states G) "" N D s -> has_states (net_states G) "p_" N D c -> pars_ok G th ->
    exists dp, costate s c th = Ok dp /\ has_states (net_states G) "dot_p_" N D dp /\
      forall a o x n i k, nth_error dp a = Some (o, x) -> (n < N)%nat -> (i < D)%nat -> (k < dim a)%nat ->
        v3 x n i k = net_costate L dim tgt src dact damp (wentry th) (entry s) (entry c) a n i k.

Lemma set_state_ok pre s a q x y : has_states (net_states G) pre N D s -> nth_error s a = Some (q, x) -> same_shape x y ->
  has_states (net_states G) pre N D (set_nth a (q, y) s).
Proof.
  intros H E [A [B C]]. destruct (Forall2_nth _ _ _ H _ _ E) as [nd [En [Hn [X [Y Z]]]]]. cbn [fst snd] in *.
  eapply Forall2_set; eauto. repeat split; cbn; congruence.
Qed.

Lemma red_derivable (Q P : R -> states) q' p' x :
  (forall a n i k, (a < S_)%nat -> (n < N)%nat -> (i < D)%nat -> (k < dim a)%nat ->
     derivable_pt_lim (fun y => entry (Q y) a n i k) x (q' a n i k)) ->
  (forall a n i k, (a < S_)%nat -> (n < N)%nat -> (i < D)%nat -> (k < dim a)%nat ->
     derivable_pt_lim (fun y => entry (P y) a n i k) x (p' a n i k)) ->
  derivable_pt_lim (fun y => red (Q y) (P y)) x
    (rsum S_ (fun a => sum3 N D (dim a) (fun n i k =>
       net_costate L dim tgt src dact damp (oW (entry (Q x)) (entry (P x))) (entry (Q x)) (entry (P x)) a n i k * q' a n i k
       - net_rhs L dim tgt src act hb damp (oW (entry (Q x)) (entry (P x))) (ob (entry (P x))) (entry (Q x)) a n i k * p' a n i k))).
Proof.
  intros HQ HP.
  apply (net_lagrangian_derivable N D L S_ dim tgt src act dact hb damp (wweight os) (bweight os) HN
    (fun l H => proj1 (net_ok_at G HG l H)) (fun l H => proj1 (proj2 (net_ok_at G HG l H)))
    (fun l H => proj2 (proj2 (net_ok_at G HG l H))) (fun l _ => wweight_nz l) (fun l _ => bweight_nz l)
    (fun y => entry (Q y)) (fun y => entry (P y)) q' p' x); auto.
Qed.

Theorem costates_are_autodiff costate s c th : costate_conforms costate ->
  has_states (net_states G) "" N D s -> has_states (net_states G) "p_" N D c ->
  autodiff_parameters rhs os s c th ->
  exists dp, costate s c th = Ok dp /\ autodiff_costates rhs os N s c dp.
Proof.
  intros Hcc Hs Hp Hth.
  apply (autodiff_iff G HG rhs N D s c os Hc Hs Hp Ho) in Hth. destruct Hth as [HL HO].
  pose proof (same_objects_ok G os Ho th HL) as Hok.
  destruct (Hcc _ _ _ Hs Hp Hok) as [dp [Edp [Hdp Hv]]]. exists dp. split; auto. split.
  - clear - Hs Hdp. unfold has_states in *. revert dp Hdp.
    induction Hs as [|nd [q x] names s [Hq [A [B C]]] Hs IH]; intros dp Hdp; inversion Hdp as [|? [o y] ? dp' [E1 [X [Y Z]]] H2]; subst; constructor; auto.
    cbn [fst snd] in *. cbn in Hq. subst. split; auto. repeat split; congruence.
  - intros a q x o dx n i k Ex Edx [Hn [Hi Hk]].
    assert (Ha : (a < S_)%nat).
    { unfold NS. rewrite (Forall2_lengths _ _ _ Hs). apply nth_error_Some. congruence. }
    assert (Hal : (a < List.length s)%nat) by (apply nth_error_Some; congruence).
    destruct (has_states_nth G _ _ _ _ _ Hs Ha) as [q0 [x0 [E0 [X0 [X1 X2]]]]]. rewrite Ex in E0. injection E0 as <- <-.
    exists (fun y => red (set_nth a (q, upd3 x n i k y) s) c). split.
    { intros y. apply reduced_value; auto. eapply set_state_ok; eauto. repeat split. }
    set (x0 := v3 x n i k).
    eapply derivable_eq; [|apply (red_derivable (fun y => set_nth a (q, upd3 x n i k y) s) (fun _ => c)
        (fun a' n' i' k' => if Nat.eqb a' a then if Nat.eqb n' n then if Nat.eqb i' i then if Nat.eqb k' k then 1 else 0 else 0 else 0 else 0)
        (fun _ _ _ _ => 0))].
    + rewrite (rsum_single S_ _ a Ha).
      2:{ intros a' Ha' Ea. apply Nat.eqb_neq in Ea. rewrite Ea.
          transitivity (sum3 N D (dim a') (fun _ _ _ => 0)); [|apply sum3_zero]. apply sum3_ext; intros; ring. }
      rewrite (sum3_single N D (dim a) _ n i k); try (rewrite <- ?X0, <- ?X1, <- ?X2; assumption).
      2:{ intros n' i' k' Hn' Hi' Hk' Ne. rewrite Nat.eqb_refl.
          destruct (Nat.eqb_spec n' n); [destruct (Nat.eqb_spec i' i); [destruct (Nat.eqb_spec k' k)|]|]; subst; try ring.
          exfalso; apply Ne; reflexivity. }
      rewrite !Nat.eqb_refl. rewrite Rmult_1_r, Rmult_0_r, Rminus_0_r.
      assert (Eself : forall a' n' i' k', entry (set_nth a (q, upd3 x n i k x0) s) a' n' i' k' = entry s a' n' i' k').
      { intros a' n' i' k'. unfold entry. rewrite nth_error_set by exact Hal.
        destruct (Nat.eqb_spec a' a); auto. subst a'. rewrite Ex. cbn.
        destruct (Nat.eqb_spec n' n); auto. destruct (Nat.eqb_spec i' i); auto. destruct (Nat.eqb_spec k' k); subst; auto. }
      symmetry.
      rewrite (Hv a o dx n i k Edx); try congruence.
      rewrite (net_costate_ext (wentry th) (oW (entry s) (entry c))); [| congruence | apply optimal_W; auto].
      unfold net_costate. f_equal.
      f_equal. apply rsum_ext; intros l Hl. rewrite Eself. do 2 f_equal.
      apply rsum_ext; intros k0 Hk0. f_equal. unfold optW, gW. f_equal. f_equal.
      apply rsum_ext; intros n' Hn'. apply rsum_ext; intros i' Hi'. rewrite Eself. reflexivity.
    + intros a' n' i' k' Ha' Hn' Hi' Hk'. unfold entry.
      destruct (Nat.eqb a' a) eqn:Ea.
      * apply (derivable_ext (fun y => v3 (upd3 x n i k y) n' i' k')).
        { intros y. rewrite nth_error_set, Ea by exact Hal. reflexivity. }
        cbn. destruct (Nat.eqb n' n); [destruct (Nat.eqb i' i); [destruct (Nat.eqb k' k)|]|];
          try apply derivable_pt_lim_const. apply derivable_pt_lim_id.
      * apply (derivable_ext (fun y => entry s a' n' i' k')).
        { intros y. unfold entry. rewrite nth_error_set, Ea by exact Hal. reflexivity. }
        apply derivable_pt_lim_const.
    + intros. apply derivable_pt_lim_const.
Qed.

(** ** Conservation *)
Lemma red_stationary costate (Q P : R -> states) t th r dp :
  costate_conforms costate ->
  (forall u, has_states (net_states G) "" N D (Q u)) -> (forall u, has_states (net_states G) "p_" N D (P u)) ->
  autodiff_parameters rhs os (Q t) (P t) th -> rhs (Q t) th = Ok r -> costate (Q t) (P t) th = Ok dp ->
  moves_along Q t r -> moves_along P t dp ->
  derivable_pt_lim (fun u => red (Q u) (P u)) t 0.
Proof.
  intros Hcc HQ HP Hth Er Ep MQ MP.
  apply (autodiff_iff G HG rhs N D _ _ os Hc (HQ t) (HP t) Ho) in Hth. destruct Hth as [HL HO].
  pose proof (same_objects_ok G os Ho th HL) as Hok.
  destruct (Hc _ _ _ _ (HQ t) Hok) as [r' [Er' [Hr Hvr]]]. rewrite Er in Er'. injection Er' as <-.
  destruct (Hcc _ _ _ (HQ t) (HP t) Hok) as [dp' [Ep' [Hdp Hvp]]]. rewrite Ep in Ep'. injection Ep' as <-.
  eapply derivable_eq; [|apply (red_derivable Q P
      (net_rhs L dim tgt src act hb damp (oW (entry (Q t)) (entry (P t))) (ob (entry (P t))) (entry (Q t)))
      (net_costate L dim tgt src dact damp (oW (entry (Q t)) (entry (P t))) (entry (Q t)) (entry (P t))))].
  - apply rsum_all_zero. intros a Ha. 
    transitivity (sum3 N D (dim a) (fun _ _ _ => 0)); [|apply sum3_zero]. apply sum3_ext; intros; ring.
  - intros a n i k Ha Hn Hi Hk.
    destruct (has_states_nth G _ _ _ _ _ (HQ t) Ha) as [q [x [Ex [X0 [X1 X2]]]]].
    destruct (has_states_nth G _ _ _ _ _ Hr Ha) as [o [y [Ey _]]].
    rewrite (net_rhs_ext _ _ (wentry th) (bentry th)).
    + rewrite <- (Hvr a o y n i k Ey Hn Hi Hk). eapply MQ; eauto. repeat split; congruence.
    + exact Hk.
    + intros. symmetry. apply optimal_W; auto.
    + intros. symmetry. eapply optimal_b; eauto.
  - intros a n i k Ha Hn Hi Hk.
    destruct (has_states_nth G _ _ _ _ _ (HP t) Ha) as [q [x [Ex [X0 [X1 X2]]]]].
    destruct (has_states_nth G _ _ _ _ _ Hdp Ha) as [o [y [Ey _]]].
    rewrite (net_costate_ext _ (wentry th)).
    + rewrite <- (Hvp a o y n i k Ey Hn Hi Hk). eapply MP; eauto. repeat split; congruence.
    + exact Hk.
    + intros. symmetry. apply optimal_W; auto.
Qed.

Theorem reduced_stationary costate (Q P : R -> states) t th r dp :
  costate_conforms costate ->
  (forall u, has_states (net_states G) "" N D (Q u)) -> (forall u, has_states (net_states G) "p_" N D (P u)) ->
  autodiff_parameters rhs os (Q t) (P t) th -> rhs (Q t) th = Ok r -> costate (Q t) (P t) th = Ok dp ->
  moves_along Q t r -> moves_along P t dp ->
  exists F, (forall u, reduced_lagrangian rhs os N (Q u) (P u) (F u)) /\ derivable_pt_lim F t 0.
Proof.
  intros. exists (fun u => red (Q u) (P u)). split.
  - intros u. apply reduced_value; auto.
  - eapply red_stationary; eauto.
Qed.

Theorem red_constant costate (Q P : R -> states) :
  costate_conforms costate ->
  (forall t, has_states (net_states G) "" N D (Q t)) -> (forall t, has_states (net_states G) "p_" N D (P t)) ->
  shooting_solution rhs costate os Q P ->
  (forall t, exists v, reduced_lagrangian rhs os N (Q t) (P t) v) /\
  (forall t u v w, reduced_lagrangian rhs os N (Q t) (P t) v -> reduced_lagrangian rhs os N (Q u) (P u) w -> v = w).
Proof.
  intros Hcc HQ HP Hsol.
  assert (Hd : forall t, derivable_pt_lim (fun u => red (Q u) (P u)) t 0).
  { intros t. destruct (Hsol t) as [th [r [dp [Hth [Er [Ep [MQ MP]]]]]]]. eapply red_stationary; eauto. }
  assert (Hconst : forall t u, red (Q t) (P t) = red (Q u) (P u)).
  { set (f := fun u => red (Q u) (P u)).
    assert (pr : derivable f) by (intros t; exists 0; apply Hd).
    assert (H0 : forall t, derive_pt f t (pr t) = 0) by (intros t; apply derive_pt_eq_0; apply Hd).
    pose proof (null_derivative_1 f pr H0) as Hk. intros t u. exact (Hk t u). }
  split.
  - intros t. exists (red (Q t) (P t)). apply reduced_value; auto.
  - intros t u v w Hv Hw'. apply reduced_value in Hv; auto. apply reduced_value in Hw'; auto. subst. apply Hconst.
Qed.

(** Costates found by differentiation are unique. *)
Theorem autodiff_costates_unique s c dp dp' :
  has_states (net_states G) "" N D s -> has_states (net_states G) "p_" N D c ->
  autodiff_costates rhs os N s c dp -> autodiff_costates rhs os N s c dp' ->
  forall a n i k, (a < S_)%nat -> (n < N)%nat -> (i < D)%nat -> (k < dim a)%nat -> entry dp a n i k = entry dp' a n i k.
Proof.
  intros Hs Hp [H1 H2] [H1' H2'] a n i k Ha Hn Hi Hk.
  destruct (has_states_nth G _ _ _ _ _ Hs Ha) as [q [x [Ex [X0 [X1 X2]]]]].
  destruct (Forall2_nth_l _ _ _ H1 _ _ Ex) as [[o y] [Ey _]].
  destruct (Forall2_nth_l _ _ _ H1' _ _ Ex) as [[o' y'] [Ey' _]].
  assert (Hr : in_range x n i k) by (repeat split; congruence).
  destruct (H2 _ _ _ _ _ _ _ _ Ex Ey Hr) as [f [Hf Df]].
  destruct (H2' _ _ _ _ _ _ _ _ Ex Ey' Hr) as [g [Hg Dg]].
  unfold entry. rewrite Ey, Ey'. apply (uniqueness_limite f (v3 x n i k)); auto.
  apply (derivable_ext g); auto. intros u. specialize (Hf u). specialize (Hg u).
  assert (Hs' : has_states (net_states G) "" N D (set_nth a (q, upd3 x n i k u) s)).
  { eapply set_state_ok; eauto. repeat split. }
  apply reduced_value in Hf; auto. apply reduced_value in Hg; auto. congruence.
Qed.

(** Parameters found by differentiation are unique. *)
Theorem autodiff_parameters_unique s c th th' :
  has_states (net_states G) "" N D s -> has_states (net_states G) "p_" N D c ->
  autodiff_parameters rhs os s c th -> autodiff_parameters rhs os s c th' ->
  (forall l k j, (l < L)%nat -> (k < dim (tgt l))%nat -> (j < dim (src l))%nat -> wentry th l k j = wentry th' l k j)
  /\ (forall l k, (l < L)%nat -> hb l = true -> (k < dim (tgt l))%nat -> bentry th l k = bentry th' l k).
Proof.
  intros Hs Hp H H'. apply (autodiff_iff G HG rhs N D s c os Hc Hs Hp Ho) in H, H'. destruct H as [_ H], H' as [_ H']. split.
  - intros. rewrite (optimal_W s c th), (optimal_W s c th'); auto.
  - intros. rewrite (optimal_b s c th), (optimal_b s c th'); auto.
Qed.

(** A costate equation that always conforms. *)
Definition net_costates (s c : states) (th : pars) : result states :=
  Ok ((fix go a l := match l with
      | [] => []
      | (nm, m) :: r => (String.append "dot_p_" nm, mkT3 N D m (net_costate L dim tgt src dact damp (wentry th) (entry s) (entry c) a)) :: go (S a) r
      end) O (net_states G)).

Lemma net_costates_conform : costate_conforms net_costates.
Proof.
  intros s c th Hs Hp Hth. eexists. split; [reflexivity|].
  match goal with |- has_states _ _ _ _ (?go _ _) /\ _ => set (g := go) end. split.
  - unfold has_states. clear Hs Hp. generalize O. induction (net_states G) as [|[nm m] l IH]; intros a; [apply Forall2_nil|].
    apply Forall2_cons; [cbn; repeat split|apply IH].
  - assert (H : forall l b a o x, nth_error (g b l) a = Some (o, x) ->
        forall n i k, v3 x n i k = net_costate L dim tgt src dact damp (wentry th) (entry s) (entry c) (b + a) n i k).
    { induction l as [|[nm m] l IH]; intros b [|a] o x E n i k; cbn in E; try discriminate.
      - injection E as <- <-. cbn. rewrite Nat.add_0_r. reflexivity.
      - rewrite (IH (S b) a o x E). replace (b + S a)%nat with (S b + a)%nat by lia. reflexivity. }
    intros a o x n i k E _ _ _. exact (H _ O a o x E n i k).
Qed.

(** ** Parameter formulas *)
Lemma formula_weights s c th :
  has_states (net_states G) "" N D s -> has_states (net_states G) "p_" N D c ->
  Forall2 (fun x y => fst x = fst y /\ same_sizes (lin_weight (snd x)) (lin_weight (snd y))) os th ->
  (forall l k j, (l < L)%nat -> (k < dim (tgt l))%nat -> (j < dim (src l))%nat ->
        wweight os l * wentry th l k j = gWof G N D s c l k j) ->
  autodiff_weights rhs os s c th.
Proof.
  intros Hs Hp HF H. split; auto. intros a o l m El Em i k Hi Hk.
  assert (Ha : (a < L)%nat). { unfold NL. rewrite (Forall2_lengths _ _ _ Ho). apply nth_error_Some. congruence. }
  destruct (pars_nth G _ _ Ho Ha) as [o' [l' [El' [_ [A [B _]]]]]]. rewrite El in El'. injection El' as <- <-. cbn [snd] in *.
  specialize (H a i k Ha). unfold wweight, wentry in H. rewrite El, Em in H. rewrite H.
  - eapply weight_derivative; eauto.
  - unfold tgt. congruence.
  - unfold src. congruence.
Qed.
End Reduced.

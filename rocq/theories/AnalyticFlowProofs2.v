(** Proofs: switching to the hand-written equations changes nothing for the models of the package; with
    particles of dimension 2 it does. *)
From Coq Require Import List String Bool Reals Arith Lia Lra.
From Verif Require Import Base Tensor RealSum VecModel VecSpec VecNet VecProofs VecProofs2 VecProofs4 VecProofs5 VecProofs6 VecProofs7 VecProofs9 VecFlow AnalyticFlowSpec AnalyticFlowProofs.
Import ListNotations.
Open Scope string_scope.
Open Scope list_scope.
Open Scope R_scope.

Section Assemble.
Variable G : net.
Variable rhs : states -> pars -> result states.
Variable os : pars.
Variable costate : nat -> states -> states -> pars -> result states.
Variable parameters : nat -> states -> states -> result pars.
Variable D : nat.
Hypothesis HG : net_ok G.
Hypothesis Hc : conforms G rhs.
Hypothesis Ho : pars_ok G os.
Hypothesis Hw : weights_ok os.
Hypothesis Hcos : forall N D, costate_conforms G N D (costate N).
Hypothesis Hpar : analytic_parameters_correct D rhs os parameters (net_states G).

Lemma analytic_differentiates N : (0 < N)%nat ->
  differentiates_model rhs os (net_states G) N D (fun _ => parameters N) (fun _ => costate N).
Proof.
  intros HN. split.
  - intros t s c Hs Hp. apply (Hpar N s c HN Hs Hp).
  - intros t s c th Hs Hp Hth. apply (costates_are_autodiff G HG rhs Hc os Ho Hw N D HN (costate N) s c th (Hcos N D) Hs Hp Hth).
Qed.

Lemma autodiff_differentiates N : (0 < N)%nat ->
  exists parA cosA, differentiates_model rhs os (net_states G) N D parA cosA.
Proof.
  intros HN. exists (fun _ s c => Ok (opt_from G os N D s c 0 os)), (fun _ => net_costates G N D). split.
  - intros t s c Hs Hp. eexists. split; [reflexivity|].
    apply (autodiff_iff G HG rhs N D s c os Hc Hs Hp Ho). split; [apply opt_from_same|]. split.
    + intros l k j Hl Hk Hj. destruct (pars_nth G _ _ Ho Hl) as [o [m [Em _]]].
      pose proof (wweight_nz os Hw l) as NZ. unfold wweight at 1, wentry. unfold wweight in NZ. rewrite opt_from_nth, Em in *. cbn.
      unfold optW, wweight, gWof. rewrite Em. field. exact NZ.
    + intros l k Hl Hb Hk. destruct (pars_nth G _ _ Ho Hl) as [o [m [Em [_ [_ [_ Eb]]]]]]. cbn [snd] in Eb.
      unfold VecProofs.hb in Hb. rewrite Hb in Eb. destruct Eb as [b [Eb _]].
      pose proof (bweight_nz os Hw l) as NZ. unfold bweight at 1, bentry. unfold bweight in NZ. rewrite opt_from_nth, Em in *. cbn.
      rewrite Eb in *. cbn. unfold optb, bweight, gbof. rewrite Em, Eb. field. exact NZ.
  - intros t s c th Hs Hp Hth. apply (costates_are_autodiff G HG rhs Hc os Ho Hw N D HN (net_costates G N D) s c th); auto.
    apply net_costates_conform; auto.
Qed.

Lemma has_derivative_congr F H x v : (forall y, F y = H y) -> has_derivative F x v <-> has_derivative H x v.
Proof. intros E. split; intros [f [Hf Df]]; exists f; split; auto; intros y; rewrite <- Hf; [symmetry|]; apply E. Qed.

Theorem switch_holds : switch_changes_nothing D rhs os costate parameters (net_states G).
Proof.
  intros N B E parA cosA HN HA. cbv zeta. pose proof (analytic_differentiates N HN) as HB.
  assert (HL : forall next n j start, looks_at_entries next -> has_system (net_states G) N D B E start ->
     script_loss rhs (fun _ => parameters N) (fun _ => costate N) next n j start = script_loss rhs parA cosA next n j start).
  { intros. apply (loss_same G HG rhs Hc os Ho Hw N D HN _ _ _ _ HB HA B E); auto. }
  split; [|split; [|split; [|split; [exact HL|split]]]].
  - intros prog start Hs. unfold run.
    destruct (run_same G HG rhs Hc os Ho Hw N D HN _ _ _ _ HB HA B E prog _ _ (start_envs G N D B E _ Hs)) as [[f [f' [E1 [E2 [_ Hf]]]]]|[E1 E2]];
      rewrite E1, E2; cbn; auto.
  - intros next n start Hn Hs.
    destruct (integrate_same G HG rhs Hc os Ho Hw N D HN _ _ _ _ HB HA B E next n Hn _ _ (start_envs G N D B E _ Hs)) as [[f [f' [E1 [E2 [_ Hf]]]]]|[E1 E2]];
      rewrite E1, E2; cbn; auto.
  - intros t s c Hs Hp. apply (penalty_same G HG rhs Hc os Ho Hw N D _ _ _ _ HB HA t s c); auto.
  - intros next n j s c d a q x u v w z Hn [Hs [Hp Hd]] Ea. apply has_derivative_congr. intros y. apply HL; auto.
    repeat split; auto. cbn in *. eapply (set_state_ok G N D); eauto. repeat split.
  - intros next n j s c d a q x u v w z Hn [Hs [Hp Hd]] Ea. apply has_derivative_congr. intros y. apply HL; auto.
    repeat split; auto. cbn in *. eapply (set_state_ok G N D); eauto. repeat split.
Qed.

Lemma fetch_in (e : list system) j : (j < List.length e)%nat -> fetch e j <> Raise IndexError.
Proof.
  intros H. unfold fetch. destruct (nth_error e j) eqn:Ee; [discriminate|]. apply nth_error_None in Ee. lia.
Qed.

Lemma fold_no_index l : forall e acc, Forall (fun bk : R * nat => (snd bk < List.length e)%nat) l ->
  (forall x, In x e -> True) ->
  foldM (pull e) l acc = Raise IndexError -> exists k acc' x, In k l /\ fetch e (snd k) = Ok x /\ sys_axpy (fst k) x acc' = Raise IndexError.
Proof.
  induction l as [|k l IH]; intros e acc Hl _ H; [discriminate|]. inversion Hl as [|? ? Hk Hl']; subst. cbn [foldM] in H.
  unfold pull at 1 in H. destruct (fetch e (snd k)) as [x|ee] eqn:Ef.
  - cbn [bind] in H. destruct (sys_axpy (fst k) x acc) as [z|ex] eqn:Ez.
    + cbn [bind] in H. destruct (IH e z Hl' (fun _ _ => I) H) as [k' [a' [x' [Hi Hx]]]]. exists k', a', x'. split; auto. right; auto.
    + cbn [bind] in H. injection H as ->. exists k, acc, x. split; [left; auto|auto].
  - exfalso. cbn [bind] in H. injection H as ->. apply (fetch_in e (snd k) Hk Ef).
Qed.

Lemma axpy_no_index a : forall x y, axpy a x y <> Raise IndexError.
Proof.
  induction x as [|[q u] x IH]; destruct y as [|[q' v] y]; cbn; try discriminate.
  destruct (shapes_agree u v); [|discriminate]. specialize (IH y). destruct (axpy a x y); cbn; congruence.
Qed.

Lemma sys_axpy_no_index a x y : sys_axpy a x y <> Raise IndexError.
Proof.
  unfold sys_axpy. pose proof (axpy_no_index a (sys_state x) (sys_state y)). destruct (axpy a (sys_state x) (sys_state y)); cbn; [|congruence].
  pose proof (axpy_no_index a (sys_costate x) (sys_costate y)). destruct (axpy a (sys_costate x) (sys_costate y)); cbn; [|congruence].
  pose proof (axpy_no_index a (sys_data x) (sys_data y)). destruct (axpy a (sys_data x) (sys_data y)); cbn; congruence.
Qed.

Theorem succeed_holds : runs_succeed D rhs costate parameters (net_states G).
Proof.
  intros N B E prog start HN Hs. pose proof (analytic_differentiates N HN) as HB.
  assert (H : forall prog e, envs G N D B E e e -> refers_back (List.length e) prog ->
    exists env, foldM (step rhs (fun _ => parameters N) (fun _ => costate N)) prog e = Ok env
       /\ List.length env = (List.length e + List.length prog)%nat /\ Forall (has_system (net_states G) N D B E) env).
  { clear prog. induction prog as [|i prog IH]; intros e He Hr.
    - exists e. cbn. split; auto. split; [lia|apply He].
    - destruct Hr as [Hi Hr]. cbn [foldM].
      destruct (step_same G HG rhs Hc os Ho Hw N D HN _ _ _ _ HB HB B E e e i He) as [[f [f' [E1 [E2 [Hf Sf]]]]]|[E1 _]].
      + rewrite E1. cbn [bind]. assert (f' = f) as -> by congruence.
        assert (El : List.length f = S (List.length e)).
        { clear - E1. destruct i as [t j|[a j] l]; cbn in E1; destruct (fetch e j); cbn in E1; try discriminate.
          - match type of E1 with (x <- ?m ;; _) = _ => destruct m end; cbn in E1; try discriminate. injection E1 as <-. rewrite app_length. cbn. lia.
          - match type of E1 with (x <- ?m ;; _) = _ => destruct m end; cbn in E1; try discriminate. injection E1 as <-. rewrite app_length. cbn. lia. }
        destruct (IH f) as [env [Ee [Hl Ho']]].
        * split; auto.
        * rewrite El. exact Hr.
        * exists env. split; auto. split; auto. cbn. lia.
      + exfalso. destruct i as [t j|[a j] l]; cbn in Hi, E1.
        * destruct (fetch_same G N D B E e e j He) as [[x [y [Ex [_ [Hx Sx]]]]]|[Ex _]].
          2:{ apply (fetch_in e j Hi Ex). }
          rewrite Ex in E1. cbn in E1.
          assert (Sxx : same_system x x) by (repeat split; apply same_entries_refl).
          destruct (field_same G HG rhs Hc os Ho Hw N D HN _ _ _ _ HB HB B E t x x Hx Sxx) as [u [w [Eu _]]].
          rewrite Eu in E1. discriminate.
        * destruct Hi as [Hj Hl]. destruct (fetch e j) as [x|ee] eqn:Ef.
          2:{ apply (fetch_in e j Hj). cbn in E1. congruence. }
          cbn in E1. change (fun acc bk => y0 <- fetch e (snd bk);; sys_axpy (fst bk) y0 acc) with (pull e) in E1.
          destruct (foldM (pull e) l (sys_scale a x)) as [z|ez] eqn:Ez; cbn in E1; [discriminate|]. injection E1 as ->.
          destruct (fold_no_index l e _ Hl (fun _ _ => I) Ez) as [k [acc [y [_ [_ Hbad]]]]]. apply (sys_axpy_no_index _ _ _ Hbad). }
  intros Hr. unfold run. destruct (H prog [start]) as [env [Ee [Hl Hf]]]; auto.
  - split; constructor; auto. repeat split; apply same_entries_refl.
  - exists env. cbn in Hl. auto.
Qed.
End Assemble.

Section Models.
Variables nl dnl : R -> R.
Hypothesis Hnl : forall x, derivable_pt_lim nl x (dnl x).
Variable init : inits.
Variables d f : nat.
Notation e := (d * f)%nat.
Variable W : option R.
Hypothesis HW : effective W <> 0.
Variable ow : R.
Hypothesis How : ow <> 0.
Notation two := [("q1", d); ("q2", e)].
Notation twod := [("q1", d); ("q2", d)].
Notation one_state := [("q1", d)].
Notation three := [("q1", d); ("q2", d); ("q3", d)].

Definition both_claims rhs os costate parameters names : Prop :=
  switch_changes_nothing 1 rhs os costate parameters names /\ runs_succeed 1 rhs costate parameters names.

Lemma both_hold G rhs os costate parameters :
  net_ok G -> conforms G rhs -> pars_ok G os -> weights_ok os -> (forall N D, costate_conforms G N D (costate N)) ->
  analytic_parameters_correct 1 rhs os parameters (net_states G) -> both_claims rhs os costate parameters (net_states G).
Proof. intros. split; [apply (switch_holds G)|eapply (succeed_holds G)]; eauto. Qed.

Lemma updown_both : both_claims (updown_rhs nl) (updown_objects init d f W) (fun _ => updown_costate dnl) (fun _ => updown_parameters nl init d f W) two.
Proof. apply (both_hold (updown_net nl dnl d e)); [apply updown_net_ok; auto|apply updown_conforms|apply updown_pars_ok|apply updown_weights_ok; auto|intros; apply updown_costates|apply updown_parameters_correct with (dnl := dnl); auto]. Qed.
Lemma universal_both : both_claims (universal_rhs nl) (universal_objects init d f W ow) (fun _ => universal_costate dnl) (fun _ => universal_parameters nl init d f W ow) two.
Proof. apply (both_hold (universal_net nl dnl d e)); [apply universal_net_ok; auto|apply universal_conforms|apply universal_pars_ok|apply universal_weights_ok; auto|intros; apply universal_costates|apply universal_parameters_correct with (dnl := dnl); auto]. Qed.
Lemma general_both : both_claims (general_rhs nl) (general_objects init d f W) (fun _ => general_costate dnl) (fun _ => general_parameters nl init d f W) two.
Proof. apply (both_hold (general_net nl dnl d e)); [apply general_net_ok; auto|apply general_conforms|apply general_pars_ok|apply general_weights_ok; auto|intros; apply general_costates|apply general_parameters_correct with (dnl := dnl); auto]. Qed.
Lemma periodic_both : both_claims (periodic_rhs nl) (periodic_objects init d f W) (fun _ => periodic_costate dnl) (fun _ => periodic_parameters nl init d f W) two.
Proof. apply (both_hold (periodic_net nl dnl d e)); [apply periodic_net_ok; auto|apply periodic_conforms|apply periodic_pars_ok|apply periodic_weights_ok; auto|intros; apply periodic_costates|apply periodic_parameters_correct with (dnl := dnl); auto]. Qed.
Lemma symmetrized_both : both_claims (symmetrized_rhs nl) (symmetrized_objects init d 1 W) (fun _ => symmetrized_costate dnl) (fun _ => symmetrized_parameters nl init d 1 W) three.
Proof. apply (both_hold (symmetrized_net nl dnl d)); [apply symmetrized_net_ok; auto|apply symmetrized_conforms|apply symmetrized_pars_ok|apply symmetrized_weights_ok; auto|intros; apply symmetrized_costates|apply symmetrized_parameters_correct with (dnl := dnl); auto]. Qed.
Lemma simple_both : both_claims (simple_rhs nl) (simple_objects init d W) (simple_costate nl dnl) (simple_parameters nl init d W) one_state.
Proof. apply (both_hold (simple_net nl dnl d)); [apply simple_net_ok; auto|apply simple_conforms|apply simple_pars_ok|apply simple_weights_ok; auto|intros; apply simple_costates|apply simple_parameters_correct with (dnl := dnl); auto]. Qed.
Lemma debug_both : both_claims (debug_rhs nl) (debug_objects init d W) (debug_costate nl dnl) (debug_parameters nl init d W) twod.
Proof. apply (both_hold (debug_net nl dnl d)); [apply debug_net_ok; auto|apply debug_conforms|apply debug_pars_ok|apply debug_weights_ok; auto|intros; apply debug_costates|apply debug_parameters_correct with (dnl := dnl); auto]. Qed.

Lemma updown_differentiable N D : (0 < N)%nat ->
  exists parA cosA, differentiates_model (updown_rhs nl) (updown_objects init d f W) two N D parA cosA.
Proof.
  apply (autodiff_differentiates (updown_net nl dnl d e)); [apply updown_net_ok; auto|apply updown_conforms|apply updown_pars_ok|apply updown_weights_ok; auto].
Qed.
End Models.

(** ** Particles of dimension 2 *)
Definition two_state : states := [("q1", col 1 2 zero_); ("q2", col 1 2 zero_)].
Definition two_costate : states := [("p_q1", col 1 2 (fun _ => 1)); ("p_q2", col 1 2 zero_)].

Lemma penalties_differ : exists th th',
  has_states [("q1", 1%nat); ("q2", 1%nat)] "" 1 2 two_state /\ has_states [("q1", 1%nat); ("q2", 1%nat)] "p_" 1 2 two_costate
  /\ updown_parameters idf init0 1 1 None two_state two_costate = Ok th
  /\ autodiff_parameters (updown_rhs idf) (updown_objects init0 1 1 None) two_state two_costate th'
  /\ kinetic_energy th = 1 /\ kinetic_energy th' = 2.
Proof.
  assert (Hs : has_states [("q1", 1%nat); ("q2", 1%nat)] "" 1 2 two_state) by (apply (states_two 1 2 ""); apply col_shape).
  assert (Hp : has_states [("q1", 1%nat); ("q2", 1%nat)] "p_" 1 2 two_costate) by (apply (states_two 1 2 "p_"); apply col_shape).
  pose proof (updown_net_ok idf onef idf_derivable 1 1) as G1.
  pose proof (updown_pars_ok idf onef init0 1 1 None) as G2.
  pose proof (updown_conforms idf onef 1 1) as G4.
  assert (G3 : weights_ok (updown_objects init0 1 1 None)) by (apply updown_weights_ok; cbn; lra).
  destruct (autodiff_exists _ G1 _ G4 _ G2 G3 1 2 two_state two_costate Hs Hp) as [th' Hth].
  eexists. exists th'. split; [exact Hs|]. split; [exact Hp|]. split; [evalOk|]. split; [exact Hth|]. split.
  - unfold kinetic_energy, penalty, sum2. cbn. unfold zero_, idf. lra.
  - pose proof Hth as Hi. apply (autodiff_iff _ G1 _ 1 2 two_state two_costate _ G4 Hs Hp G2) in Hi. destruct Hi as [HL HO].
    pose proof (same_objects_ok _ _ G2 _ HL) as Hok. rewrite (kinetic_value (updown_net idf onef 1 1) _ Hok).
    rewrite (net_kinetic_ext (updown_net idf onef 1 1) _ _ (wweight (updown_objects init0 1 1 None)) (bweight (updown_objects init0 1 1 None)) _ _ _ _
      (fun l => proj1 (same_weights _ _ HL l)) (fun l => proj2 (same_weights _ _ HL l))
      (optimal_W _ _ G3 _ _ _ _ _ HO) (optimal_b _ _ G3 _ _ _ _ _ HO)).
    unfold net_kinetic. cbn. unfold optW, optb, gW, gb. cbn. unfold zero_, idf. lra.
Qed.

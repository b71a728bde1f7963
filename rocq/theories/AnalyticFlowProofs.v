(** Proofs: the hand-written equations and differentiation give the same runs. *)
From Coq Require Import List String Bool Reals Arith Lia Lra.
From Verif Require Import Base Tensor RealSum VecModel VecSpec VecNet VecProofs VecProofs2 VecFlow AnalyticFlowSpec.
Import ListNotations.
Open Scope string_scope.
Open Scope list_scope.
Open Scope R_scope.

(** ** Entries *)
Lemma same_entries_nth s s' a q x : same_entries s s' -> nth_error s a = Some (q, x) ->
  exists x', nth_error s' a = Some (q, x') /\ same_shape x x' /\ forall n i k, in_range x n i k -> v3 x n i k = v3 x' n i k.
Proof.
  intros H E. destruct (Forall2_nth_l _ _ _ H _ _ E) as [[q' x'] [E' [A [B C]]]]. cbn [fst snd] in *. subst. eauto.
Qed.

Lemma same_entries_refl s : same_entries s s.
Proof. induction s; constructor; auto. split; auto. split; auto. repeat split. Qed.

Lemma has_states_same names pre N D s s' : same_entries s s' -> has_states names pre N D s -> has_states names pre N D s'.
Proof.
  intros H. revert names. induction H as [|[q x] [q' x'] s s' [A [[B0 [B1 B2]] _]] H IH]; intros names Hs; inversion Hs as [|nd ? l ? HH HT]; subst; constructor.
  - destruct HH as [E [F0 [F1 F2]]]. cbn [fst snd] in *. split; [congruence|]. split; [congruence|]. split; congruence.
  - apply IH. auto.
Qed.

Section FlowProofs.
Variable G : net.
Hypothesis HG : net_ok G.
Notation L := (NL G).
Notation S_ := (NS G).
Notation dim := (dim G).
Notation tgt := (tgt G).
Notation src := (src G).
Notation act := (act G).
Notation dact := (dact G).
Notation hb := (hb G).
Notation damp := (damp G).
Variable rhs : states -> pars -> result states.
Hypothesis Hc : conforms G rhs.
Variable os : pars.
Hypothesis Ho : pars_ok G os.
Hypothesis Hw : weights_ok os.
Variables N D : nat.
Hypothesis HN : (0 < N)%nat.
Notation names := (net_states G).
Notation oW := (optW N D tgt src act (wweight os)).
Notation ob := (optb N D tgt (bweight os)).

Definition agree (A B : nat) (q q' : nat -> nat -> nat -> nat -> R) : Prop :=
  forall a n i k, (a < S_)%nat -> (n < A)%nat -> (i < B)%nat -> (k < dim a)%nat -> q a n i k = q' a n i k.

Lemma entries_agree pre A B s s' : has_states names pre A B s -> same_entries s s' -> agree A B (entry s) (entry s').
Proof.
  intros Hs H a n i k Ha Hn Hi Hk. destruct (has_states_nth G _ _ _ _ _ Hs Ha) as [q [x [Ex [X0 [X1 X2]]]]].
  destruct (same_entries_nth _ _ _ _ _ H Ex) as [x' [Ex' [_ Hv]]]. unfold entry. rewrite Ex, Ex'. apply Hv.
  unfold in_range. rewrite X0, X1, X2. auto.
Qed.

Lemma optW_ext q q' p p' l k j : agree N D q q' -> agree N D p p' -> (l < L)%nat -> (k < dim (tgt l))%nat -> (j < dim (src l))%nat ->
  oW q p l k j = oW q' p' l k j.
Proof.
  intros Hq Hp Hl Hk Hj. destruct (net_ok_at G HG l Hl) as [Ht [Hs _]]. unfold optW, gW. do 2 f_equal.
  apply rsum_ext; intros n Hn. apply rsum_ext; intros i Hi. rewrite Hp, Hq; auto.
Qed.

Lemma optb_ext p p' l k : agree N D p p' -> (l < L)%nat -> (k < dim (tgt l))%nat -> ob p l k = ob p' l k.
Proof.
  intros Hp Hl Hk. destruct (net_ok_at G HG l Hl) as [Ht _]. unfold optb, gb. do 2 f_equal.
  apply rsum_ext; intros n Hn. apply rsum_ext; intros i Hi. apply Hp; auto.
Qed.

Lemma net_rhs_states A B W b q q' a n i k : agree A B q q' -> (a < S_)%nat -> (n < A)%nat -> (i < B)%nat -> (k < dim a)%nat ->
  net_rhs L dim tgt src act hb damp W b q a n i k = net_rhs L dim tgt src act hb damp W b q' a n i k.
Proof.
  intros Hq Ha Hn Hi Hk. unfold net_rhs. f_equal; [|f_equal; apply Hq; auto].
  apply rsum_ext; intros l Hl. f_equal. unfold layer_out. f_equal. apply rsum_ext; intros j Hj.
  destruct (net_ok_at G HG l Hl) as [_ [Hs _]]. rewrite Hq; auto.
Qed.

Lemma net_costate_states W q q' p p' a n i k : agree N D q q' -> agree N D p p' -> (a < S_)%nat -> (n < N)%nat -> (i < D)%nat -> (k < dim a)%nat ->
  net_costate L dim tgt src dact damp W q p a n i k = net_costate L dim tgt src dact damp W q' p' a n i k.
Proof.
  intros Hq Hp Ha Hn Hi Hk. unfold net_costate. f_equal; [|f_equal; apply Hp; auto].
  f_equal. apply rsum_ext; intros l Hl. f_equal. rewrite (Hq a) by auto. f_equal. apply rsum_ext; intros j Hj.
  destruct (net_ok_at G HG l Hl) as [Ht _]. rewrite Hp; auto.
Qed.

(** Parameters found by differentiation at the same particles are the same. *)
Lemma parameters_agree s c s' c' th th' :
  has_states names "" N D s -> has_states names "p_" N D c -> same_entries s s' -> same_entries c c' ->
  autodiff_parameters rhs os s c th -> autodiff_parameters rhs os s' c' th' ->
  (forall l k j, (l < L)%nat -> (k < dim (tgt l))%nat -> (j < dim (src l))%nat -> wentry th l k j = wentry th' l k j)
  /\ (forall l k, (l < L)%nat -> hb l = true -> (k < dim (tgt l))%nat -> bentry th l k = bentry th' l k)
  /\ pars_ok G th /\ pars_ok G th' /\ kinetic_energy th = kinetic_energy th'.
Proof.
  intros Hs Hp Es Ec H H'.
  pose proof (has_states_same _ _ _ _ _ _ Es Hs) as Hs'. pose proof (has_states_same _ _ _ _ _ _ Ec Hp) as Hp'.
  apply (autodiff_iff G HG rhs N D s c os Hc Hs Hp Ho) in H.
  apply (autodiff_iff G HG rhs N D s' c' os Hc Hs' Hp' Ho) in H'.
  destruct H as [HL H], H' as [HL' H'].
  pose proof (entries_agree _ _ _ _ _ Hs Es) as As. pose proof (entries_agree _ _ _ _ _ Hp Ec) as Ap.
  pose proof (same_objects_ok G os Ho th HL) as Hok. pose proof (same_objects_ok G os Ho th' HL') as Hok'.
  assert (EW : forall l k j, (l < L)%nat -> (k < dim (tgt l))%nat -> (j < dim (src l))%nat -> wentry th l k j = wentry th' l k j).
  { intros. rewrite (optimal_W G os Hw N D s c th), (optimal_W G os Hw N D s' c' th'); auto. apply optW_ext; auto. }
  assert (EB : forall l k, (l < L)%nat -> hb l = true -> (k < dim (tgt l))%nat -> bentry th l k = bentry th' l k).
  { intros. rewrite (optimal_b G os Hw N D s c th), (optimal_b G os Hw N D s' c' th'); auto. apply optb_ext; auto. }
  repeat split; auto.
  rewrite (kinetic_value G th Hok), (kinetic_value G th' Hok'). apply net_kinetic_ext; auto.
  - intros l. rewrite (proj1 (same_weights os th HL l)), (proj1 (same_weights os th' HL' l)). reflexivity.
  - intros l. rewrite (proj2 (same_weights os th HL l)), (proj2 (same_weights os th' HL' l)). reflexivity.
Qed.

(** Dictionaries of the same sizes with the same entries. *)
Lemma same_by_entries pre A B r r' :
  has_states names pre A B r -> has_states names pre A B r' -> agree A B (entry r) (entry r') -> same_entries r r'.
Proof.
  unfold agree, entry, VecProofs.NS, VecProofs.dim, has_states. generalize names. intros l H. revert r'.
  induction H as [|nd [q x] l r [E [X0 [X1 X2]]] H IH]; intros r' H' Ha; inversion H' as [|? [q' x'] ? r0 [E' [X0' [X1' X2']]] H'']; subst; constructor.
  - cbn [fst snd] in *. split; [congruence|]. split; [repeat split; congruence|].
    intros n i k [R0 [R1 R2]]. apply (Ha O n i k); cbn; [lia|congruence|congruence|congruence].
  - apply IH; auto. intros a n i k Hl. apply (Ha (S a) n i k). cbn. lia.
Qed.

(** Right-hand sides of the same states with the same parameters. *)
Lemma rhs_same A B s s' th th' :
  has_states names "" A B s -> same_entries s s' -> pars_ok G th -> pars_ok G th' ->
  (forall l k j, (l < L)%nat -> (k < dim (tgt l))%nat -> (j < dim (src l))%nat -> wentry th l k j = wentry th' l k j) ->
  (forall l k, (l < L)%nat -> hb l = true -> (k < dim (tgt l))%nat -> bentry th l k = bentry th' l k) ->
  exists r r', rhs s th = Ok r /\ rhs s' th' = Ok r' /\ has_states names "dot_" A B r /\ same_entries r r'.
Proof.
  intros Hs Es Ht Ht' EW EB. pose proof (has_states_same _ _ _ _ _ _ Es Hs) as Hs'.
  destruct (Hc A B s th Hs Ht) as [r [Er [Hr Hv]]]. destruct (Hc A B s' th' Hs' Ht') as [r' [Er' [Hr' Hv']]].
  exists r, r'. repeat split; auto. eapply same_by_entries; eauto.
  intros a n i k Ha Hn Hi Hk.
  destruct (has_states_nth G _ _ _ _ _ Hr Ha) as [q [x [Ex _]]]. destruct (has_states_nth G _ _ _ _ _ Hr' Ha) as [q' [x' [Ex' _]]].
  unfold entry at 1 2. rewrite Ex, Ex'. rewrite (Hv _ _ _ n i k Ex), (Hv' _ _ _ n i k Ex') by auto.
  rewrite (net_rhs_ext G (wentry th) (bentry th) (wentry th') (bentry th')) by auto.
  apply (net_rhs_states A B); auto. eapply entries_agree; eauto.
Qed.

(** What the costates found by differentiation are. *)
Lemma costates_value s c dp :
  has_states names "" N D s -> has_states names "p_" N D c -> autodiff_costates rhs os N s c dp ->
  has_states names "dot_p_" N D dp /\
  agree N D (entry dp) (net_costate L dim tgt src dact damp (oW (entry s) (entry c)) (entry s) (entry c)).
Proof.
  intros Hs Hp H. split.
  - destruct H as [H _]. revert Hs. clear - H. unfold has_states. generalize names.
    induction H as [|x y s dp [E [B0 [B1 B2]]] H IH]; intros l Hs; inversion Hs as [|nd ? l' ? HH HT]; subst; constructor.
    + destruct HH as [F [F0 [F1 F2]]]. cbn in F. split; [congruence|]. repeat split; congruence.
    + apply IH; auto.
  - destruct (autodiff_exists G HG rhs Hc os Ho Hw N D s c Hs Hp) as [th Hth].
    destruct (costates_are_autodiff G HG rhs Hc os Ho Hw N D HN (net_costates G N D) s c th (net_costates_conform G N D HN) Hs Hp Hth)
      as [dp' [Edp' Hdp']].
    pose proof Hth as Hth'. apply (autodiff_iff G HG rhs N D s c os Hc Hs Hp Ho) in Hth'. destruct Hth' as [HL HO].
    destruct (net_costates_conform G N D HN s c th Hs Hp (same_objects_ok G os Ho th HL)) as [dp2 [E2 [H2 Hv2]]].
    rewrite Edp' in E2. injection E2 as <-.
    intros a n i k Ha Hn Hi Hk.
    rewrite (autodiff_costates_unique G HG rhs Hc os Ho Hw N D s c dp dp' Hs Hp H Hdp') by auto.
    destruct (has_states_nth G _ _ _ _ _ H2 Ha) as [q [x [Ex _]]]. unfold entry at 1. rewrite Ex.
    rewrite (Hv2 _ _ _ n i k Ex) by auto. apply net_costate_ext; auto. intros. eapply optimal_W; eauto.
Qed.

Lemma costates_same s c s' c' dp dp' :
  has_states names "" N D s -> has_states names "p_" N D c -> same_entries s s' -> same_entries c c' ->
  autodiff_costates rhs os N s c dp -> autodiff_costates rhs os N s' c' dp' ->
  has_states names "dot_p_" N D dp /\ same_entries dp dp'.
Proof.
  intros Hs Hp Es Ec H H'.
  pose proof (has_states_same _ _ _ _ _ _ Es Hs) as Hs'. pose proof (has_states_same _ _ _ _ _ _ Ec Hp) as Hp'.
  destruct (costates_value _ _ _ Hs Hp H) as [A V]. destruct (costates_value _ _ _ Hs' Hp' H') as [A' V'].
  split; auto. eapply same_by_entries; eauto. intros a n i k Ha Hn Hi Hk. rewrite V, V' by auto.
  pose proof (entries_agree _ _ _ _ _ Hs Es) as As. pose proof (entries_agree _ _ _ _ _ Hp Ec) as Ap.
  rewrite (net_costate_ext G _ (oW (entry s') (entry c'))); auto.
  - apply net_costate_states; auto.
  - intros. apply optW_ext; auto.
Qed.

(** ** Putting derivatives in place *)
Lemma shapes_agree_iff x y : shapes_agree x y = true <-> same_shape x y.
Proof. unfold shapes_agree, same_shape. rewrite !andb_true_iff, !Nat.eqb_eq. tauto. Qed.

Lemma in_place_ok pre pre' l A B s r : has_states l pre A B s -> has_states l pre' A B r ->
  exists z, in_place_of s r = Ok z /\ has_states l pre A B z.
Proof.
  intros H. revert r. induction H as [|nd [q x] l s [E [X0 [X1 X2]]] H IH]; intros r Hr;
    inversion Hr as [|? [q' y] ? r0 [E' [Y0 [Y1 Y2]]] Hr']; subst.
  - exists []. split; [reflexivity|constructor].
  - cbn [fst snd in_place_of] in *.
    replace (shapes_agree x y) with true by (symmetry; apply shapes_agree_iff; repeat split; congruence).
    destruct (IH _ Hr') as [z [Ez Hz]]. rewrite Ez. cbn [bind]. eexists. split; [reflexivity|]. constructor; auto.
    cbn. repeat split; congruence.
Qed.

Lemma in_place_same s s' r r' z : same_entries s s' -> same_entries r r' -> in_place_of s r = Ok z ->
  exists z', in_place_of s' r' = Ok z' /\ same_entries z z'.
Proof.
  intros H. revert r r' z. induction H as [|[q x] [q' x'] s s' [A [B C]] H IH]; intros r r' z Hr E;
    destruct Hr as [|[o y] [o' y'] r r' [A' [B' C']] Hr]; cbn [in_place_of fst snd] in *; try discriminate.
  - injection E as <-. exists []. split; [reflexivity|constructor].
  - destruct (shapes_agree x y) eqn:Es; [|discriminate]. apply shapes_agree_iff in Es.
    destruct (in_place_of s r) as [w|] eqn:Ew; [|discriminate]. cbn [bind] in E. injection E as <-.
    destruct (IH _ _ _ Hr Ew) as [w' [Ew' Hw']].
    replace (shapes_agree x' y') with true.
    2:{ symmetry. apply shapes_agree_iff. destruct B as [? [? ?]], B' as [? [? ?]], Es as [? [? ?]]. repeat split; congruence. }
    rewrite Ew'. cbn [bind]. eexists. split; [reflexivity|]. constructor; auto.
Qed.

(** ** Runs *)
Variables parA parB : R -> states -> states -> result pars.
Variables cosA cosB : R -> states -> states -> pars -> result states.
Hypothesis HA : differentiates_model rhs os names N D parA cosA.
Hypothesis HB : differentiates_model rhs os names N D parB cosB.
Variables B E : nat.
Notation sys_ok := (has_system names N D B E).

Lemma field_same t x y : sys_ok x -> same_system x y ->
  exists f g, field rhs parA cosA t x = Ok f /\ field rhs parB cosB t y = Ok g /\ sys_ok f /\ same_system f g.
Proof.
  intros [Hs [Hp Hd]] [Es [Ec Ed]].
  pose proof (has_states_same _ _ _ _ _ _ Es Hs) as Hs'. pose proof (has_states_same _ _ _ _ _ _ Ec Hp) as Hp'.
  destruct HA as [PA CA], HB as [PB CB].
  destruct (PA t _ _ Hs Hp) as [th [Eth Hth]]. destruct (PB t _ _ Hs' Hp') as [th' [Eth' Hth']].
  destruct (parameters_agree _ _ _ _ _ _ Hs Hp Es Ec Hth Hth') as [EW [EB [Hok [Hok' _]]]].
  destruct (rhs_same _ _ _ _ _ _ Hs Es Hok Hok' EW EB) as [r [r' [Er [Er' [Hr Rr]]]]].
  destruct (rhs_same _ _ _ _ _ _ Hd Ed Hok Hok' EW EB) as [w [w' [Ew [Ew' [Hw' Rw]]]]].
  destruct (CA t _ _ _ Hs Hp Hth) as [dp [Edp Hdp]]. destruct (CB t _ _ _ Hs' Hp' Hth') as [dp' [Edp' Hdp']].
  destruct (costates_same _ _ _ _ _ _ Hs Hp Es Ec Hdp Hdp') as [Hdps Rdp].
  destruct (in_place_ok _ _ _ _ _ _ _ Hs Hr) as [z1 [Ez1 Hz1]]. destruct (in_place_same _ _ _ _ _ Es Rr Ez1) as [z1' [Ez1' R1]].
  destruct (in_place_ok _ _ _ _ _ _ _ Hp Hdps) as [z2 [Ez2 Hz2]]. destruct (in_place_same _ _ _ _ _ Ec Rdp Ez2) as [z2' [Ez2' R2]].
  destruct (in_place_ok _ _ _ _ _ _ _ Hd Hw') as [z3 [Ez3 Hz3]]. destruct (in_place_same _ _ _ _ _ Ed Rw Ez3) as [z3' [Ez3' R3]].
  exists (mkSystem z1 z2 z3), (mkSystem z1' z2' z3'). unfold field.
  rewrite Eth. cbn [bind]. rewrite Er. cbn [bind]. rewrite Ew. cbn [bind]. rewrite Edp. cbn [bind]. rewrite Ez1. cbn [bind].
  rewrite Ez2. cbn [bind]. rewrite Ez3. cbn [bind].
  rewrite Eth'. cbn [bind]. rewrite Er'. cbn [bind]. rewrite Ew'. cbn [bind]. rewrite Edp'. cbn [bind]. rewrite Ez1'. cbn [bind].
  rewrite Ez2'. cbn [bind]. rewrite Ez3'. cbn [bind]. repeat split; auto.
Qed.

Lemma axpy_ok l pre a A C x y : has_states l pre A C x -> has_states l pre A C y ->
  exists z, axpy a x y = Ok z /\ has_states l pre A C z.
Proof.
  intros H. revert y. induction H as [|nd [q x] l s [E0 [X0 [X1 X2]]] H IH]; intros r Hr;
    inversion Hr as [|? [q' y] ? r0 [E' [Y0 [Y1 Y2]]] Hr']; subst.
  - exists []. split; [reflexivity|constructor].
  - cbn [fst snd axpy] in *.
    replace (shapes_agree x y) with true by (symmetry; apply shapes_agree_iff; repeat split; congruence).
    destruct (IH _ Hr') as [z [Ez Hz]]. rewrite Ez. cbn [bind]. eexists. split; [reflexivity|]. constructor; auto.
    split; [exact E'|]. repeat split; assumption.
Qed.

Lemma axpy_same a x x' y y' z : same_entries x x' -> same_entries y y' -> axpy a x y = Ok z ->
  exists z', axpy a x' y' = Ok z' /\ same_entries z z'.
Proof.
  intros H. revert y y' z. induction H as [|[q x] [q' x'] s s' [A [B0 C]] H IH]; intros r r' z Hr E0;
    destruct Hr as [|[o y] [o' y'] r r' [A' [B' C']] Hr]; cbn [axpy fst snd] in *; try discriminate.
  - injection E0 as <-. exists []. split; [reflexivity|constructor].
  - destruct (shapes_agree x y) eqn:Es; [|discriminate]. apply shapes_agree_iff in Es.
    destruct (axpy a s r) as [w|] eqn:Ew; [|discriminate]. cbn [bind] in E0. injection E0 as <-.
    destruct (IH _ _ _ Hr Ew) as [w' [Ew' Hw']].
    destruct B0 as [S0 [S1 S2]], B' as [T0 [T1 T2]], Es as [U0 [U1 U2]].
    replace (shapes_agree x' y') with true by (symmetry; apply shapes_agree_iff; repeat split; congruence).
    rewrite Ew'. cbn [bind]. eexists. split; [reflexivity|]. constructor; auto. cbn [fst snd]. split; [exact A'|].
    split; [repeat split; cbn; congruence|]. intros n i k [R0 [R1 R2]]. cbn in R0, R1, R2 |- *. rewrite C, C'; auto; repeat split; congruence.
Qed.

Lemma scale_ok l pre a A C x : has_states l pre A C x -> has_states l pre A C (scale a x).
Proof. intros H. induction H as [|nd [q x] l s H0 H IH]; cbn; constructor; auto. Qed.

Lemma scale_same a x x' : same_entries x x' -> same_entries (scale a x) (scale a x').
Proof.
  intros H. induction H as [|[q x] [q' x'] s s' [A [B0 C]] H IH]; cbn; constructor; auto.
  cbn [fst snd] in *. split; auto. split; auto. intros n i k Hr. cbn. rewrite C; auto.
Qed.

Definition envs (e e' : list system) : Prop := Forall sys_ok e /\ Forall2 same_system e e'.

Lemma fetch_same e e' j : envs e e' ->
  (exists x y, fetch e j = Ok x /\ fetch e' j = Ok y /\ sys_ok x /\ same_system x y)
  \/ fetch e j = Raise IndexError /\ fetch e' j = Raise IndexError.
Proof.
  intros [H1 H2]. unfold fetch. destruct (nth_error e j) as [x|] eqn:Ex.
  - destruct (Forall2_nth_l _ _ _ H2 _ _ Ex) as [y [Ey Hy]]. left. exists x, y. rewrite Ey. repeat split; auto; try apply Hy.
    + apply (proj1 (Forall_forall _ _) H1 x (nth_error_In _ _ Ex)).
    + apply (proj1 (Forall_forall _ _) H1 x (nth_error_In _ _ Ex)).
    + apply (proj1 (Forall_forall _ _) H1 x (nth_error_In _ _ Ex)).
  - right. split; auto. replace (nth_error e' j) with (@None system); auto. symmetry. apply nth_error_None.
    rewrite <- (Forall2_lengths _ _ _ H2). apply nth_error_None. exact Ex.
Qed.

Definition pull (e : list system) (acc : system) (bk : R * nat) : result system := y <- fetch e (snd bk) ;; sys_axpy (fst bk) y acc.

Lemma fold_same l : forall acc acc', sys_ok acc -> same_system acc acc' -> forall e e', envs e e' ->
  (exists z z', foldM (pull e) l acc = Ok z /\ foldM (pull e') l acc' = Ok z' /\ sys_ok z /\ same_system z z')
  \/ foldM (pull e) l acc = Raise IndexError /\ foldM (pull e') l acc' = Raise IndexError.
Proof.
  induction l as [|[b k] l IH]; intros acc acc' Ha Hs e e' He.
  - left. exists acc, acc'. repeat split; auto; try apply Ha; apply Hs.
  - cbn [foldM]. replace (pull e acc (b, k)) with (y <- fetch e k ;; sys_axpy b y acc) by reflexivity.
    replace (pull e' acc' (b, k)) with (y <- fetch e' k ;; sys_axpy b y acc') by reflexivity.
    destruct (fetch_same e e' k He) as [[x [y [Ex [Ey [Hx Sx]]]]]|[Ex Ey]].
    2:{ right. rewrite Ex, Ey. split; reflexivity. }
    rewrite Ex, Ey. cbn [bind]. destruct Hx as [X1 [X2 X3]], Ha as [A1 [A2 A3]], Sx as [S1 [S2 S3]], Hs as [T1 [T2 T3]].
    destruct (axpy_ok _ _ b _ _ _ _ X1 A1) as [z1 [E1 O1]]. destruct (axpy_same _ _ _ _ _ _ S1 T1 E1) as [z1' [E1' R1]].
    destruct (axpy_ok _ _ b _ _ _ _ X2 A2) as [z2 [E2 O2]]. destruct (axpy_same _ _ _ _ _ _ S2 T2 E2) as [z2' [E2' R2]].
    destruct (axpy_ok _ _ b _ _ _ _ X3 A3) as [z3 [E3 O3]]. destruct (axpy_same _ _ _ _ _ _ S3 T3 E3) as [z3' [E3' R3]].
    assert (F1 : sys_axpy b x acc = Ok (mkSystem z1 z2 z3)) by (unfold sys_axpy; rewrite E1, E2, E3; reflexivity).
    assert (F2 : sys_axpy b y acc' = Ok (mkSystem z1' z2' z3')) by (unfold sys_axpy; rewrite E1', E2', E3'; reflexivity).
    rewrite F1, F2. cbn [bind].
    apply (IH (mkSystem z1 z2 z3) (mkSystem z1' z2' z3')); [repeat split|repeat split|]; auto.
Qed.

Lemma envs_app e e' x y : envs e e' -> sys_ok x -> same_system x y -> envs (e ++ [x]) (e' ++ [y]).
Proof. intros [H1 H2] Hx Hxy. split; [apply Forall_app; auto|apply Forall2_app; auto]. Qed.

Lemma step_same e e' i : envs e e' ->
  (exists f f', step rhs parA cosA e i = Ok f /\ step rhs parB cosB e' i = Ok f' /\ envs f f')
  \/ step rhs parA cosA e i = Raise IndexError /\ step rhs parB cosB e' i = Raise IndexError.
Proof.
  intros He. destruct i as [t j|[a j] l]; cbn [step].
  - destruct (fetch_same e e' j He) as [[x [y [Ex [Ey [Hx Sx]]]]]|[Ex Ey]]; rewrite Ex, Ey; cbn [bind]; [left|right; auto].
    destruct (field_same t x y Hx Sx) as [f [g [Ef [Eg [Hf Sf]]]]]. rewrite Ef, Eg. cbn [bind].
    eexists _, _. split; [reflexivity|]. split; [reflexivity|]. apply envs_app; auto.
  - destruct (fetch_same e e' j He) as [[x [y [Ex [Ey [Hx Sx]]]]]|[Ex Ey]]; rewrite Ex, Ey; cbn [bind]; [|right; auto].
    destruct Hx as [X1 [X2 X3]], Sx as [S1 [S2 S3]].
    destruct (fold_same l (sys_scale a x) (sys_scale a y)) with (e := e) (e' := e') as [[z [z' [E1 [E2 [Hz Sz]]]]]|[E1 E2]]; auto.
    + repeat split; apply scale_ok; auto.
    + repeat split; apply scale_same; auto.
    + change (fun acc bk => y0 <- fetch e (snd bk);; sys_axpy (fst bk) y0 acc) with (pull e).
      change (fun acc bk => y0 <- fetch e' (snd bk);; sys_axpy (fst bk) y0 acc) with (pull e').
      rewrite E1, E2. cbn [bind]. left. eexists _, _. split; [reflexivity|]. split; [reflexivity|]. apply envs_app; auto.
    + change (fun acc bk => y0 <- fetch e (snd bk);; sys_axpy (fst bk) y0 acc) with (pull e).
      change (fun acc bk => y0 <- fetch e' (snd bk);; sys_axpy (fst bk) y0 acc) with (pull e').
      rewrite E1, E2. right. split; reflexivity.
Qed.

Lemma run_same prog : forall e e', envs e e' ->
  (exists f f', foldM (step rhs parA cosA) prog e = Ok f /\ foldM (step rhs parB cosB) prog e' = Ok f' /\ envs f f')
  \/ foldM (step rhs parA cosA) prog e = Raise IndexError /\ foldM (step rhs parB cosB) prog e' = Raise IndexError.
Proof.
  induction prog as [|i prog IH]; intros e e' He; cbn [foldM].
  - left. exists e, e'. auto.
  - destruct (step_same e e' i He) as [[f [f' [E1 [E2 Hf]]]]|[E1 E2]]; rewrite E1, E2; cbn [bind]; [apply IH; auto|right; auto].
Qed.

Lemma integrate_same next n : looks_at_entries next -> forall e e', envs e e' ->
  (exists f f', integrate rhs parA cosA next n e = Ok f /\ integrate rhs parB cosB next n e' = Ok f' /\ envs f f')
  \/ integrate rhs parA cosA next n e = Raise IndexError /\ integrate rhs parB cosB next n e' = Raise IndexError.
Proof.
  intros Hn. induction n as [|n IH]; intros e e' He; cbn [integrate]; [left; exists e, e'; auto|].
  rewrite <- (Hn e e' (proj2 He)). destruct (next e) as [i|]; [|left; exists e, e'; auto].
  destruct (step_same e e' i He) as [[f [f' [E1 [E2 Hf]]]]|[E1 E2]]; rewrite E1, E2; cbn [bind]; [apply IH; auto|right; auto].
Qed.

Lemma start_envs start : sys_ok start -> envs [start] [start].
Proof. intros H. split; constructor; auto. repeat split; apply same_entries_refl. Qed.

Lemma mean_square_same x y : same_shape x y -> (forall n i k, in_range x n i k -> v3 x n i k = v3 y n i k) -> mean_square x = mean_square y.
Proof.
  intros [A [B0 C]] H. unfold mean_square. rewrite <- A, <- B0, <- C. f_equal.
  apply rsum_ext; intros n Hn. apply rsum_ext; intros i Hi. apply rsum_ext; intros k Hk. rewrite H; auto. repeat split; auto.
Qed.

Lemma penalty_same t s c : has_states names "" N D s -> has_states names "p_" N D c ->
  exists th th', parA t s c = Ok th /\ parB t s c = Ok th' /\ kinetic_energy th = kinetic_energy th'.
Proof.
  intros Hs Hp. destruct HA as [PA _], HB as [PB _].
  destruct (PA t _ _ Hs Hp) as [th [Eth Hth]]. destruct (PB t _ _ Hs Hp) as [th' [Eth' Hth']].
  exists th, th'. repeat split; auto.
  apply (parameters_agree _ _ _ _ _ _ Hs Hp (same_entries_refl s) (same_entries_refl c) Hth Hth').
Qed.

Lemma loss_same next n j start : looks_at_entries next -> sys_ok start ->
  script_loss rhs parA cosA next n j start = script_loss rhs parB cosB next n j start.
Proof.
  intros Hn Hs. unfold script_loss.
  destruct (integrate_same next n Hn [start] [start] (start_envs _ Hs)) as [[f [f' [E1 [E2 Hf]]]]|[E1 E2]]; rewrite E1, E2; cbn [bind]; auto.
  destruct (fetch_same f f' j Hf) as [[x [y [Ex [Ey [Hx Sx]]]]]|[Ex Ey]]; rewrite Ex, Ey; cbn [bind]; auto.
  destruct (penalty_same 0 (sys_state start) (sys_costate start)) as [th [th' [Et [Et' Ek]]]]; try apply Hs.
  rewrite Et, Et'. cbn [bind]. destruct Sx as [_ [_ Sd]]. destruct Sd as [|[q u] [q' u'] ? ? [_ [Hsh Hv]] _]; auto.
  rewrite Ek. rewrite (mean_square_same u u'); auto.
Qed.
End FlowProofs.

(** Sizes and samples of the convolutional models. *)
From Coq Require Import List String Bool Reals Arith Lia Lra.
From Verif Require Import Base RealSum ConvModel VecSpec ConvSpec VecFlowProofs.
Import ListNotations.
Open Scope string_scope.
Open Scope R_scope.

(** ** Sizes *)
Lemma conv_sizes l x a ci co h w k :
  of_shape4 a ci h w x -> of_shape4 co ci k k (cv_weight l) -> cv_nb l = co -> cv_circular l = false ->
  cv_pad0 l = 1%nat -> cv_pad1 l = 1%nat ->
  (1 <= k -> k <= h + 2 -> k <= w + 2 ->
     exists y, conv_forward l x = Ok y /\ of_shape4 a co (h + 3 - k) (w + 3 - k) y)%nat
  /\ ((k = 0 \/ h + 2 < k \/ w + 2 < k)%nat -> conv_forward l x = Raise RuntimeError).
Proof.
  intros [X0 [X1 [X2 X3]]] [W0 [W1 [W2 W3]]] Hb Hc P0 P1. unfold conv_forward. rewrite Hc. unfold conv_valid, pad_zeros.
  cbn [k0 k1 k2 k3]. rewrite X0, X1, X2, X3, W0, W1, W2, W3, Hb, P0, P1, !Nat.eqb_refl. cbn [negb]. split.
  - intros K1 K2 K3. rewrite (proj2 (Nat.leb_le k (h + 2 * 1))), (proj2 (Nat.leb_le k (w + 2 * 1))), (proj2 (Nat.leb_le 1 k)) by lia. cbn [andb].
    eexists. split; [reflexivity|]. unfold of_shape4. cbn. repeat split; lia.
  - intros K. destruct (Nat.leb_spec k (h + 2 * 1)), (Nat.leb_spec k (w + 2 * 1)), (Nat.leb_spec 1 k); cbn [andb]; auto; lia.
Qed.

Lemma map4_shape f a b c d x : of_shape4 a b c d x -> of_shape4 a b c d (map4 f x).
Proof. auto. Qed.

Lemma images2 n1 c1 n2 c2 n h w s : has_images [(n1, c1); (n2, c2)] n h w s ->
  exists x y, s = [(n1, x); (n2, y)] /\ of_shape4 n c1 h w x /\ of_shape4 n c2 h w y.
Proof.
  intros H. inversion H as [|? [q x] ? s' [E A] H']; subst. inversion H' as [|? [q' y] ? s'' [E' A'] H'']; subst. inversion H''; subst.
  cbn in *. subst. eauto.
Qed.

Lemma same_convs2 o1 l1 o2 l2 th : same_convs [(o1, l1); (o2, l2)] th ->
  exists m1 m2, th = [(o1, m1); (o2, m2)] /\ same_conv l1 m1 /\ same_conv l2 m2.
Proof.
  intros H. inversion H as [|? [q x] ? s' [E A] H']; subst. inversion H' as [|? [q' y] ? s'' [E' A'] H'']; subst. inversion H''; subst.
  cbn in *. subst. eauto.
Qed.

(** The three models: channels [c1], [c2] of the states, filter size [k]. *)
Section Shapes.
Variable nl : R -> R.
Variables (init : string -> (nat -> nat -> nat -> nat -> R) * (nat -> R)) (c f k : nat) (W : option R).

Lemma two_convs (rhs : images -> convs -> result images) c1 c2 :
  (forall s th, rhs s th = (l1 <- sd_item "conv1" th ;; q2 <- sd_item "q2" s ;; r1 <- conv_forward l1 (map4 nl q2) ;;
     l2 <- sd_item "conv2" th ;; q1 <- sd_item "q1" s ;; r2 <- conv_forward l2 q1 ;; Ok [("dot_q1", r1); ("dot_q2", r2)])) ->
  forall n h w s th, has_images [("q1", c1); ("q2", c2)] n h w s ->
  same_convs [("conv1", snn_conv2d (init "conv1") c2 c1 k 1 false W); ("conv2", snn_conv2d (init "conv2") c1 c2 k 1 false W)] th ->
  (1 <= k -> k <= h + 2 -> k <= w + 2 -> exists r, rhs s th = Ok r /\ derivatives_of_size (h + 3 - k) (w + 3 - k) s r)%nat
  /\ ((k = 0 \/ h + 2 < k \/ w + 2 < k)%nat -> rhs s th = Raise RuntimeError).
Proof.
  intros Hr n h w s th Hs Hth. destruct (images2 _ _ _ _ _ _ _ _ Hs) as [x [y [-> [Hx Hy]]]].
  destruct (same_convs2 _ _ _ _ _ Hth) as [m1 [m2 [-> [[A1 [B1 [C1 [D1 E1]]]] [A2 [B2 [C2 [D2 E2]]]]]]]].
  cbn in A1, B1, C1, D1, E1, A2, B2, C2, D2, E2. rewrite Hr. clear Hr.
  destruct (conv_sizes m1 (map4 nl y) n c2 c1 h w k (map4_shape _ _ _ _ _ _ Hy) A1 (eq_sym B1) (eq_sym E1) (eq_sym C1) (eq_sym D1)) as [P1 Q1].
  destruct (conv_sizes m2 x n c1 c2 h w k Hx A2 (eq_sym B2) (eq_sym E2) (eq_sym C2) (eq_sym D2)) as [P2 Q2].
  cbn [sd_item sd_get String.eqb Ascii.eqb Bool.eqb bind]. split.
  - intros K1 K2 K3. destruct (P1 K1 K2 K3) as [r1 [F1 G1]]. destruct (P2 K1 K2 K3) as [r2 [F2 G2]]. rewrite F1. cbn [bind]. rewrite F2. cbn [bind].
    eexists. split; [reflexivity|]. destruct Hx as [X0 [X1 _]], Hy as [Y0 [Y1 _]]. constructor; [|constructor; [|constructor]]; cbn; split; auto; congruence.
  - intros K. rewrite (Q1 K). reflexivity.
Qed.

Lemma simple_conv_sizes n h w s th : has_images [("q1", c); ("q2", c)] n h w s -> same_convs (simple_conv_objects init c k W) th ->
  (1 <= k -> k <= h + 2 -> k <= w + 2 -> exists r, simple_conv_rhs nl s th = Ok r /\ derivatives_of_size (h + 3 - k) (w + 3 - k) s r)%nat
  /\ ((k = 0 \/ h + 2 < k \/ w + 2 < k)%nat -> simple_conv_rhs nl s th = Raise RuntimeError).
Proof. apply two_convs. reflexivity. Qed.

Lemma updown_conv_sizes n h w s th : has_images [("q1", c); ("q2", (c * f)%nat)] n h w s -> same_convs (updown_conv_objects init c f k W) th ->
  (1 <= k -> k <= h + 2 -> k <= w + 2 -> exists r, updown_conv_rhs nl s th = Ok r /\ derivatives_of_size (h + 3 - k) (w + 3 - k) s r)%nat
  /\ ((k = 0 \/ h + 2 < k \/ w + 2 < k)%nat -> updown_conv_rhs nl s th = Raise RuntimeError).
Proof. apply two_convs. reflexivity. Qed.

Lemma batch_conv_sizes n h w s th : has_images [("q1", c); ("q2", c)] n h w s -> same_convs (simple_conv_objects init c k W) th ->
  (1 <= k -> k <= h + 2 -> k <= w + 2 -> exists r, batch_conv_rhs nl c s th = Ok r /\ derivatives_of_size (h + 3 - k) (w + 3 - k) s r)%nat
  /\ ((k = 0 \/ h + 2 < k \/ w + 2 < k)%nat -> batch_conv_rhs nl c s th = Raise RuntimeError).
Proof.
  intros Hs Hth. destruct (images2 _ _ _ _ _ _ _ _ Hs) as [x [y [-> [Hx Hy]]]].
  destruct (group_norm (1 / 100000) c x) as [g|] eqn:Eg.
  2:{ unfold group_norm in Eg. destruct Hx as [_ [X1 _]]. rewrite X1, Nat.eqb_refl in Eg. discriminate. }
  assert (Hg : of_shape4 n c h w g).
  { unfold group_norm in Eg. destruct (Nat.eqb (k1 x) c); [|discriminate]. injection Eg as <-. exact Hx. }
  destruct (simple_conv_sizes n h w [("q1", g); ("q2", y)] th) as [P Q]; auto.
  { repeat constructor; auto; try apply Hg; apply Hy. }
  unfold batch_conv_rhs. unfold simple_conv_rhs in P, Q. cbn [sd_item sd_get String.eqb Ascii.eqb Bool.eqb bind] in P, Q |- *.
  rewrite Eg. cbn [bind]. split; auto. intros K1 K2 K3. destruct (P K1 K2 K3) as [r [E H]]. exists r. split; auto.
  inversion H as [|? u ? ? [N1 S1] H1]; subst. inversion H1 as [|? v ? ? [N2 S2] H2]; subst. inversion H2; subst.
  constructor; [|constructor; [|constructor]]; split; auto. cbn [fst snd] in *. unfold of_shape4 in *. intuition congruence.
Qed.
End Shapes.

(** ** Circular padding *)
Lemma circular_sizes l x a ci co h w k p :
  of_shape4 a ci h w x -> of_shape4 co ci k k (cv_weight l) -> cv_nb l = co -> cv_circular l = true ->
  cv_pad0 l = p -> cv_pad1 l = p -> (p <= h -> p <= w -> 1 <= k -> k <= h + p -> k <= w + p ->
  exists y, conv_forward l x = Ok y /\ of_shape4 a co (h + p + 1 - k) (w + p + 1 - k) y)%nat.
Proof.
  intros [X0 [X1 [X2 X3]]] [W0 [W1 [W2 W3]]] Hb Hc P0 P1 Hh Hw K1 K2 K3. unfold conv_forward. rewrite Hc, P0, P1. unfold pad_circular.
  assert (D : (Nat.div (p + 1) 2 + Nat.div p 2 = p)%nat).
  { destruct (Nat.Even_or_Odd p) as [[m ->]|[m ->]].
    - replace (2 * m + 1)%nat with (1 + m * 2)%nat by lia. rewrite Nat.div_add by lia. replace (2 * m)%nat with (m * 2)%nat by lia.
      rewrite Nat.div_mul by lia. cbn. lia.
    - replace (2 * m + 1 + 1)%nat with ((m + 1) * 2)%nat by lia. rewrite Nat.div_mul by lia.
      replace (2 * m + 1)%nat with (1 + m * 2)%nat by lia. rewrite Nat.div_add by lia. cbn. lia. }
  rewrite X2, X3.
  rewrite (proj2 (Nat.leb_le (Nat.div (p + 1) 2) w)), (proj2 (Nat.leb_le (Nat.div p 2) w)),
    (proj2 (Nat.leb_le (Nat.div (p + 1) 2) h)), (proj2 (Nat.leb_le (Nat.div p 2) h)) by lia.
  cbn [andb bind]. unfold conv_valid. cbn [k0 k1 k2 k3]. rewrite X0, X1, W0, W1, W2, W3, Hb, D, !Nat.eqb_refl. cbn [negb].
  rewrite (proj2 (Nat.leb_le k (h + p))), (proj2 (Nat.leb_le k (w + p))), (proj2 (Nat.leb_le 1 k)) by lia. cbn [andb].
  eexists. split; [reflexivity|]. unfold of_shape4. cbn. repeat split; lia.
Qed.

(** ** Initial states and data *)
Lemma conv_initial_sizes ini n c f h w :
  has_images [("q1", c); ("q2", c)] n h w (simple_conv_initial ini n c h w)
  /\ has_images [("q1", c); ("q2", (c * f)%nat)] n h w (updown_conv_initial f ini n c h w).
Proof. split; repeat constructor. Qed.

Lemma conv_data_sizes nl c f n h w x : of_shape4 n c h w x ->
  has_images [("q1", c); ("q2", c)] n h w (simple_conv_data x)
  /\ exists s, updown_conv_data nl f CZero x = Ok s /\ has_images [("q1", c); ("q2", (c * f)%nat)] n h w s.
Proof.
  intros [A [B [C D]]]. split; [|eexists; split; [reflexivity|]]; repeat constructor; cbn; auto; congruence.
Qed.

Lemma kernel_sizes l x a ci co h w k :
  of_shape4 a ci h w x -> of_shape4 co ci k k (cv_weight l) -> cv_nb l = co -> cv_circular l = false ->
  cv_pad0 l = O -> cv_pad1 l = O -> (1 <= k -> k <= h -> k <= w ->
  exists y, conv_forward l x = Ok y /\ of_shape4 a co (h + 1 - k) (w + 1 - k) y)%nat.
Proof.
  intros [X0 [X1 [X2 X3]]] [W0 [W1 [W2 W3]]] Hb Hc P0 P1 K1 K2 K3. unfold conv_forward. rewrite Hc. unfold conv_valid, pad_zeros.
  cbn [k0 k1 k2 k3]. rewrite X0, X1, X2, X3, W0, W1, W2, W3, Hb, P0, P1, !Nat.eqb_refl. cbn [negb].
  rewrite (proj2 (Nat.leb_le k (h + 2 * 0))), (proj2 (Nat.leb_le k (w + 2 * 0))), (proj2 (Nat.leb_le 1 k)) by lia. cbn [andb].
  eexists. split; [reflexivity|]. unfold of_shape4. cbn. repeat split; lia.
Qed.

(** The two other modes give second states of other sizes. *)
Lemma linear_data_sizes nl init c f n h w x : of_shape4 n c h w x -> (1 <= h)%nat -> (1 <= w)%nat ->
  exists s, updown_conv_data nl f (linear_mode init f c) x = Ok s /\ has_images [("q1", c); ("q2", c)] n h w s.
Proof.
  intros Hx Hh Hw. unfold updown_conv_data, linear_mode.
  destruct (kernel_sizes (snn_conv2d (init "simple_init") c (c * f) 1 0 false None) x n c (c * f) h w 1) as [y [E _]]; auto; try (repeat split).
  rewrite E. cbn [bind]. eexists. split; [reflexivity|]. repeat constructor; apply Hx.
Qed.
Lemma mini_data_sizes nl init c f n h w x : of_shape4 n c h w x -> (2 <= h)%nat -> (2 <= w)%nat ->
  exists y, updown_conv_data nl f (mini_mode init f c) x = Ok [("q1", x); ("q2", y)] /\ of_shape4 n (c * f) (h - 1) (w - 1) y.
Proof.
  intros Hx Hh Hw. unfold updown_conv_data, mini_mode.
  destruct (kernel_sizes (snn_conv2d (init "init_l1") c (c * f) 1 0 false None) x n c (c * f) h w 1) as [y [E Hy]]; auto; try lia; try (repeat split).
  rewrite E. cbn [bind].
  replace (h + 1 - 1)%nat with h in Hy by lia. replace (w + 1 - 1)%nat with w in Hy by lia.
  destruct (kernel_sizes (snn_conv2d (init "init_l2") (c * f) (c * f) 2 0 false None) (map4 nl y) n (c * f) (c * f) h w 2
    Hy ltac:(repeat split) eq_refl eq_refl eq_refl eq_refl ltac:(lia) Hh Hw) as [z [E' Hz]].
  rewrite E'. cbn [bind]. eexists. split; [reflexivity|]. replace (h - 1)%nat with (h + 1 - 2)%nat by lia. replace (w - 1)%nat with (w + 1 - 2)%nat by lia. exact Hz.
Qed.

(** ** Samples *)
Section Pick.
Variables (B B' : nat) (pick : nat -> nat).
Notation R4 := (picked4 B B' pick).
Notation RI := (picked_images B B' pick).

Lemma item_images x y q : RI x y -> both R4 (sd_item q x) (sd_item q y).
Proof.
  unfold sd_item. induction 1 as [|[a u] [b v] x y [E H] _ IH]; cbn; auto. cbn in E, H. subst.
  destruct (String.eqb q b); cbn; auto.
Qed.
Lemma map4_picked f x y : R4 x y -> R4 (map4 f x) (map4 f y).
Proof. intros [A [C [D [E [F G]]]]]. repeat split; cbn; auto. intros. f_equal. apply G; auto. Qed.

Lemma pad_picked p q x y : R4 x y -> R4 (pad_zeros p q x) (pad_zeros p q y).
Proof.
  intros [A [C [D [E [F G]]]]]. unfold picked4, pad_zeros. cbn [k0 k1 k2 k3 v4]. rewrite E, F. repeat split; auto. intros n c y1 z Hn Hc Hy Hz.
  destruct (Nat.leb_spec p y1), (Nat.ltb_spec y1 (k2 y + p)), (Nat.leb_spec q z), (Nat.ltb_spec z (k3 y + q)); cbn [andb]; auto.
  apply G; lia.
Qed.

Lemma circular_picked l r u b x y : R4 x y -> both R4 (pad_circular l r u b x) (pad_circular l r u b y).
Proof.
  intros [A [C [D [E [F G]]]]]. unfold pad_circular. rewrite E, F.
  destruct (Nat.leb_spec l (k3 y)), (Nat.leb_spec r (k3 y)), (Nat.leb_spec u (k2 y)), (Nat.leb_spec b (k2 y)); cbn; auto.
  repeat split; cbn; auto. intros n c y1 z Hn Hc Hy Hz. apply G; auto; apply Nat.mod_upper_bound; lia.
Qed.

Lemma valid_picked w nb b x y : R4 x y -> both R4 (conv_valid w nb b x) (conv_valid w nb b y).
Proof.
  intros [A [C [D [E [F G]]]]]. unfold conv_valid. rewrite D, E, F.
  destruct (Nat.eqb_spec (k1 y) (k1 w)) as [K|K]; cbn [negb]; [|reflexivity].
  destruct (Nat.eqb nb (k0 w)); cbn [negb]; [|reflexivity].
  destruct (Nat.leb_spec (k2 w) (k2 y)), (Nat.leb_spec (k3 w) (k3 y)), (Nat.leb_spec 1 (k2 w)), (Nat.leb_spec 1 (k3 w)); cbn; auto.
  repeat split; cbn; auto. intros n c y1 z Hn Hc Hy Hz. f_equal. apply rsum_ext. intros j Hj. apply rsum_ext. intros dy Hdy. apply rsum_ext. intros dz Hdz.
  f_equal. apply G; lia.
Qed.

Lemma conv_picked l x y : R4 x y -> both R4 (conv_forward l x) (conv_forward l y).
Proof.
  intros H. unfold conv_forward. destruct (cv_circular l).
  - eapply both_bind; [apply circular_picked, H|]. intros. apply valid_picked. auto.
  - apply valid_picked, pad_picked, H.
Qed.

Lemma norm_picked eps g x y : R4 x y -> both R4 (group_norm eps g x) (group_norm eps g y).
Proof.
  intros [A [C [D [E [F G]]]]]. unfold group_norm. rewrite D. destruct (Nat.eqb (k1 y) g); cbn; auto.
  repeat split; cbn; auto. intros n c y1 z Hn Hc Hy Hz.
  assert (M : channel_mean y n c = channel_mean x (pick n) c).
  { unfold channel_mean. rewrite E, F. f_equal. apply rsum_ext. intros. apply rsum_ext. intros. apply G; auto. }
  assert (V : channel_var y n c = channel_var x (pick n) c).
  { unfold channel_var. rewrite E, F, M. f_equal. apply rsum_ext. intros. apply rsum_ext. intros. rewrite G; auto. }
  rewrite M, V, G; auto.
Qed.
End Pick.

Lemma simple_conv_samplewise nl : samplewise_images (simple_conv_rhs nl).
Proof.
  intros B B' pick x y th Hp H. change (both (picked_images B B' pick) (simple_conv_rhs nl x th) (simple_conv_rhs nl y th)). unfold simple_conv_rhs.
  apply both_same; intros l1. eapply both_bind; [apply item_images, H|]. intros q q' Hq.
  eapply both_bind; [apply conv_picked, map4_picked, Hq|]. intros r r' Hr.
  apply both_same; intros l2. eapply both_bind; [apply item_images, H|]. intros u u' Hu.
  eapply both_bind; [apply conv_picked, Hu|]. intros v v' Hv. cbn. repeat constructor; auto; try apply Hr; apply Hv.
Qed.
Lemma batch_conv_samplewise nl c : samplewise_images (batch_conv_rhs nl c).
Proof.
  intros B B' pick x y th Hp H. change (both (picked_images B B' pick) (batch_conv_rhs nl c x th) (batch_conv_rhs nl c y th)). unfold batch_conv_rhs.
  apply both_same; intros l1. eapply both_bind; [apply item_images, H|]. intros q q' Hq.
  eapply both_bind; [apply conv_picked, map4_picked, Hq|]. intros r r' Hr.
  apply both_same; intros l2. eapply both_bind; [apply item_images, H|]. intros u u' Hu.
  eapply both_bind; [apply norm_picked, Hu|]. intros g g' Hg.
  eapply both_bind; [apply conv_picked, Hg|]. intros v v' Hv. cbn. repeat constructor; auto; try apply Hr; apply Hv.
Qed.

(** ** Statements for the three models *)
Section Summary.
Variable nl : R -> R.
Variables (init : string -> (nat -> nat -> nat -> nat -> R) * (nat -> R)) (c f k : nat) (W : option R).

Definition sizes_follow (rhs : images -> convs -> result images) (os : convs) (names : list (string * nat)) : Prop :=
  forall n h w s th, has_images names n h w s -> same_convs os th ->
  (1 <= k -> k <= h + 2 -> k <= w + 2 -> exists r, rhs s th = Ok r /\ derivatives_of_size (h + 3 - k) (w + 3 - k) s r)%nat
  /\ ((k = 0 \/ h + 2 < k \/ w + 2 < k)%nat -> rhs s th = Raise RuntimeError).

Lemma follow_3 rhs os names : k = 3%nat -> sizes_follow rhs os names ->
  forall n h w s th, (1 <= h)%nat -> (1 <= w)%nat -> has_images names n h w s -> same_convs os th ->
  exists r, rhs s th = Ok r /\ derivatives_of_size h w s r.
Proof.
  intros Hk H n h w s th Hh Hw Hs Hth. destruct (H n h w s th Hs Hth) as [P _].
  destruct P as [r [E D]]; try lia. exists r. split; auto. rewrite Hk in D. replace (h + 3 - 3)%nat with h in D by lia.
  replace (w + 3 - 3)%nat with w in D by lia. exact D.
Qed.

Lemma follow_other rhs os name ch names : k <> 3%nat -> sizes_follow rhs os ((name, ch) :: names) ->
  forall n h w s th r, has_images ((name, ch) :: names) n h w s -> same_convs os th -> rhs s th = Ok r ->
  (exists h' w', derivatives_of_size h' w' s r /\ h' + k = h + 3 /\ w' + k = w + 3)%nat /\ ~ derivatives_of_size h w s r.
Proof.
  intros Hk H n h w s th r Hs Hth E. destruct (H n h w s th Hs Hth) as [P Q].
  destruct (Nat.eq_dec k 0) as [K|K]; [rewrite Q in E by auto; discriminate|].
  destruct (le_lt_dec k (h + 2)) as [K2|K2]; [|rewrite Q in E by auto; discriminate].
  destruct (le_lt_dec k (w + 2)) as [K3|K3]; [|rewrite Q in E by auto; discriminate].
  destruct P as [r' [E' D]]; try lia. rewrite E in E'. injection E' as <-. split.
  - exists (h + 3 - k)%nat, (w + 3 - k)%nat. split; auto. lia.
  - intros D'. inversion Hs; subst. inversion D as [|? ? ? ? [_ [_ [_ [S _]]]]]; subst. inversion D' as [|? ? ? ? [_ [_ [_ [S' _]]]]]; subst. lia.
Qed.

Lemma simple_follow : sizes_follow (simple_conv_rhs nl) (simple_conv_objects init c k W) [("q1", c); ("q2", c)].
Proof. intros n h w s th. apply simple_conv_sizes. Qed.
Lemma batch_follow : sizes_follow (batch_conv_rhs nl c) (simple_conv_objects init c k W) [("q1", c); ("q2", c)].
Proof. intros n h w s th. apply batch_conv_sizes. Qed.
Lemma updown_follow : sizes_follow (updown_conv_rhs nl) (updown_conv_objects init c f k W) [("q1", c); ("q2", (c * f)%nat)].
Proof. intros n h w s th. apply updown_conv_sizes. Qed.
End Summary.

(** Data of the modes with optimised initial conditions. *)
Lemma linear_data_fails nl init init' c f W n h w x th : of_shape4 n c h w x -> (1 <= h)%nat -> (1 <= w)%nat -> (c * f <> c)%nat ->
  same_convs (updown_conv_objects init c f 3 W) th ->
  exists s, updown_conv_data nl f (linear_mode init' f c) x = Ok s /\ updown_conv_rhs nl s th = Raise RuntimeError.
Proof.
  intros Hx Hh Hw Hne Hth. destruct (linear_data_sizes nl init' c f n h w x Hx Hh Hw) as [s [E Hs]]. exists s. split; auto.
  destruct (images2 _ _ _ _ _ _ _ _ Hs) as [a [b [-> [Ha [B0 [B1 [B2 B3]]]]]]].
  destruct (same_convs2 _ _ _ _ _ Hth) as [m1 [m2 [-> [[[A0 [A1 _]] [_ [_ [_ C1]]]] _]]]]. cbn in A1, C1.
  unfold updown_conv_rhs, simple_conv_rhs. cbn [sd_item sd_get String.eqb Ascii.eqb Bool.eqb bind].
  unfold conv_forward. rewrite <- C1. unfold conv_valid. cbn [k1 pad_zeros map4]. rewrite B1, A1.
  destruct (Nat.eqb_spec c (c * f)); [congruence|]. reflexivity.
Qed.

Lemma mini_data_shrinks nl init init' c f W n h w x th : of_shape4 n c h w x -> (2 <= h)%nat -> (2 <= w)%nat ->
  same_convs (updown_conv_objects init c f 3 W) th ->
  exists y r1 r2, updown_conv_data nl f (mini_mode init' f c) x = Ok [("q1", x); ("q2", y)]
    /\ updown_conv_rhs nl [("q1", x); ("q2", y)] th = Ok [("dot_q1", r1); ("dot_q2", r2)]
    /\ of_shape4 n c (h - 1) (w - 1) r1 /\ of_shape4 n (c * f) (h - 1) (w - 1) y /\ of_shape4 n (c * f) h w r2.
Proof.
  intros Hx Hh Hw Hth. destruct (mini_data_sizes nl init' c f n h w x Hx Hh Hw) as [y [E Hy]]. exists y.
  destruct (same_convs2 _ _ _ _ _ Hth) as [m1 [m2 [-> [[A1 [B1 [C1 [D1 E1]]]] [A2 [B2 [C2 [D2 E2]]]]]]]].
  cbn in A1, B1, C1, D1, E1, A2, B2, C2, D2, E2.
  destruct (conv_sizes m1 (map4 nl y) n (c * f) c (h - 1) (w - 1) 3 Hy A1 (eq_sym B1) (eq_sym E1) (eq_sym C1) (eq_sym D1)) as [P1 _].
  destruct (conv_sizes m2 x n c (c * f) h w 3 Hx A2 (eq_sym B2) (eq_sym E2) (eq_sym C2) (eq_sym D2)) as [P2 _].
  destruct P1 as [r1 [F1 G1]]; try lia. destruct P2 as [r2 [F2 G2]]; try lia. exists r1, r2. split; auto.
  unfold updown_conv_rhs, simple_conv_rhs. cbn [sd_item sd_get String.eqb Ascii.eqb Bool.eqb bind]. rewrite F1. cbn [bind]. rewrite F2. cbn [bind].
  split; [reflexivity|]. replace (h - 1 + 3 - 3)%nat with (h - 1)%nat in G1 by lia. replace (w - 1 + 3 - 3)%nat with (w - 1)%nat in G1 by lia.
  replace (h + 3 - 3)%nat with h in G2 by lia. replace (w + 3 - 3)%nat with w in G2 by lia. auto.
Qed.

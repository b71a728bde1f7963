(** Property C42: spatial sizes of the convolutional models; and C38 for these models. *)
From Coq Require Import List String Bool Reals Arith Lia Lra.
From Verif Require Import Base RealSum ConvModel ConvSpec ConvProofs.
Import ListNotations.
Open Scope string_scope.
Open Scope R_scope.

(** ** C42

    Filter size 3, for all states of [c] channels (and [c * f] for the second state of the up-down
    model), all image sizes and all parameters of the default sizes. *)
Theorem C42_simple_filter3 : forall nl init c W n h w s th, (1 <= h)%nat -> (1 <= w)%nat ->
  has_images [("q1", c); ("q2", c)] n h w s -> same_convs (simple_conv_objects init c 3 W) th ->
  exists r, simple_conv_rhs nl s th = Ok r /\ derivatives_of_size h w s r.
Proof. exact (fun nl init c W => follow_3 3 _ _ _ eq_refl (simple_follow nl init c 3 W)). Qed.
Print Assumptions C42_simple_filter3.

Theorem C42_batch_filter3 : forall nl init c W n h w s th, (1 <= h)%nat -> (1 <= w)%nat ->
  has_images [("q1", c); ("q2", c)] n h w s -> same_convs (simple_conv_objects init c 3 W) th ->
  exists r, batch_conv_rhs nl c s th = Ok r /\ derivatives_of_size h w s r.
Proof. exact (fun nl init c W => follow_3 3 _ _ _ eq_refl (batch_follow nl init c 3 W)). Qed.
Print Assumptions C42_batch_filter3.

Theorem C42_updown_filter3 : forall nl init c f W n h w s th, (1 <= h)%nat -> (1 <= w)%nat ->
  has_images [("q1", c); ("q2", (c * f)%nat)] n h w s -> same_convs (updown_conv_objects init c f 3 W) th ->
  exists r, updown_conv_rhs nl s th = Ok r /\ derivatives_of_size h w s r.
Proof. exact (fun nl init c f W => follow_3 3 _ _ _ eq_refl (updown_follow nl init c f 3 W)). Qed.
Print Assumptions C42_updown_filter3.

(** Other filter sizes: whenever the right-hand side can be evaluated its images have another size. *)
Theorem C42_simple_other : forall nl init c k W, k <> 3%nat -> forall n h w s th r,
  has_images [("q1", c); ("q2", c)] n h w s -> same_convs (simple_conv_objects init c k W) th ->
  simple_conv_rhs nl s th = Ok r ->
  (exists h' w', derivatives_of_size h' w' s r /\ h' + k = h + 3 /\ w' + k = w + 3)%nat /\ ~ derivatives_of_size h w s r.
Proof. exact (fun nl init c k W Hk => follow_other k _ _ _ _ _ Hk (simple_follow nl init c k W)). Qed.
Print Assumptions C42_simple_other.

Theorem C42_batch_other : forall nl init c k W, k <> 3%nat -> forall n h w s th r,
  has_images [("q1", c); ("q2", c)] n h w s -> same_convs (simple_conv_objects init c k W) th ->
  batch_conv_rhs nl c s th = Ok r ->
  (exists h' w', derivatives_of_size h' w' s r /\ h' + k = h + 3 /\ w' + k = w + 3)%nat /\ ~ derivatives_of_size h w s r.
Proof. exact (fun nl init c k W Hk => follow_other k _ _ _ _ _ Hk (batch_follow nl init c k W)). Qed.
Print Assumptions C42_batch_other.

Theorem C42_updown_other : forall nl init c f k W, k <> 3%nat -> forall n h w s th r,
  has_images [("q1", c); ("q2", (c * f)%nat)] n h w s -> same_convs (updown_conv_objects init c f k W) th ->
  updown_conv_rhs nl s th = Ok r ->
  (exists h' w', derivatives_of_size h' w' s r /\ h' + k = h + 3 /\ w' + k = w + 3)%nat /\ ~ derivatives_of_size h w s r.
Proof. exact (fun nl init c f k W Hk => follow_other k _ _ _ _ _ Hk (updown_follow nl init c f k W)). Qed.
Print Assumptions C42_updown_other.

(** Initial states, and initial data without optimised initial conditions, have the sizes assumed. *)
Theorem C42_initial_states : forall ini n c f h w,
  has_images [("q1", c); ("q2", c)] n h w (simple_conv_initial ini n c h w)
  /\ has_images [("q1", c); ("q2", (c * f)%nat)] n h w (updown_conv_initial f ini n c h w).
Proof. exact conv_initial_sizes. Qed.
Print Assumptions C42_initial_states.

Theorem C42_initial_data : forall nl c f n h w x, of_shape4 n c h w x ->
  has_images [("q1", c); ("q2", c)] n h w (simple_conv_data x)
  /\ exists s, updown_conv_data nl f CZero x = Ok s /\ has_images [("q1", c); ("q2", (c * f)%nat)] n h w s.
Proof. exact conv_data_sizes. Qed.
Print Assumptions C42_initial_data.

(** With optimised initial conditions the data of the up-down model do not fit: in linear mode the
    right-hand side of the data always raises unless the inflation factor is 1 (or there are no
    channels), in mini_nn mode the derivatives are one row and column too small or too large. *)
Theorem C42_linear_mode_partial : forall nl init init' c f W n h w x th,
  of_shape4 n c h w x -> (1 <= h)%nat -> (1 <= w)%nat -> (c * f <> c)%nat ->
  same_convs (updown_conv_objects init c f 3 W) th ->
  exists s, updown_conv_data nl f (linear_mode init' f c) x = Ok s /\ updown_conv_rhs nl s th = Raise RuntimeError.
Proof. exact linear_data_fails. Qed.
Print Assumptions C42_linear_mode_partial.

Theorem C42_mini_nn_mode_partial : forall nl init init' c f W n h w x th,
  of_shape4 n c h w x -> (2 <= h)%nat -> (2 <= w)%nat ->
  same_convs (updown_conv_objects init c f 3 W) th ->
  exists y r1 r2, updown_conv_data nl f (mini_mode init' f c) x = Ok [("q1", x); ("q2", y)]
    /\ updown_conv_rhs nl [("q1", x); ("q2", y)] th = Ok [("dot_q1", r1); ("dot_q2", r2)]
    /\ of_shape4 n c (h - 1) (w - 1) r1 /\ of_shape4 n (c * f) (h - 1) (w - 1) y /\ of_shape4 n (c * f) h w r2.
Proof. exact mini_data_shrinks. Qed.
Print Assumptions C42_mini_nn_mode_partial.

(** A filter 3 up-down model whose data derivatives do not have the size of the data. *)
Theorem C42_optimised_data_refuted : exists nl init c f W x s r,
  of_shape4 1 c 2 2 x /\ updown_conv_data nl f (mini_mode init f c) x = Ok s
  /\ updown_conv_rhs nl s (updown_conv_objects init c f 3 W) = Ok r /\ ~ derivatives_of_size 2 2 s r.
Proof.
  exists (fun x => x), (fun _ => (fun _ _ _ _ => 0, fun _ => 0)), 1%nat, 2%nat, None, (mkT4 1 1 2 2 (fun _ _ _ _ => 1)).
  do 2 eexists. split; [repeat split|].
  split; [lazy -[Rplus Rmult v4 rsum]; reflexivity|]. split; [lazy -[Rplus Rmult v4 rsum]; reflexivity|].
  intros H. inversion H as [|? ? ? ? [_ [_ [_ [E _]]]]]. discriminate E.
Qed.
Print Assumptions C42_optimised_data_refuted.

(** Circular padding (not used by the shooting models) with padding [p] adds [p] rows and columns in
    all, not [2 * p]: with filter 3 and padding 1 the image shrinks. *)
Theorem C42_circular_partial : forall l x a ci co h w k p,
  of_shape4 a ci h w x -> of_shape4 co ci k k (cv_weight l) -> cv_nb l = co -> cv_circular l = true ->
  cv_pad0 l = p -> cv_pad1 l = p -> (p <= h -> p <= w -> 1 <= k -> k <= h + p -> k <= w + p ->
  exists y, conv_forward l x = Ok y /\ of_shape4 a co (h + p + 1 - k) (w + p + 1 - k) y)%nat.
Proof. exact circular_sizes. Qed.
Print Assumptions C42_circular_partial.

Example C42_case :
  has_images [("q1", 3%nat); ("q2", (3 * 2)%nat)] 4 5 7
    [("q1", mkT4 4 3 5 7 (fun n c y z => INR (n + c * y + z))); ("q2", mkT4 4 6 5 7 (fun n c y z => INR c))]
  /\ same_convs (updown_conv_objects (fun _ => (fun _ _ _ _ => 0, fun _ => 0)) 3 2 3 None)
       (updown_conv_objects (fun _ => (fun o c y z => INR (o + c * y), fun o => INR o)) 3 2 3 None).
Proof. split; repeat constructor. Qed.

(** ** C38 for the convolutional models (the up-down model has the right-hand side of the simple one) *)
Theorem C38_convolution : forall nl c,
  samplewise_images (simple_conv_rhs nl) /\ samplewise_images (batch_conv_rhs nl c) /\ samplewise_images (updown_conv_rhs nl).
Proof.
  exact (fun nl c => conj (simple_conv_samplewise nl) (conj (batch_conv_samplewise nl c) (simple_conv_samplewise nl))).
Qed.
Print Assumptions C38_convolution.

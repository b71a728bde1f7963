(** Proofs about the autoencoder. *)
From Coq Require Import List Arith ZArith Bool Lia Permutation Sorting.Sorted ZifyNat.
From Verif Require Import Base Tensor TensorFacts AutoencoderModel AutoencoderSpec.
Import ListNotations.

Ltac Zify.zify_post_hook ::= Z.div_mod_to_equations.

(** ** Row-major positions *)
Lemma ravel_merge a b s i j r : i < a -> j < b -> ravel (a * b :: s) (i * b + j :: r) = ravel (a :: b :: s) (i :: j :: r).
Proof.
  intros Hi Hj. cbn [ravel]. assert (i * b + j < a * b) by nia.
  rewrite (proj2 (Nat.ltb_lt _ _) H), (proj2 (Nat.ltb_lt _ _) Hi), (proj2 (Nat.ltb_lt _ _) Hj).
  destruct (ravel s r); [|reflexivity]. cbn [option_map prod fold_right]. f_equal. fold (prod s). nia.
Qed.

Lemma ravel_one s r : ravel (1 :: s) (0 :: r) = ravel s r.
Proof. cbn [ravel]. cbn. destruct (ravel s r); reflexivity. Qed.

Lemma ravel_cons n s s' i r r' : prod s = prod s' -> ravel s r = ravel s' r' -> ravel (n :: s) (i :: r) = ravel (n :: s') (i :: r').
Proof. intros P E. cbn [ravel]. rewrite P, E. reflexivity. Qed.

Lemma tget_data {B} s s' (l : list B) i i' : ravel s i = ravel s' i' -> tget (mkT s l) i = tget (mkT s' l) i'.
Proof. intros E. unfold tget. cbn [tshape tdata]. rewrite E. reflexivity. Qed.

Lemma tget_eta {B} (t : tensor B) i : tget t i = tget (mkT (tshape t) (tdata t)) i.
Proof. reflexivity. Qed.

Lemma prod_cons n s : prod (n :: s) = n * prod s.
Proof. reflexivity. Qed.
Lemma prod_nil : prod [] = 1.
Proof. reflexivity. Qed.

Lemma tview_eq {B} (l : list B) s : length l = prod s -> tview l s = Ok (mkT s l).
Proof. intros E. unfold tview. rewrite E, Nat.eqb_refl. reflexivity. Qed.

Lemma tview_ne {B} (l : list B) s : length l <> prod s -> tview l s = Raise RuntimeError.
Proof. intros E. unfold tview. rewrite (proj2 (Nat.eqb_neq _ _) E). reflexivity. Qed.

Section Layers.
Set Default Proof Using "All".
Context {A : Type}.
Variable value : nat -> tensor A -> list nat -> A.
Variables n_filt d : nat.

Notation layer := (layer value).

Lemma layer_wf k s t : twf (layer k s t).
Proof. apply tgather_wf. discriminate. Qed.
Lemma layer_shape k s t : tshape (layer k s t) = s.
Proof. reflexivity. Qed.

Lemma conv2d_ok k cin cout t n h w : tshape t = [n; cin; h; w] -> 0 < h -> 0 < w ->
  conv2d value k cin cout 5 2 2 t = Ok (layer k [n; cout; (h + 1) / 2; (w + 1) / 2] t).
Proof.
  intros S Hh Hw. unfold conv2d. rewrite S, Nat.eqb_refl.
  rewrite (proj2 (Nat.leb_le 5 (h + 2 * 2))) by lia. rewrite (proj2 (Nat.leb_le 5 (w + 2 * 2))) by lia.
  cbn [andb]. f_equal. f_equal. f_equal. f_equal. f_equal; [|f_equal]; lia.
Qed.

Lemma batch_norm_ok k c t n h w : tshape t = [n; c; h; w] -> batch_norm2d value k c t = Ok (layer k [n; c; h; w] t).
Proof. intros S. unfold batch_norm2d. rewrite S, Nat.eqb_refl. reflexivity. Qed.

Lemma pointwise_ok k t s : tshape t = s -> pointwise value k t = Ok (layer k s t).
Proof. intros <-. reflexivity. Qed.

(** Images [h] by [w] leave the encoder as [n_filt*4*(h+7)/8*(w+7)/8] features. *)
Lemma encoder_ok cin x N h w : tshape x = [N; cin; h; w] -> 0 < N -> 0 < n_filt -> 0 < h -> 0 < w ->
  exists e, encoder value n_filt cin x = Ok e /\ twf e /\
    tshape e = [N; n_filt * 4 * ((h + 7) / 8) * ((w + 7) / 8)].
Proof.
  intros S HN Hf Hh Hw. unfold encoder.
  rewrite (conv2d_ok 0 cin n_filt x N h w S Hh Hw). cbn [bind].
  rewrite (batch_norm_ok 1 n_filt _ N ((h+1)/2) ((w+1)/2)) by reflexivity. cbn [bind].
  rewrite (pointwise_ok 2 _ [N; n_filt; (h+1)/2; (w+1)/2]) by reflexivity. cbn [bind].
  rewrite (conv2d_ok 3 n_filt (n_filt*2) _ N ((h+1)/2) ((w+1)/2)) by (try reflexivity; lia). cbn [bind].
  rewrite (batch_norm_ok 4 (n_filt*2) _ N (((h+1)/2+1)/2) (((w+1)/2+1)/2)) by reflexivity. cbn [bind].
  rewrite (pointwise_ok 5 _ [N; n_filt*2; ((h+1)/2+1)/2; ((w+1)/2+1)/2]) by reflexivity. cbn [bind].
  rewrite (conv2d_ok 6 (n_filt*2) (n_filt*4) _ N (((h+1)/2+1)/2) (((w+1)/2+1)/2)) by (try reflexivity; lia). cbn [bind].
  rewrite (pointwise_ok 7 _ [N; n_filt*4; (((h+1)/2+1)/2+1)/2; (((w+1)/2+1)/2+1)/2]) by reflexivity. cbn [bind].
  replace ((((h + 1) / 2 + 1) / 2 + 1) / 2) with ((h + 7) / 8) by lia.
  replace ((((w + 1) / 2 + 1) / 2 + 1) / 2) with ((w + 7) / 8) by lia.
  assert (Ph : 0 < (h + 7) / 8) by lia. assert (Pw : 0 < (w + 7) / 8) by lia.
  set (hh := (h + 7) / 8) in *. set (ww := (w + 7) / 8) in *. clearbody hh ww.
  match goal with |- exists e, flatten ?y = _ /\ _ => set (t := y) end.
  assert (W : twf t) by apply layer_wf. assert (St : tshape t = [N; n_filt * 4; hh; ww]) by reflexivity. clearbody t.
  unfold flatten. rewrite St. rewrite !prod_cons, prod_nil, Nat.mul_1_r.
  assert (P : N * (n_filt * 4 * (hh * ww)) <> 0) by nia.
  rewrite (proj2 (Nat.eqb_neq _ _) P).
  replace (N * (n_filt * 4 * (hh * ww)) / N) with (n_filt * 4 * hh * ww).
  2:{ rewrite (Nat.mul_comm N), Nat.div_mul by lia. ring. }
  unfold twf in W. rewrite St, !prod_cons, prod_nil in W.
  rewrite tview_eq by (rewrite !prod_cons, prod_nil, W; ring).
  eexists. split; [reflexivity|]. split; [|reflexivity]. unfold twf. cbn [tdata tshape]. rewrite W, !prod_cons, prod_nil. ring.
Qed.

Lemma fc1_ok e N hh ww : tshape e = [N; n_filt * 4 * hh * ww] -> hh * ww = 16 ->
  fc1 value n_filt d e = Ok (layer 8 [N; d] e).
Proof.
  intros S E. unfold fc1, linear, h_dim. rewrite S.
  replace (n_filt * 4 * hh * ww) with (n_filt * 64) by nia. rewrite Nat.eqb_refl. reflexivity.
Qed.

Lemma fc1_bad e N hh ww : 0 < n_filt -> tshape e = [N; n_filt * 4 * hh * ww] -> hh * ww <> 16 ->
  fc1 value n_filt d e = Raise RuntimeError.
Proof.
  intros Hf S E. unfold fc1, linear, h_dim. rewrite S.
  rewrite (proj2 (Nat.eqb_neq _ _)) by nia. reflexivity.
Qed.

Lemma conv_transpose_ok k cin cout ks st pad op t n h w h' : tshape t = [n; cin; h; w] -> h = w -> 0 < h ->
  (h - 1) * st + ks + op = h' + 2 * pad -> 0 < h' ->
  conv_transpose2d value k cin cout ks st pad op t = Ok (layer k [n; cout; h'; h'] t).
Proof.
  intros S <- Hh E Hp. unfold conv_transpose2d. rewrite S, Nat.eqb_refl, E.
  rewrite (proj2 (Nat.ltb_lt 0 h)) by exact Hh.
  rewrite (proj2 (Nat.ltb_lt (2 * pad) (h' + 2 * pad))) by lia. cbn [andb].
  rewrite Nat.add_sub. reflexivity.
Qed.

(** Latent vectors are decoded to images 28 by 28. *)
Lemma decode_ok s M : tshape s = [M; d] -> 0 < M -> 0 < n_filt ->
  exists D, decode value n_filt d s = Ok D /\ twf D /\ tshape D = [M; 1; 28; 28].
Proof.
  intros SH HM Hf. unfold decode, fc2, linear. rewrite SH, Nat.eqb_refl. cbn [bind].
  unfold decoder, h_dim. set (t := layer 9 [M; n_filt * 64] s).
  assert (W : twf t) by apply layer_wf. assert (St : tshape t = [M; n_filt * 64]) by reflexivity. clearbody t.
  unfold unflatten. rewrite St. destruct M as [|M]; [lia|].
  replace (prod [n_filt * 64] / (4 * 4)) with (n_filt * 4).
  2:{ rewrite prod_cons, prod_nil, Nat.mul_1_r. change (4 * 4) with 16. lia. }
  unfold twf in W. rewrite St, !prod_cons, prod_nil in W.
  rewrite tview_eq by (rewrite !prod_cons, prod_nil, W; ring). cbn [bind].
  replace (n_filt * 64 / 16) with (n_filt * 4) by lia.
  rewrite (conv_transpose_ok 10 (n_filt*4) (n_filt*8) 3 1 0 0 _ (S M) 4 4 6) by (try reflexivity; lia). cbn [bind].
  rewrite (batch_norm_ok 11 (n_filt*8) _ (S M) 6 6) by reflexivity. cbn [bind].
  rewrite (pointwise_ok 12 _ [S M; n_filt*8; 6; 6]) by reflexivity. cbn [bind].
  rewrite (conv_transpose_ok 13 (n_filt*8) (n_filt*4) 5 2 1 0 _ (S M) 6 6 13) by (try reflexivity; lia). cbn [bind].
  rewrite (batch_norm_ok 14 (n_filt*4) _ (S M) 13 13) by reflexivity. cbn [bind].
  rewrite (pointwise_ok 15 _ [S M; n_filt*4; 13; 13]) by reflexivity. cbn [bind].
  rewrite (conv_transpose_ok 16 (n_filt*4) (n_filt*2) 5 2 1 1 _ (S M) 13 13 28) by (try reflexivity; lia). cbn [bind].
  rewrite (batch_norm_ok 17 (n_filt*2) _ (S M) 28 28) by reflexivity. cbn [bind].
  rewrite (pointwise_ok 18 _ [S M; n_filt*2; 28; 28]) by reflexivity. cbn [bind].
  rewrite (conv_transpose_ok 19 (n_filt*2) 1 5 1 2 0 _ (S M) 28 28 28) by (try reflexivity; lia). cbn [bind].
  rewrite (pointwise_ok 20 _ [S M; 1; 28; 28]) by reflexivity.
  eexists. split; [reflexivity|]. split; [apply layer_wf|reflexivity].
Qed.

Lemma encoded cin x N h w : tshape x = [N; cin; h; w] -> 0 < N -> 0 < n_filt -> 0 < h -> 0 < w ->
  (h + 7) / 8 * ((w + 7) / 8) = 16 ->
  exists e enc, encoder value n_filt cin x = Ok e /\ fc1 value n_filt d e = Ok enc /\
    twf enc /\ tshape enc = [N; d] /\
    unsqueeze1 enc = Ok (mkT [N; 1; d] (tdata enc)) /\ twf (mkT [N; 1; d] (tdata enc)).
Proof.
  intros S HN Hf Hh Hw E. destruct (encoder_ok cin x N h w S HN Hf Hh Hw) as (e & E1 & _ & E3).
  exists e, (layer 8 [N; d] e). split; [exact E1|]. split; [exact (fc1_ok e N _ _ E3 E)|].
  split; [apply layer_wf|]. split; [reflexivity|]. split; [reflexivity|].
  pose proof (layer_wf 8 [N; d] e) as W. unfold twf in *. cbn [tshape tdata] in *. rewrite layer_shape in W.
  rewrite W, !prod_cons. ring.
Qed.

(** Decoding of [N] trajectories with [m] times each. *)
Lemma decode_frames (out : tensor A) N m : twf out -> tshape out = [N; m; d] -> 0 < N -> 0 < m -> 0 < n_filt ->
  exists D, decode value n_filt d (mkT [N * m; d] (tdata out)) = Ok D /\
    tview (tdata out) [N * m; d] = Ok (mkT [N * m; d] (tdata out)) /\
    tview (tdata D) [N; m; 1; 28; 28] = Ok (mkT [N; m; 1; 28; 28] (tdata D)) /\
    tshape D = [N * m; 1; 28; 28] /\ twf (mkT [N; m; 1; 28; 28] (tdata D)) /\
    (forall n t k, n < N -> t < m -> tget (mkT [N * m; d] (tdata out)) [n * m + t; k] = tget out [n; t; k]) /\
    (forall n t i j, n < N -> t < m ->
       tget (mkT [N; m; 1; 28; 28] (tdata D)) [n; t; 0; i; j] = tget D [n * m + t; 0; i; j]).
Proof.
  intros W S HN Hm Hf.
  destruct (decode_ok (mkT [N * m; d] (tdata out)) (N * m) eq_refl ltac:(nia) Hf) as (D & E & WD & SD).
  exists D. unfold twf in W. rewrite S in W. unfold twf in WD. rewrite SD in WD.
  rewrite !prod_cons in *. split; [exact E|]. split; [apply tview_eq; rewrite !prod_cons, W; ring|].
  split; [apply tview_eq; rewrite !prod_cons, WD; ring|]. split; [exact SD|].
  split; [unfold twf; cbn [tshape tdata]; rewrite !prod_cons, WD; ring|]. split.
  - intros n t k Hn Ht. rewrite (tget_eta out), S. apply tget_data. apply ravel_merge; assumption.
  - intros n t i j Hn Ht. rewrite (tget_eta D), SD. apply tget_data. symmetry. apply ravel_merge; assumption.
Qed.

End Layers.

Section Forward.
Set Default Proof Using "All".
Context {A : Type}.
Variable value : nat -> tensor A -> list nat -> A.
Variable blk : tensor A -> result (tensor A).
Variables n_filt d T : nat.

(** ** Trajectories *)
Lemma squeeze_3 (b : tensor A) N : twf b -> tshape b = [T; N; 1; d] -> 2 <= T -> 2 <= N -> 2 <= d ->
  squeeze b = mkT [T; N; d] (tdata b).
Proof.
  intros W S HT HN Hd. unfold squeeze. rewrite S. cbn [filter].
  rewrite (proj2 (Nat.eqb_neq T 1)), (proj2 (Nat.eqb_neq N 1)), (proj2 (Nat.eqb_neq d 1)) by lia. reflexivity.
Qed.

Lemma squeeze_less (b : tensor A) N : tshape b = [T; N; 1; d] -> T = 1 \/ N = 1 \/ d = 1 ->
  permute102 (squeeze b) = Raise RuntimeError.
Proof.
  intros S H. unfold squeeze, permute102. rewrite S. cbn [tshape filter].
  destruct (T =? 1) eqn:E1, (N =? 1) eqn:E2, (d =? 1) eqn:E3; try reflexivity.
  apply Nat.eqb_neq in E1, E2, E3. lia.
Qed.

Lemma trajectories_ok cin x N h w : block_gives blk d T N -> tshape x = [N; cin; h; w] ->
  2 <= N -> 2 <= T -> 2 <= d -> 0 < n_filt -> 0 < h -> 0 < w -> (h + 7) / 8 * ((w + 7) / 8) = 16 ->
  exists e enc u b out, encoder value n_filt cin x = Ok e /\ fc1 value n_filt d e = Ok enc /\
    tshape enc = [N; d] /\ tshape u = [N; 1; d] /\
    (forall n k, n < N -> k < d -> tget u [n; 0; k] = tget enc [n; k]) /\
    blk u = Ok b /\ tshape b = [T; N; 1; d] /\
    trajectories value blk n_filt d cin x = Ok out /\ twf out /\ tshape out = [N; T; d] /\
    (forall n t k, n < N -> t < T -> k < d -> tget out [n; t; k] = tget b [t; n; 0; k]).
Proof.
  intros B S HN HT Hd Hf Hh Hw E.
  destruct (encoded value n_filt d cin x N h w S ltac:(lia) Hf Hh Hw E) as (e & enc & E1 & E2 & We & Se & E3 & Wu).
  destruct (B _ Wu eq_refl) as (b & Eb & Wb & Sb).
  set (u := mkT [N; 1; d] (tdata enc)) in *.
  set (src := fun i => match i with [x; y; z] => tget (mkT [T; N; d] (tdata b)) [y; x; z] | _ => None end).
  assert (Wb' : twf (mkT [T; N; d] (tdata b))).
  { unfold twf in *. cbn [tdata tshape]. rewrite Wb, Sb, !prod_cons. ring. }
  assert (TOT : forall i, valid_idx [N; T; d] i -> src i <> None).
  { intros i V. destruct i as [|i1 [|i2 [|i3 [|]]]]; cbn [valid_idx] in V; try tauto.
    destruct (tget_valid (mkT [T; N; d] (tdata b)) [i2; i1; i3] Wb') as (a & Ea); [cbn; tauto|].
    unfold src. rewrite Ea. discriminate. }
  exists e, enc, u, b, (tgather [N; T; d] src).
  split; [exact E1|]. split; [exact E2|]. split; [exact Se|]. split; [reflexivity|]. split; [|split; [exact Eb|]].
  - intros n k Hn Hk. rewrite (tget_eta enc), Se. apply tget_data. apply ravel_cons; [rewrite !prod_cons; ring|]. apply ravel_one.
  - split; [exact Sb|]. split; [|split; [apply tgather_wf, TOT|split; [reflexivity|]]].
    + unfold trajectories. rewrite E1. cbn [bind]. rewrite E2. cbn [bind]. rewrite E3. cbn [bind].
      rewrite Eb. cbn [bind]. rewrite (squeeze_3 b N Wb Sb HT HN Hd). reflexivity.
    + intros n t k Hn Ht Hk. rewrite (tget_gather [N; T; d] src [n; t; k] TOT) by (cbn; tauto).
      unfold src. rewrite (tget_eta b), Sb. apply tget_data. symmetry.
      apply ravel_cons; [rewrite !prod_cons; ring|]. apply ravel_cons; [rewrite !prod_cons; ring|]. apply ravel_one.
Qed.

Lemma trajectories_small cin x N h w : block_gives blk d T N -> tshape x = [N; cin; h; w] ->
  0 < N -> T = 1 \/ N = 1 \/ d = 1 -> 0 < n_filt -> 0 < h -> 0 < w -> (h + 7) / 8 * ((w + 7) / 8) = 16 ->
  trajectories value blk n_filt d cin x = Raise RuntimeError.
Proof.
  intros B S HN H1 Hf Hh Hw E.
  destruct (encoded value n_filt d cin x N h w S HN Hf Hh Hw E) as (e & enc & E1 & E2 & We & Se & E3 & Wu).
  destruct (B _ Wu eq_refl) as (b & Eb & Wb & Sb). unfold trajectories.
  rewrite E1. cbn [bind]. rewrite E2. cbn [bind]. rewrite E3. cbn [bind]. rewrite Eb. cbn [bind].
  apply (squeeze_less b N Sb H1).
Qed.

Lemma trajectories_size cin x N h w : tshape x = [N; cin; h; w] ->
  0 < N -> 0 < n_filt -> 0 < h -> 0 < w -> (h + 7) / 8 * ((w + 7) / 8) <> 16 ->
  trajectories value blk n_filt d cin x = Raise RuntimeError.
Proof.
  intros S HN Hf Hh Hw E. destruct (encoder_ok value n_filt d cin x N h w S HN Hf Hh Hw) as (e & E1 & _ & E3).
  unfold trajectories. rewrite E1. cbn [bind]. rewrite (fc1_bad value n_filt d e N _ _ Hf E3 E). reflexivity.
Qed.

(** ** [ShootingAE.forward] *)
Lemma forward_ok x N h w : block_gives blk d T N -> tshape x = [N; 3; h; w] ->
  2 <= N -> 2 <= T -> 2 <= d -> 0 < n_filt -> 0 < h -> 0 < w -> (h + 7) / 8 * ((w + 7) / 8) = 16 ->
  exists e enc u b out s D r, encoder value n_filt 3 x = Ok e /\ fc1 value n_filt d e = Ok enc /\
    (forall n k, n < N -> k < d -> tget u [n; 0; k] = tget enc [n; k]) /\
    blk u = Ok b /\ forward value blk n_filt d T x = Ok (out, r) /\
    tshape out = [N; T; d] /\ tshape r = [N; T; 1; 28; 28] /\
    (forall n t k, n < N -> t < T -> k < d -> tget out [n; t; k] = tget b [t; n; 0; k]) /\
    decode value n_filt d s = Ok D /\ tshape s = [N * T; d] /\
    (forall n t k, n < N -> t < T -> k < d -> tget s [n * T + t; k] = tget out [n; t; k]) /\
    (forall n t i j, n < N -> t < T -> tget r [n; t; 0; i; j] = tget D [n * T + t; 0; i; j]).
Proof.
  intros B S HN HT Hd Hf Hh Hw E.
  destruct (trajectories_ok 3 x N h w B S HN HT Hd Hf Hh Hw E)
    as (e & enc & u & b & out & E1 & E2 & Se & Su & U & Eb & Sb & ET & Wo & So & O).
  destruct (decode_frames value n_filt d out N T Wo So ltac:(lia) ltac:(lia) Hf) as (D & ED & V1 & V2 & SD & WD & R1 & R2).
  exists e, enc, u, b, out, (mkT [N * T; d] (tdata out)), D, (mkT [N; T; 1; 28; 28] (tdata D)).
  repeat (split; [first [assumption|reflexivity]|]).
  - split.
    + unfold forward. rewrite S, ET. cbn [bind]. rewrite V1. cbn [bind]. rewrite ED. cbn [bind].
      cbv beta. rewrite V2. reflexivity.
    + repeat (split; [first [assumption|reflexivity]|]). split; [|exact R2].
      intros n t k Hn Ht _. apply R1; assumption.
Qed.

Lemma forward_small x N h w : block_gives blk d T N -> tshape x = [N; 3; h; w] ->
  0 < N -> T = 1 \/ N = 1 \/ d = 1 -> 0 < n_filt -> 0 < h -> 0 < w -> (h + 7) / 8 * ((w + 7) / 8) = 16 ->
  forward value blk n_filt d T x = Raise RuntimeError.
Proof.
  intros. unfold forward. rewrite H0. rewrite (trajectories_small 3 x N h w) by assumption. reflexivity.
Qed.

Lemma forward_size x N h w : tshape x = [N; 3; h; w] ->
  0 < N -> 0 < n_filt -> 0 < h -> 0 < w -> (h + 7) / 8 * ((w + 7) / 8) <> 16 ->
  forward value blk n_filt d T x = Raise RuntimeError.
Proof.
  intros. unfold forward. rewrite H. rewrite (trajectories_size 3 x N h w) by assumption. reflexivity.
Qed.

End Forward.

(** ** Timepoints *)
Lemma insert_unique_in z l y : In y (insert_unique z l) <-> y = z \/ In y l.
Proof.
  induction l as [|x l IH]; cbn [insert_unique In]; [intuition|].
  destruct (z <? x)%Z eqn:E1; cbn [In]; [intuition|].
  destruct (Z.eqb_spec z x) as [->|N]; cbn [In]; [intuition|]. rewrite IH. intuition.
Qed.

Lemma insert_unique_sorted z l : StronglySorted Z.lt l -> StronglySorted Z.lt (insert_unique z l).
Proof.
  intros H. induction H as [|x l S IH F]; cbn [insert_unique]; [constructor; constructor|].
  destruct (Z.ltb_spec z x) as [L|L].
  - constructor; [constructor; assumption|]. constructor; [exact L|].
    eapply Forall_impl; [|exact F]. intros a Ha. lia.
  - destruct (Z.eqb_spec z x) as [->|N]; [constructor; assumption|].
    constructor; [exact IH|]. apply Forall_forall. intros y Hy. apply insert_unique_in in Hy as [->|Hy]; [lia|].
    rewrite Forall_forall in F. apply F, Hy.
Qed.

Lemma setdiff_spec a b : StronglySorted Z.lt (setdiff1d a b) /\
  forall z, In z (setdiff1d a b) <-> In z a /\ ~ In z b.
Proof.
  unfold setdiff1d.
  assert (G : forall l, StronglySorted Z.lt (fold_right insert_unique [] l) /\
      forall z, In z (fold_right insert_unique [] l) <-> In z l).
  { induction l as [|x l (IH1 & IH2)]; cbn [fold_right]; [split; [constructor|reflexivity]|].
    split; [apply insert_unique_sorted, IH1|]. intros z. rewrite insert_unique_in, IH2. cbn. intuition. }
  destruct (G (filter (fun z => negb (existsb (Z.eqb z) b)) a)) as (G1 & G2). split; [exact G1|].
  intros z. rewrite G2, filter_In. split; intros (H1 & H2); (split; [exact H1|]).
  - intros I. apply Bool.negb_true_iff in H2. assert (X : existsb (Z.eqb z) b = true); [|congruence].
    apply existsb_exists. exists z. split; [exact I|apply Z.eqb_refl].
  - apply Bool.negb_true_iff. destruct (existsb (Z.eqb z) b) eqn:X; [|reflexivity].
    apply existsb_exists in X as (y & I & Ey). apply Z.eqb_eq in Ey. subst y. contradiction.
Qed.

Lemma sorted_nodup l : StronglySorted Z.lt l -> NoDup l.
Proof.
  intros H. induction H as [|x l S IH F]; [constructor|]. constructor; [|exact IH].
  intros I. rewrite Forall_forall in F. specialize (F x I). lia.
Qed.

(** What is left of distinct values without the first ones and another one. *)
Lemma setdiff_first w k z : NoDup w -> ~ In z w -> Permutation (setdiff1d w (firstn k w ++ [z])) (skipn k w).
Proof.
  intros ND NI. destruct (setdiff_spec w (firstn k w ++ [z])) as (S1 & S2).
  pose proof ND as ND2. rewrite <- (firstn_skipn k w) in ND2.
  apply NoDup_Permutation; [apply sorted_nodup, S1| |].
  - clear - ND2. induction (firstn k w) as [|x l IH]; cbn [app] in ND2; [exact ND2|].
    inversion ND2; subst. apply IH. assumption.
  - intros y. rewrite S2, in_app_iff. split.
    + intros (I & N). rewrite <- (firstn_skipn k w) in I. apply in_app_iff in I as [I|I]; [tauto|exact I].
    + intros I. assert (Iw : In y w) by (rewrite <- (firstn_skipn k w); apply in_app_iff; right; exact I).
      split; [exact Iw|]. intros [J|[<-|[]]]; [|tauto].
      clear - ND2 I J. induction (firstn k w) as [|x l IH]; [destruct J|].
      cbn [app] in ND2. inversion ND2; subst. destruct J as [->|J]; [|auto].
      apply H1. apply in_app_iff. right. exact I.
Qed.

Lemma first_of_nat n l : first_of (Z.of_nat n) l = firstn n l.
Proof. unfold first_of. rewrite (proj2 (Z.ltb_ge (Z.of_nat n) 0)) by lia. rewrite Nat2Z.id. reflexivity. Qed.

Section Kept.
Set Default Proof Using "All".
Variable shuffle : nat -> list Z -> list Z.
Variables T n_skip : nat.
Variable i_eval : Z.

Lemma kept_spec call : shuffles shuffle -> (0 <= i_eval < Z.of_nat T)%Z ->
  let l := kept shuffle T (Z.of_nat n_skip) i_eval call in
  StronglySorted Z.lt l /\ length l = T - 1 - n_skip /\
  Forall (fun z => (0 <= z < Z.of_nat T)%Z /\ z <> i_eval) l.
Proof.
  intros SH HE. cbv zeta. unfold kept.
  set (v := filter (fun j => negb (j =? i_eval)%Z) (map Z.of_nat (seq 0 T))).
  set (w := shuffle call v). assert (P : Permutation v w) by apply SH.
  assert (NDm : NoDup (map Z.of_nat (seq 0 T))).
  { apply FinFun.Injective_map_NoDup; [intros a b; lia|apply seq_NoDup]. }
  assert (ND : NoDup v) by apply NoDup_filter, NDm.
  assert (IV : forall z, In z v <-> (0 <= z < Z.of_nat T)%Z /\ z <> i_eval).
  { intros z. unfold v. rewrite filter_In, in_map_iff. split.
    - intros ((n & <- & I) & H). apply in_seq in I. split; [lia|]. intros Q. rewrite Q, Z.eqb_refl in H. discriminate.
    - intros (H1 & H2). split.
      + exists (Z.to_nat z). split; [lia|]. apply in_seq. lia.
      + rewrite (proj2 (Z.eqb_neq z i_eval) H2). reflexivity. }
  assert (LV : length v = T - 1).
  { assert (PE : Permutation (map Z.of_nat (seq 0 T)) (i_eval :: v)).
    { apply NoDup_Permutation; [exact NDm|constructor; [rewrite IV; tauto|exact ND]|].
      intros z. cbn [In]. rewrite IV, in_map_iff. split.
      - intros (n & <- & I). apply in_seq in I. destruct (Z.eq_dec i_eval (Z.of_nat n)) as [D|D]; [left; exact D|right; lia].
      - intros [<-|H]; [exists (Z.to_nat i_eval)|exists (Z.to_nat z)]; (split; [lia|apply in_seq; lia]). }
    apply Permutation_length in PE. cbn [length] in PE. rewrite map_length, seq_length in PE. lia. }
  assert (NDw : NoDup w) by (eapply Permutation_NoDup; eauto).
  rewrite first_of_nat. destruct (setdiff_spec w (firstn n_skip w ++ [i_eval])) as (S1 & S2). split; [exact S1|]. split.
  - assert (PE : Permutation (setdiff1d w (firstn n_skip w ++ [i_eval])) (skipn n_skip w)).
    { apply setdiff_first; [exact NDw|]. intros I. apply (Permutation_in _ (Permutation_sym P)), IV in I. tauto. }
    rewrite (Permutation_length PE), skipn_length, <- (Permutation_length P), LV. reflexivity.
  - apply Forall_forall. intros z I. apply S2 in I as (I & _). apply (Permutation_in z (Permutation_sym P)) in I.
    apply IV, I.
Qed.
End Kept.

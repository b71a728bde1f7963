(** Proofs about the masked autoencoder and the training step that uses it. *)
From Coq Require Import List Arith ZArith Bool Lia Permutation Sorting.Sorted.
From Verif Require Import Base Tensor TensorFacts AutoencoderModel AutoencoderSpec AutoencoderProofs.
Import ListNotations.

Lemma tdata_in {B} (t : tensor B) z : twf t -> In z (tdata t) -> exists i, valid_idx (tshape t) i /\ tget t i = Some z.
Proof.
  intros W I. apply In_nth_error in I as (r & E). destruct (ravel_onto (tshape t) r) as (i & Ei).
  - rewrite <- W. apply (nth_error_lt _ _ _ E).
  - exists i. split; [eapply ravel_some_valid; eauto|]. unfold tget. rewrite Ei. exact E.
Qed.

Lemma valid3 a b c i : valid_idx [a; b; c] i <-> exists x y z, i = [x; y; z] /\ x < a /\ y < b /\ z < c.
Proof.
  split.
  - destruct i as [|x [|y [|z [|]]]]; cbn; intros H; try tauto. exists x, y, z. tauto.
  - intros (x & y & z & -> & H). cbn. tauto.
Qed.

Lemma view_z_eq {B} (l : list B) s : Forall (fun z => (0 <= z)%Z) s -> length l = prod (map Z.to_nat s) ->
  view_z l s = Ok (mkT (map Z.to_nat s) l).
Proof.
  intros F E. unfold view_z. replace (forallb (fun z => (0 <=? z)%Z) s) with true; [apply tview_eq, E|].
  symmetry. apply forallb_forall. intros z I. rewrite Forall_forall in F. apply Z.leb_le, F, I.
Qed.

Section Masked.
Set Default Proof Using "All".
Context {A : Type}.
Variable value : nat -> tensor A -> list nat -> A.
Variable sub : A -> A -> A.
Variable blk : tensor A -> result (tensor A).
Variable shuffle : nat -> list Z -> list Z.
Variables n_filt d T n_skip : nat.
Variable i_eval : Z.

Lemma cat_rows_ok (f : nat -> list Z) N m : 0 < N -> (forall n, length (f n) = m) ->
  exists idx, cat_rows d (map f (seq 0 N)) = Ok idx /\ twf idx /\ tshape idx = [N; m; d] /\
    forall n j k, n < N -> j < m -> k < d -> tget idx [n; j; k] = nth_error (f n) j.
Proof.
  intros HN L. set (rows := map f (seq 0 N)).
  set (src := fun i => match i with
     | [n; j; _] => match nth_error rows n with Some r => nth_error r j | None => None end | _ => None end).
  assert (NR : forall n, n < N -> nth_error rows n = Some (f n)).
  { intros n Hn. unfold rows. rewrite nth_error_map, nth_error_seq by exact Hn. reflexivity. }
  assert (TOT : forall i, valid_idx [N; m; d] i -> src i <> None).
  { intros i V. apply valid3 in V as (x & y & z & -> & Hx & Hy & _). cbn [src]. rewrite NR by exact Hx.
    intros E. apply nth_error_None in E. rewrite L in E. lia. }
  exists (tgather [N; m; d] src). split; [|split; [apply tgather_wf, TOT|split; [reflexivity|]]].
  - unfold cat_rows. assert (LR : length rows = N) by (unfold rows; rewrite map_length, seq_length; reflexivity).
    fold rows. destruct rows as [|r0 rs] eqn:ER; [cbn in LR; lia|].
    assert (L0 : length r0 = m). { specialize (NR 0 HN). injection NR as ->. apply L. }
    rewrite L0, LR. rewrite (proj2 (forallb_forall _ _)); [reflexivity|].
    intros r I. assert (I' : In r (map f (seq 0 N))) by (fold rows; rewrite ER; exact I).
    apply in_map_iff in I' as (n & <- & _). rewrite L. apply Nat.eqb_refl.
  - intros n j k Hn Hj Hk. rewrite tget_gather; [|exact TOT|apply valid3; exists n, j, k; auto].
    cbn [src]. rewrite NR by exact Hn. reflexivity.
Qed.

Lemma gather1_ok (t : tensor A) idx a b c a' b' c' : twf t -> tshape t = [a; b; c] ->
  twf idx -> tshape idx = [a'; b'; c'] -> a' <= a -> c' <= c ->
  (forall n j k z, n < a' -> j < b' -> k < c' -> tget idx [n; j; k] = Some z -> (0 <= z < Z.of_nat b)%Z) ->
  exists g, gather1 t idx = Ok g /\ twf g /\ tshape g = [a'; b'; c'] /\
    forall n j k z, n < a' -> j < b' -> k < c' -> tget idx [n; j; k] = Some z ->
      tget g [n; j; k] = tget t [n; Z.to_nat z; k].
Proof.
  intros Wt St Wi Si Ha Hc R. unfold gather1. rewrite St, Si.
  rewrite (proj2 (Nat.leb_le a' a) Ha), (proj2 (Nat.leb_le c' c) Hc). cbn [andb].
  rewrite (proj2 (forallb_forall _ _)).
  2:{ intros z I. destruct (tdata_in idx z Wi I) as (i & V & E). rewrite Si in V.
      apply valid3 in V as (x & y & w & -> & Hx & Hy & Hw). specialize (R x y w z Hx Hy Hw E).
      apply andb_true_intro. split; [apply Z.leb_le|apply Z.ltb_lt]; lia. }
  set (src := fun i => match i with
      | [n; j; k] => match tget idx i with Some z => tget t [n; Z.to_nat z; k] | None => None end | _ => None end).
  assert (TOT : forall i, valid_idx [a'; b'; c'] i -> src i <> None).
  { intros i V. pose proof V as V'. apply valid3 in V as (x & y & w & -> & Hx & Hy & Hw). cbn [src].
    destruct (tget_valid idx [x; y; w] Wi) as (z & E); [rewrite Si; exact V'|]. rewrite E.
    specialize (R x y w z Hx Hy Hw E). destruct (tget_valid t [x; Z.to_nat z; w] Wt) as (v & Ev).
    - rewrite St. apply valid3. exists x, (Z.to_nat z), w. repeat split; lia.
    - rewrite Ev. discriminate. }
  exists (tgather [a'; b'; c'] src). split; [reflexivity|]. split; [apply tgather_wf, TOT|]. split; [reflexivity|].
  intros n j k z Hn Hj Hk E. rewrite tget_gather; [|exact TOT|apply valid3; exists n, j, k; auto].
  cbn [src]. rewrite E. reflexivity.
Qed.

(** The masked trajectories, for any number [m] of kept timepoints. *)
Lemma masked_ok zs out N m : twf out -> tshape out = [N; T; d] -> 0 < N ->
  (forall n, length (kept shuffle T zs i_eval n) = m /\ Forall (fun z => (0 <= z < Z.of_nat T)%Z) (kept shuffle T zs i_eval n)) ->
  exists idx g, generate_selection_indices (A:=A) shuffle d T zs i_eval out = Ok idx /\
    gather1 out idx = Ok g /\ twf idx /\ tshape idx = [N; m; d] /\ twf g /\ tshape g = [N; m; d] /\
    (forall n j k, n < N -> j < m -> k < d -> tget idx [n; j; k] = nth_error (kept shuffle T zs i_eval n) j) /\
    (forall n j k z, n < N -> j < m -> k < d -> nth_error (kept shuffle T zs i_eval n) j = Some z ->
       tget g [n; j; k] = tget out [n; Z.to_nat z; k]).
Proof.
  intros W S HN HK. destruct (cat_rows_ok (kept shuffle T zs i_eval) N m HN (fun n => proj1 (HK n))) as (idx & E & Wi & Si & GI).
  destruct (gather1_ok out idx N T d N m d W S Wi Si (le_n _) (le_n _)) as (g & Eg & Wg & Sg & GG).
  { intros n j k z Hn Hj Hk Ez. rewrite GI in Ez by assumption. apply nth_error_In in Ez.
    destruct (HK n) as (_ & F). rewrite Forall_forall in F. apply F, Ez. }
  exists idx, g. unfold generate_selection_indices. rewrite S. repeat (split; [assumption|]).
  intros n j k z Hn Hj Hk Ez. apply GG; auto. rewrite GI; auto.
Qed.

Notation K := (kept shuffle T (Z.of_nat n_skip) i_eval).
Hypothesis SH : shuffles shuffle.

Section Valid.
Hypothesis HE : (0 <= i_eval < Z.of_nat T)%Z.
Hypothesis HS : n_skip + 1 < T.
Let m := T - 1 - n_skip.

Lemma kept_all n : length (K n) = m /\ Forall (fun z => (0 <= z < Z.of_nat T)%Z) (K n).
Proof.
  destruct (kept_spec shuffle T n_skip i_eval n SH HE) as (_ & L & F). split; [exact L|].
  eapply Forall_impl; [|exact F]. cbn. tauto.
Qed.

Lemma nr_kept_m : nr_kept T (Z.of_nat n_skip) = Z.of_nat m.
Proof. unfold nr_kept, m. lia. Qed.

Lemma forward_masked_ok x N h w : block_gives blk d T N -> tshape x = [N; 1; h; w] ->
  2 <= N -> 2 <= d -> 0 < n_filt -> 0 < h -> 0 < w -> (h + 7) / 8 * ((w + 7) / 8) = 16 ->
  exists e enc u b idx g s D r, encoder value n_filt 1 x = Ok e /\ fc1 value n_filt d e = Ok enc /\
    (forall n k, n < N -> k < d -> tget u [n; 0; k] = tget enc [n; k]) /\
    blk u = Ok b /\
    forward_masked value blk shuffle n_filt d T (Z.of_nat n_skip) i_eval x true = Ok (g, Some idx, r) /\
    twf idx /\ tshape idx = [N; m; d] /\ tshape g = [N; m; d] /\ twf r /\ tshape r = [N; m; 1; 28; 28] /\
    (forall n j k, n < N -> j < m -> k < d -> tget idx [n; j; k] = nth_error (K n) j) /\
    (forall n j k z, n < N -> j < m -> k < d -> nth_error (K n) j = Some z ->
       tget g [n; j; k] = tget b [Z.to_nat z; n; 0; k]) /\
    decode value n_filt d s = Ok D /\ tshape s = [N * m; d] /\
    (forall n j k, n < N -> j < m -> tget s [n * m + j; k] = tget g [n; j; k]) /\
    (forall n j a c, n < N -> j < m -> tget r [n; j; 0; a; c] = tget D [n * m + j; 0; a; c]).
Proof.
  intros B S HN Hd Hf Hh Hw E.
  destruct (trajectories_ok value blk n_filt d T 1 x N h w B S HN ltac:(lia) Hd Hf Hh Hw E)
    as (e & enc & u & b & out & E1 & E2 & Se & Su & U & Eb & Sb & ET & Wo & So & O).
  destruct (masked_ok (Z.of_nat n_skip) out N m Wo So ltac:(lia) kept_all) as (idx & g & EI & EG & Wi & Si & Wg & Sg & GI & GG).
  destruct (decode_frames value n_filt d g N m Wg Sg ltac:(lia) ltac:(unfold m; lia) Hf)
    as (D & ED & V1 & V2 & SD & WD & R1 & R2).
  exists e, enc, u, b, idx, g, (mkT [N * m; d] (tdata g)), D, (mkT [N; m; 1; 28; 28] (tdata D)).
  assert (F1 : view_z (tdata g) [(Z.of_nat N * nr_kept T (Z.of_nat n_skip))%Z; Z.of_nat d] = Ok (mkT [N * m; d] (tdata g))).
  { unfold view_z. rewrite nr_kept_m. replace (forallb _ _) with true by (symmetry; apply forallb_forall; intros z I;
      apply Z.leb_le; cbn [In] in I; lia). cbn [map]. rewrite <- Nat2Z.inj_mul, !Nat2Z.id. exact V1. }
  assert (F2 : view_z (tdata D) [Z.of_nat N; nr_kept T (Z.of_nat n_skip); 1; 28; 28]%Z = Ok (mkT [N; m; 1; 28; 28] (tdata D))).
  { unfold view_z. rewrite nr_kept_m. replace (forallb _ _) with true by (symmetry; apply forallb_forall; intros z I;
      apply Z.leb_le; cbn [In] in I; lia). cbn [map]. rewrite !Nat2Z.id. exact V2. }
  repeat (split; [assumption|]). split.
  { unfold forward_masked. rewrite S, ET. cbn [bind]. rewrite EI. cbn [bind]. rewrite EG. cbn [bind].
    rewrite F1. cbn [bind]. rewrite ED. cbn [bind]. rewrite F2. reflexivity. }
  repeat (split; [first [assumption|reflexivity]|]). split.
  { intros n j k z Hn Hj Hk Ez. rewrite (GG n j k z Hn Hj Hk Ez). apply O; auto.
    destruct (kept_all n) as (_ & F). rewrite Forall_forall in F. specialize (F z (nth_error_In _ _ Ez)). lia. }
  split; [exact ED|]. split; [reflexivity|]. split; [exact R1|exact R2].
Qed.

Lemma first_frame_ok (inp : tensor A) N : twf inp -> tshape inp = [N; T; 1; 28; 28] ->
  exists x, first_frame inp = Ok x /\ tshape x = [N; 1; 28; 28] /\
    (forall n i j, n < N -> i < 28 -> j < 28 -> tget x [n; 0; i; j] = tget inp [n; 0; 0; i; j]).
Proof.
  intros W S. unfold first_frame. rewrite S. rewrite (proj2 (Nat.ltb_lt 0 T)) by lia.
  eexists. split; [reflexivity|]. split; [reflexivity|]. intros n i j Hn Hi Hj.
  rewrite tget_gather; [reflexivity| |cbn [valid_idx]; lia].
  intros v V. destruct v as [|a v]; [destruct V|]. destruct V as (Va & V).
  destruct (tget_valid inp (a :: 0 :: v) W) as (q & Eq); [|rewrite Eq; discriminate].
  rewrite S. change (a < N /\ 0 < T /\ valid_idx [1; 28; 28] v). split; [exact Va|]. split; [lia|exact V].
Qed.

Lemma frame_indices_ok (idx : tensor Z) N p : twf idx -> tshape idx = [N; m; d] -> 0 < d ->
  exists f, frame_indices T (Z.of_nat n_skip) idx N p = Ok f /\ twf f /\ tshape f = [N; m; p] /\
    forall n j k, n < N -> j < m -> k < p -> tget f [n; j; k] = tget idx [n; j; 0].
Proof.
  intros W S Hd. unfold frame_indices. rewrite S, (proj2 (Nat.ltb_lt 0 d) Hd).
  set (src := fun i => match i with [x; y] => tget idx [x; y; 0] | _ => None end).
  assert (TOT : forall i, valid_idx [N; m] i -> src i <> None).
  { intros [|x [|y [|]]] V; cbn [valid_idx] in V; try tauto. cbn [src].
    destruct (tget_valid idx [x; y; 0] W) as (q & Eq); [|rewrite Eq; discriminate].
    rewrite S. cbn [valid_idx]. tauto. }
  pose proof (tgather_wf [N; m] src TOT) as WF. set (f := tgather [N; m] src) in *.
  assert (Sf : tshape f = [N; m]) by reflexivity.
  assert (V1 : view_z (tdata f) [Z.of_nat N; nr_kept T (Z.of_nat n_skip); 1%Z] = Ok (mkT [N; m; 1] (tdata f))).
  { rewrite nr_kept_m. rewrite view_z_eq.
    - cbn [map]. rewrite !Nat2Z.id. reflexivity.
    - repeat constructor; lia.
    - cbn [map]. rewrite !Nat2Z.id. unfold twf in WF. rewrite WF, Sf, !prod_cons. change (Z.to_nat 1) with 1. ring. }
  rewrite V1. cbn [bind]. rewrite nr_kept_m, Nat2Z.id.
  assert (GF : forall n j, n < N -> j < m -> tget (mkT [N; m; 1] (tdata f)) [n; j; 0] = tget idx [n; j; 0]).
  { intros n j Hn Hj. transitivity (tget f [n; j]).
    - rewrite (tget_eta f), Sf. apply tget_data. apply ravel_cons; [rewrite !prod_cons; ring|].
      apply ravel_cons; [rewrite !prod_cons; ring|]. apply ravel_one.
    - unfold f. rewrite tget_gather; [reflexivity|exact TOT|cbn; tauto]. }
  set (src2 := fun i => match i with [x; y; _] => tget (mkT [N; m; 1] (tdata f)) [x; y; 0] | _ => None end).
  assert (TOT2 : forall i, valid_idx [N; m; p] i -> src2 i <> None).
  { intros i V. apply valid3 in V as (x & y & z & -> & Hx & Hy & Hz). cbn [src2]. rewrite GF by assumption.
    destruct (tget_valid idx [x; y; 0] W) as (q & Eq); [|rewrite Eq; discriminate].
    rewrite S. apply valid3. exists x, y, 0. auto. }
  exists (tgather [N; m; p] src2). split; [reflexivity|]. split; [apply tgather_wf, TOT2|]. split; [reflexivity|].
  intros n j k Hn Hj Hk. rewrite tget_gather; [|exact TOT2|apply valid3; exists n, j, k; auto]. apply GF; assumption.
Qed.

Lemma tsub_get (a b : tensor A) i x y : tshape a = tshape b -> tget a i = Some x -> tget b i = Some y ->
  exists c, tsub sub a b = Ok c /\ tshape c = tshape a /\ tget c i = Some (sub x y).
Proof.
  intros S E1 E2. unfold tsub. rewrite S, (proj2 (eqb_list_eq (tshape b) (tshape b)) eq_refl).
  eexists. split; [reflexivity|]. split; [exact (eq_sym eq_refl)|]. unfold tget in *. cbn [tshape tdata]. rewrite S in E1.
  destruct (ravel (tshape b) i) as [r|]; [|discriminate]. rewrite nth_error_map.
  assert (C : forall l1 l2 r (p q : A), nth_error l1 r = Some p -> nth_error l2 r = Some q -> nth_error (combine l1 l2) r = Some (p, q)).
  { induction l1 as [|p l1 IH]; intros [|q l2] [|r'] p' q' H1 H2; try discriminate; cbn in *; [congruence|]. apply IH; assumption. }
  rewrite (C _ _ _ _ _ E1 E2). reflexivity.
Qed.

Lemma frame_position N M (t : list A) n j i c : i < 28 -> c < 28 ->
  tget (mkT [N; M; 28 * 28] t) [n; j; i * 28 + c] = tget (mkT [N; M; 1; 28; 28] t) [n; j; 0; i; c].
Proof.
  intros Hi Hc. apply tget_data. apply ravel_cons; [reflexivity|]. apply ravel_cons; [reflexivity|].
  rewrite ravel_one. apply ravel_merge; assumption.
Qed.

(** The differences of the training step compare like with like. *)
Lemma train_differences_ok (inp : tensor A) N : block_gives blk d T N -> twf inp -> tshape inp = [N; T; 1; 28; 28] ->
  2 <= N -> 2 <= d -> 0 < n_filt ->
  exists x e enc u b s D diff, first_frame inp = Ok x /\
    (forall n i j, n < N -> i < 28 -> j < 28 -> tget x [n; 0; i; j] = tget inp [n; 0; 0; i; j]) /\
    encoder value n_filt 1 x = Ok e /\ fc1 value n_filt d e = Ok enc /\
    (forall n k, n < N -> k < d -> tget u [n; 0; k] = tget enc [n; k]) /\ blk u = Ok b /\
    decode value n_filt d s = Ok D /\
    train_differences value sub blk shuffle n_filt d T (Z.of_nat n_skip) i_eval inp = Ok diff /\
    tshape diff = [N; T - 1 - n_skip; 28 * 28] /\
    forall n, n < N -> exists ts : list nat, StronglySorted lt ts /\ length ts = T - 1 - n_skip /\
      Forall (fun t => t < T /\ Z.of_nat t <> i_eval) ts /\
      forall j t, nth_error ts j = Some t ->
        (forall k, k < d -> tget s [n * (T - 1 - n_skip) + j; k] = tget b [t; n; 0; k]) /\
        (forall i c, i < 28 -> c < 28 -> exists p q, tget inp [n; t; 0; i; c] = Some p /\
           tget D [n * (T - 1 - n_skip) + j; 0; i; c] = Some q /\
           tget diff [n; j; i * 28 + c] = Some (sub p q)).
Proof.
  intros B W S HN Hd Hf. fold m. destruct (first_frame_ok inp N W S) as (x & Ex & Sx & GX).
  destruct (forward_masked_ok x N 28 28 B Sx HN Hd Hf ltac:(lia) ltac:(lia) eq_refl)
    as (e & enc & u & b & idx & g & s & D & r & E1 & E2 & U & Eb & EF & Wi & Si & Sg & Wr & Sr & GI & GG & ED & Ss & Gs & Gr).
  destruct (frame_indices_ok idx N (28 * 28) Wi Si ltac:(lia)) as (f & Ef & Wf & Sf & Gf).
  set (inp2 := mkT [N; T; 28 * 28] (tdata inp)).
  assert (W2 : twf inp2). { unfold inp2, twf in *. cbn [tshape tdata]. rewrite W, S, !prod_cons. ring. }
  assert (Gf' : forall n j k, n < N -> j < m -> k < 28 * 28 -> tget f [n; j; k] = nth_error (K n) j).
  { intros n j k Hn Hj Hk. rewrite Gf by assumption. apply GI; lia. }
  destruct (gather1_ok inp2 f N T (28 * 28) N m (28 * 28) W2 eq_refl Wf Sf (le_n _) (le_n _)) as (y & Ey & Wy & Sy & Gy).
  { intros n j k z Hn Hj Hk Ez. rewrite Gf' in Ez by assumption. apply nth_error_In in Ez.
    destruct (kept_all n) as (_ & F). rewrite Forall_forall in F. apply F, Ez. }
  set (o := mkT [N; m; 28 * 28] (tdata r)).
  assert (Wo : twf o). { unfold o, twf in *. cbn [tshape tdata]. rewrite Wr, Sr, !prod_cons. ring. }
  assert (ES : exists diff, tsub sub y o = Ok diff /\ tshape diff = tshape y).
  { unfold tsub. replace (eqb_list (tshape y) (tshape o)) with true by (symmetry; apply eqb_list_eq; rewrite Sy; reflexivity).
    eexists. split; reflexivity. }
  destruct ES as (diff & ES & Sdiff).
  exists x, e, enc, u, b, s, D, diff. repeat (split; [assumption|]). split.
  { unfold train_differences. rewrite S, Ex. cbn [bind]. rewrite EF. cbn [bind]. rewrite Ef. cbn [bind].
    rewrite tview_eq by (unfold twf in W; rewrite W, S, !prod_cons; ring). cbn [bind]. fold inp2. rewrite Ey. cbn [bind].
    rewrite Sr. rewrite tview_eq by (unfold twf in Wr; rewrite Wr, Sr, !prod_cons; ring). cbn [bind]. exact ES. }
  split; [rewrite Sdiff; exact Sy|]. intros n Hn.
  destruct (kept_spec shuffle T n_skip i_eval n SH HE) as (KS & KL & KF).
  exists (map Z.to_nat (K n)). split; [|split; [rewrite map_length; exact KL|split]].
  - clear - KS KF. induction KS as [|z l Sl IH F]; cbn [map]; [constructor|]. inversion KF as [|? ? K1 K2]; subst.
    constructor; [apply IH, K2|]. rewrite Forall_forall in F, K2 |- *. intros y I. apply in_map_iff in I as (v & <- & I).
    specialize (F v I). lia.
  - apply Forall_forall. intros t I. apply in_map_iff in I as (z & <- & I). rewrite Forall_forall in KF.
    specialize (KF z I). split; lia.
  - intros j t Et. rewrite nth_error_map in Et. destruct (nth_error (K n) j) as [z|] eqn:Ez; [|discriminate].
    injection Et as <-. assert (Hj : j < m) by (unfold m; rewrite <- KL; apply (nth_error_lt _ _ _ Ez)).
    assert (Hz : (0 <= z < Z.of_nat T)%Z).
    { rewrite Forall_forall in KF. apply (KF z (nth_error_In _ _ Ez)). }
    split.
    + intros k Hk. rewrite Gs by assumption. apply GG; assumption.
    + intros i c Hi Hc. assert (P : i * 28 + c < 28 * 28) by nia.
      destruct (tget_valid inp [n; Z.to_nat z; 0; i; c] W) as (p & Ep).
      { rewrite S. cbn [valid_idx]. lia. }
      destruct (tget_valid r [n; j; 0; i; c] Wr) as (q & Eq).
      { rewrite Sr. cbn [valid_idx]. lia. }
      exists p, q. split; [exact Ep|]. split; [rewrite <- Gr by assumption; exact Eq|].
      assert (Y : tget y [n; j; i * 28 + c] = Some p).
      { rewrite (Gy n j _ z Hn Hj P) by (rewrite Gf' by assumption; exact Ez). unfold inp2.
        rewrite frame_position by assumption. rewrite <- S, <- tget_eta. exact Ep. }
      assert (O : tget o [n; j; i * 28 + c] = Some q).
      { unfold o. rewrite frame_position by assumption. rewrite <- Sr, <- tget_eta. exact Eq. }
      destruct (tsub_get y o _ p q ltac:(rewrite Sy; reflexivity) Y O) as (diff' & ED' & _ & G'). congruence.
Qed.
End Valid.

(** ** Settings that cannot work *)
Lemma forward_masked_bad x N h w : block_gives blk d T N -> tshape x = [N; 1; h; w] ->
  2 <= N -> 2 <= T -> 2 <= d -> 0 < n_filt -> 0 < h -> 0 < w -> (h + 7) / 8 * ((w + 7) / 8) = 16 ->
  ~ (0 <= i_eval < Z.of_nat T)%Z ->
  forward_masked value blk shuffle n_filt d T (Z.of_nat n_skip) i_eval x true = Raise RuntimeError.
Proof.
  intros B S HN HT Hd Hf Hh Hw E NE.
  destruct (trajectories_ok value blk n_filt d T 1 x N h w B S HN HT Hd Hf Hh Hw E)
    as (e & enc & u & b & out & E1 & E2 & Se & Su & U & Eb & Sb & ET & Wo & So & O).
  assert (HK : forall n, length (K n) = T - n_skip /\ Forall (fun z => (0 <= z < Z.of_nat T)%Z) (K n)).
  { intros n. unfold kept.
    assert (V : filter (fun j => negb (j =? i_eval)%Z) (map Z.of_nat (seq 0 T)) = map Z.of_nat (seq 0 T)).
    { assert (G : forall l, Forall (fun z => z <> i_eval) l -> filter (fun j => negb (j =? i_eval)%Z) l = l).
      { induction l as [|z l IH]; intros F; [reflexivity|]. inversion F; subst. cbn [filter].
        rewrite (proj2 (Z.eqb_neq z i_eval)) by assumption. cbn [negb]. rewrite IH by assumption. reflexivity. }
      apply G, Forall_forall. intros z I Q. apply in_map_iff in I as (k & <- & I). apply in_seq in I. lia. }
    rewrite V. clear V. set (v := map Z.of_nat (seq 0 T)). set (w0 := shuffle n v).
    assert (P : Permutation v w0) by apply SH.
    assert (ND : NoDup w0).
    { eapply Permutation_NoDup; [exact P|]. apply FinFun.Injective_map_NoDup; [intros a c; lia|apply seq_NoDup]. }
    assert (IV : forall z, In z w0 -> (0 <= z < Z.of_nat T)%Z).
    { intros z I. apply (Permutation_in z (Permutation_sym P)) in I. apply in_map_iff in I as (k & <- & I). apply in_seq in I. lia. }
    rewrite first_of_nat. destruct (setdiff_spec w0 (firstn n_skip w0 ++ [i_eval])) as (S1 & S2). split.
    - assert (PE : Permutation (setdiff1d w0 (firstn n_skip w0 ++ [i_eval])) (skipn n_skip w0)).
      { apply setdiff_first; [exact ND|]. intros I. apply IV in I. tauto. }
      rewrite (Permutation_length PE), skipn_length, <- (Permutation_length P). unfold v. rewrite map_length, seq_length. reflexivity.
    - apply Forall_forall. intros z I. apply IV. apply S2 in I. tauto. }
  destruct (masked_ok (Z.of_nat n_skip) out N (T - n_skip) Wo So ltac:(lia) HK) as (idx & g & EI & EG & Wi & Si & Wg & Sg & _).
  unfold forward_masked. rewrite S, ET. cbn [bind]. rewrite EI. cbn [bind]. rewrite EG. cbn [bind].
  replace (view_z (tdata g) [(Z.of_nat N * nr_kept T (Z.of_nat n_skip))%Z; Z.of_nat d]) with (@Raise (tensor A) RuntimeError); [reflexivity|].
  symmetry. unfold view_z. cbn [forallb]. destruct (Z.leb_spec 0 (Z.of_nat N * nr_kept T (Z.of_nat n_skip))) as [P|P]; [|reflexivity].
  rewrite (proj2 (Z.leb_le 0 (Z.of_nat d))) by lia. cbn [andb map]. apply tview_ne.
  unfold twf in Wg. rewrite Wg, Sg, !prod_cons, prod_nil, Nat2Z.id. unfold nr_kept in *.
  assert (Q : n_skip + 1 <= T) by nia.
  replace (Z.to_nat (Z.of_nat N * (Z.of_nat T - (Z.of_nat n_skip + 1)))) with (N * (T - n_skip - 1)) by nia. nia.
Qed.

Lemma forward_masked_none x N h w : block_gives blk d T N -> tshape x = [N; 1; h; w] ->
  2 <= N -> 2 <= T -> 2 <= d -> 0 < n_filt -> 0 < h -> 0 < w -> (h + 7) / 8 * ((w + 7) / 8) = 16 ->
  (0 <= i_eval < Z.of_nat T)%Z -> T <= n_skip + 1 ->
  exists e, forward_masked value blk shuffle n_filt d T (Z.of_nat n_skip) i_eval x true = Raise e.
Proof.
  intros B S HN HT Hd Hf Hh Hw E HE HS.
  destruct (trajectories_ok value blk n_filt d T 1 x N h w B S HN HT Hd Hf Hh Hw E)
    as (e & enc & u & b & out & E1 & E2 & Se & Su & U & Eb & Sb & ET & Wo & So & O).
  assert (HK : forall n, length (K n) = 0 /\ Forall (fun z => (0 <= z < Z.of_nat T)%Z) (K n)).
  { intros n. destruct (kept_spec shuffle T n_skip i_eval n SH HE) as (_ & L & F). split; [lia|].
    eapply Forall_impl; [|exact F]. cbn. tauto. }
  destruct (masked_ok (Z.of_nat n_skip) out N 0 Wo So ltac:(lia) HK) as (idx & g & EI & EG & Wi & Si & Wg & Sg & _).
  unfold forward_masked. rewrite S, ET. cbn [bind]. rewrite EI. cbn [bind]. rewrite EG. cbn [bind].
  destruct (view_z (tdata g) [(Z.of_nat N * nr_kept T (Z.of_nat n_skip))%Z; Z.of_nat d]) as [v|ex] eqn:EV; [|exists ex; reflexivity].
  cbn [bind]. unfold view_z in EV. destruct (forallb _ _) eqn:FB; [|discriminate].
  cbn [forallb] in FB. apply andb_prop in FB as (FB & _). apply Z.leb_le in FB.
  assert (Z0 : (Z.of_nat N * nr_kept T (Z.of_nat n_skip) = 0)%Z) by (unfold nr_kept in *; nia).
  rewrite Z0 in EV. unfold tview in EV. destruct (_ =? _); [|discriminate]. injection EV as <-.
  cbn [map]. rewrite Nat2Z.id. unfold decode, fc2, linear. cbn [tshape Z.to_nat]. rewrite Nat.eqb_refl. cbn [bind].
  exists IndexError. reflexivity.
Qed.

Lemma forward_masked_negative zs x N h w : block_gives blk d T N -> tshape x = [N; 1; h; w] ->
  2 <= N -> 2 <= T -> 2 <= d -> 0 < n_filt -> 0 < h -> 0 < w -> (h + 7) / 8 * ((w + 7) / 8) = 16 -> (zs < 0)%Z ->
  forward_masked value blk shuffle n_filt d T zs i_eval x true = Raise RuntimeError.
Proof.
  intros B S HN HT Hd Hf Hh Hw E Hz.
  destruct (trajectories_ok value blk n_filt d T 1 x N h w B S HN HT Hd Hf Hh Hw E)
    as (e & enc & u & b & out & E1 & E2 & Se & Su & U & Eb & Sb & ET & Wo & So & O).
  set (v := filter (fun j => negb (j =? i_eval)%Z) (map Z.of_nat (seq 0 T))).
  set (m := length v - Z.to_nat (Z.of_nat (length v) + zs)).
  assert (HK : forall n, length (kept shuffle T zs i_eval n) = m /\
                 Forall (fun z => (0 <= z < Z.of_nat T)%Z) (kept shuffle T zs i_eval n)).
  { intros n. unfold kept. fold v. set (w0 := shuffle n v).
    assert (P : Permutation v w0) by apply SH.
    assert (ND : NoDup w0).
    { eapply Permutation_NoDup; [exact P|]. apply NoDup_filter. apply FinFun.Injective_map_NoDup; [intros a c; lia|apply seq_NoDup]. }
    assert (IV : forall z, In z w0 -> (0 <= z < Z.of_nat T)%Z /\ z <> i_eval).
    { intros z I. apply (Permutation_in z (Permutation_sym P)) in I. apply filter_In in I as (I & Q).
      apply in_map_iff in I as (k & <- & I). apply in_seq in I. split; [lia|]. intros R. rewrite R, Z.eqb_refl in Q. discriminate. }
    unfold first_of. rewrite (proj2 (Z.ltb_lt zs 0) Hz).
    set (k := Z.to_nat (Z.of_nat (length w0) + zs)).
    destruct (setdiff_spec w0 (firstn k w0 ++ [i_eval])) as (S1 & S2). split.
    - assert (PE : Permutation (setdiff1d w0 (firstn k w0 ++ [i_eval])) (skipn k w0)).
      { apply setdiff_first; [exact ND|]. intros I. apply IV in I. tauto. }
      rewrite (Permutation_length PE), skipn_length. unfold k. rewrite <- (Permutation_length P). reflexivity.
    - apply Forall_forall. intros z I. apply IV. apply S2 in I. tauto. }
  destruct (masked_ok zs out N m Wo So ltac:(lia) HK) as (idx & g & EI & EG & Wi & Si & Wg & Sg & _).
  unfold forward_masked. rewrite S, ET. cbn [bind]. rewrite EI. cbn [bind]. rewrite EG. cbn [bind].
  replace (view_z (tdata g) [(Z.of_nat N * nr_kept T zs)%Z; Z.of_nat d]) with (@Raise (tensor A) RuntimeError); [reflexivity|].
  symmetry. unfold view_z. cbn [forallb]. destruct (Z.leb_spec 0 (Z.of_nat N * nr_kept T zs)) as [P|P]; [|reflexivity].
  rewrite (proj2 (Z.leb_le 0 (Z.of_nat d))) by lia. cbn [andb map]. apply tview_ne.
  unfold twf in Wg. rewrite Wg, Sg, !prod_cons, prod_nil, Nat2Z.id. unfold nr_kept in *.
  assert (Q : m <= Z.to_nat (- zs)) by (unfold m; lia).
  replace (Z.to_nat (Z.of_nat N * (Z.of_nat T - (zs + 1)))) with (N * (T + Z.to_nat (- zs) - 1)).
  2: { rewrite Z2Nat.inj_mul by lia. rewrite Nat2Z.id. f_equal. lia. }
  clear - HN HT Hd Q. nia.
Qed.
End Masked.

Lemma train_single {A : Type} (value : nat -> tensor A -> list nat -> A) sub blk shuffle n_filt d T n_skip i_eval (inp : tensor A) N : block_gives blk d T N -> tshape inp = [N; T; 1; 28; 28] ->
  0 < N -> 0 < T -> T = 1 \/ N = 1 \/ d = 1 -> 0 < n_filt ->
  train_differences value sub blk shuffle n_filt d T n_skip i_eval inp = Raise RuntimeError.
Proof.
  intros B S HN HT H1 Hf. unfold train_differences, first_frame. rewrite S. rewrite (proj2 (Nat.ltb_lt 0 T) HT). cbn [bind].
  unfold forward_masked. cbn [tgather tshape].
  match goal with |- context [trajectories _ _ _ _ 1 ?x] =>
    rewrite (trajectories_small value blk n_filt d T 1 x N 28 28 B eq_refl HN H1 Hf ltac:(lia) ltac:(lia) eq_refl) end.
  reflexivity.
Qed.

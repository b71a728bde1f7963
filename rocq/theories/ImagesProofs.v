(** Lemmas for the demos with images: array operations and the errors of [evaluate]. *)
From Coq Require Import List String ZArith QArith Qcanon Bool Lia Arith.
From Verif Require Import Base BaseFacts Tensor TensorFacts SchedulerModel LoopModel DataModel DataProofs ResNetProofs
  AutoencoderModel AutoencoderSpec AutoencoderProofs AutoencoderProofs2 ImagesModel ImagesSpec.
Import ListNotations.
Open Scope list_scope.
Open Scope nat_scope.

(** ** Arrays *)
Definition val (t : tensor Qc) (i : list nat) : Qc := match tget t i with Some x => x | None => 0%Qc end.

Lemma tdata_all (t : tensor Qc) : twf t -> tdata t = map (val t) (all_idx (tshape t)).
Proof.
  intros W. apply list_ext. intros p. destruct (Nat.lt_ge_cases p (prod (tshape t))) as [L|L].
  - destruct (ravel_onto _ _ L) as (idx & E). rewrite nth_error_map, (all_idx_ravel _ _ _ E). cbn [option_map].
    unfold val, tget. rewrite E. unfold twf in W. destruct (nth_error (tdata t) p) eqn:N; [reflexivity|].
    apply nth_error_None in N. lia.
  - rewrite (proj2 (nth_error_None _ _)) by (unfold twf in W; lia). symmetry. apply nth_error_None.
    rewrite map_length, all_idx_length. exact L.
Qed.

Lemma all_idx2 h w : all_idx [h; w] = map (fun p => [fst p; snd p]) (list_prod (seq 0 h) (seq 0 w)).
Proof.
  cbn [all_idx]. generalize (seq 0 h) as l. induction l as [|a l IH]; [reflexivity|].
  cbn [flat_map list_prod]. rewrite map_app, <- IH. f_equal. rewrite map_map. cbn [fst snd].
  generalize (seq 0 w) as m. induction m as [|b m IHm]; [reflexivity|]. cbn in *. rewrite IHm. reflexivity.
Qed.

Lemma bound_le n z : bound n z <= n.
Proof. unfold bound. destruct (Z.ltb_spec z 0); lia. Qed.

Lemma slice1_ok {A} lo hi (t : tensor A) a n r : twf t -> tshape t = a :: n :: r ->
  exists s, slice1 lo hi t = Ok s /\ twf s /\ tshape s = a :: (bound n hi - bound n lo) :: r /\
    forall x y z, x < a -> y < bound n hi - bound n lo -> valid_idx r z ->
      tget s (x :: y :: z) = tget t (x :: (y + bound n lo) :: z).
Proof.
  intros W S. unfold slice1. rewrite S.
  assert (H : forall idx, valid_idx (a :: (bound n hi - bound n lo) :: r) idx ->
    (match idx with x :: y :: z => tget t (x :: (y + bound n lo) :: z) | _ => None end) <> None).
  { intros [|x [|y z]] V; cbn [valid_idx] in V; try tauto. destruct V as (V1 & V2 & V3).
    destruct (tget_valid t (x :: (y + bound n lo) :: z) W) as (v & ->); [|discriminate].
    rewrite S. cbn [valid_idx]. pose proof (bound_le n hi). repeat split; try assumption. lia. }
  eexists. split; [reflexivity|]. split; [apply tgather_wf, H|]. split; [reflexivity|].
  intros x y z Hx Hy Hz. rewrite tget_gather; [reflexivity|exact H|]. cbn [valid_idx]. auto.
Qed.

Lemma item0_ok {A} n (t : tensor A) m r : twf t -> tshape t = m :: r -> n < m ->
  exists s, item0 n t = Ok s /\ twf s /\ tshape s = r /\ forall z, valid_idx r z -> tget s z = tget t (n :: z).
Proof.
  intros W S L. unfold item0. rewrite S, (proj2 (Nat.ltb_lt n m) L).
  assert (H : forall idx, valid_idx r idx -> tget t (n :: idx) <> None).
  { intros idx V. destruct (tget_valid t (n :: idx) W) as (v & ->); [|discriminate]. rewrite S. cbn [valid_idx]. auto. }
  eexists. split; [reflexivity|]. split; [apply tgather_wf, H|]. split; [reflexivity|].
  intros z V. rewrite tget_gather; [reflexivity|exact H|exact V].
Qed.

Lemma np_sub_ok (a b : tensor Qc) s : twf a -> twf b -> tshape a = s -> tshape b = s -> s <> [] ->
  exists e, np_sub a b = Ok e /\ twf e /\ tshape e = s /\
    forall i, valid_idx s i -> val e i = (val a i - val b i)%Qc.
Proof.
  intros Wa Wb Sa Sb N. destruct s as [|m r]; [contradiction|]. unfold np_sub. rewrite Sa, Sb.
  rewrite (proj2 (eqb_list_eq r r) eq_refl), Nat.eqb_refl. cbn [andb orb].
  replace (if m =? 1 then m else m) with m by (destruct (m =? 1); reflexivity).
  assert (Q : forall k, k < m -> (if m =? 1 then 0 else k) = k).
  { intros k Hk. destruct (Nat.eqb_spec m 1); lia. }
  assert (G : forall i, valid_idx (m :: r) i -> exists x y, tget a i = Some x /\ tget b i = Some y).
  { intros i V. destruct (tget_valid a i Wa) as (x & Ex); [rewrite Sa; exact V|].
    destruct (tget_valid b i Wb) as (y & Ey); [rewrite Sb; exact V|]. exists x, y. auto. }
  assert (H : forall i, valid_idx (m :: r) i -> exists x y, tget a i = Some x /\ tget b i = Some y /\
    (match i with
     | k :: j => match tget a ((if m =? 1 then 0 else k) :: j), tget b ((if m =? 1 then 0 else k) :: j) with
                 | Some p, Some q => Some (p - q)%Qc | _, _ => None end
     | [] => None end) = Some (x - y)%Qc).
  { intros [|k j] V; [destruct V|]. destruct (G _ V) as (x & y & Ex & Ey). exists x, y. split; [exact Ex|]. split; [exact Ey|].
    destruct V as (V & _). rewrite (Q k V), Ex, Ey. reflexivity. }
  eexists. split; [reflexivity|]. split.
  { apply tgather_wf. intros i V. destruct (H i V) as (x & y & _ & _ & E). rewrite E. discriminate. }
  split; [reflexivity|]. intros i V. destruct (H i V) as (x & y & Ex & Ey & E). unfold val. rewrite tget_gather; [rewrite E, Ex, Ey; reflexivity| |exact V].
  intros i' V'. destruct (H i' V') as (x' & y' & _ & _ & E'). rewrite E'. discriminate.
Qed.

(** ** Means *)
Lemma fold_fin l : forall q, fold_left num_add (map Fin l) (Fin q) = Fin (q + fold_right Qcplus 0 l)%Qc.
Proof.
  induction l as [|a l IH]; intros q; cbn [map fold_left fold_right]; [f_equal; ring|].
  cbn [num_add]. rewrite IH. f_equal. ring.
Qed.

Lemma np_mean_fin l : l <> [] -> np_mean (map Fin l) = Fin (mean l).
Proof.
  intros N. unfold np_mean. destruct (map Fin l) eqn:E; [destruct l; [contradiction|discriminate]|]. rewrite <- E.
  rewrite fold_fin, map_length. cbn [num_scale]. unfold mean, qnat. f_equal. unfold Qcdiv. ring.
Qed.

Lemma mean_square_frame (f : tensor Qc) h w : twf f -> tshape f = [S h; S w] ->
  mean_square (tdata f) = Fin (mean (map (fun ij => (val f [fst ij; snd ij] * val f [fst ij; snd ij])%Qc) (list_prod (seq 0 (S h)) (seq 0 (S w))))).
Proof.
  intros W E. unfold mean_square. rewrite (tdata_all f W), E, all_idx2, !map_map.
  rewrite <- (map_map (fun x => (val f [fst x; snd x] * val f [fst x; snd x])%Qc) Fin). apply np_mean_fin.
  discriminate.
Qed.

Lemma axis_errors_ok (t : tensor Qc) m h w : twf t -> tshape t = [m; S h; S w] ->
  axis_errors t = Ok (map (fun k => Fin (mean (map (fun ij => (val t [k; fst ij; snd ij] * val t [k; fst ij; snd ij])%Qc)
                                                   (list_prod (seq 0 (S h)) (seq 0 (S w)))))) (seq 0 m)).
Proof.
  intros W E. unfold axis_errors. rewrite E. apply mapM_ok. intros k K. apply in_seq in K.
  destruct (item0_ok k t m [S h; S w] W E ltac:(lia)) as (f & -> & Wf & Sf & G). cbn [bind].
  rewrite (mean_square_frame f h w Wf Sf). f_equal. f_equal. f_equal. apply map_ext_in. intros (i, j) I. apply in_prod_iff in I as (I & J).
  apply in_seq in I. apply in_seq in J. cbn [fst snd]. unfold val. rewrite G; [reflexivity|]. cbn [valid_idx]. lia.
Qed.

(** ** Images *)
Lemma images_squeeze X N T : images X N T -> N <> 1 -> T <> 1 ->
  twf (squeeze X) /\ tshape (squeeze X) = [N; T; 28; 28] /\
  forall n t i j, val (squeeze X) [n; t; i; j] = pixel X n t i j.
Proof.
  intros (W & E) N1 T1. apply Nat.eqb_neq in N1. apply Nat.eqb_neq in T1.
  assert (Q : tshape (squeeze X) = [N; T; 28; 28]).
  { unfold squeeze. cbn [tshape]. destruct E as [-> | ->]; cbn [filter]; rewrite N1, T1; reflexivity. }
  split; [|split; [exact Q|]].
  - unfold twf. rewrite Q. unfold twf in W. cbn [squeeze tdata]. rewrite W. destruct E as [-> | ->]; [reflexivity|]. rewrite !prod_cons. lia.
  - intros n t i j. unfold val, pixel. rewrite (tget_eta (squeeze X)), Q. cbn [squeeze tdata]. rewrite (tget_eta X).
    destruct E as [-> | ->]; [reflexivity|].
    rewrite (tget_data [N; T; 28; 28] [N; T; 1; 28; 28] (tdata X) [n; t; i; j] [n; t; 0; i; j]); [reflexivity|].
    apply ravel_cons; [rewrite !prod_cons; lia|]. apply ravel_cons; [rewrite !prod_cons; lia|]. symmetry. apply ravel_one.
Qed.

Lemma images_slice X N T lo hi : images X N T -> exists Y, slice1 lo hi X = Ok Y /\ images Y N (bound T hi - bound T lo) /\
  forall n t i j, n < N -> t < bound T hi - bound T lo -> i < 28 -> j < 28 -> pixel Y n t i j = pixel X n (t + bound T lo) i j.
Proof.
  intros (W & E). destruct E as [E|E];
  destruct (slice1_ok lo hi X N T _ W E) as (Y & EY & WY & SY & G); exists Y; (split; [exact EY|]); (split; [split; [exact WY|auto]|]);
  intros n t i j Hn Ht Hi Hj; unfold pixel; rewrite SY, E; (rewrite G; [reflexivity|assumption..|cbn [valid_idx]; lia]).
Qed.

Lemma forward_wf {A} (value : nat -> tensor A -> list nat -> A) blk f d T x out r :
  forward value blk f d T x = Ok (out, r) -> twf r.
Proof.
  unfold forward. destruct (tshape x); [discriminate|]. intros H.
  destruct (trajectories _ _ _ _ _ _) as [o|]; [|discriminate]. cbn [bind] in H.
  destruct (tview (tdata o) _) as [s|]; [|discriminate]. cbn [bind] in H.
  destruct (decode _ _ _ _) as [s'|]; [|discriminate]. cbn [bind] in H.
  unfold tview in H. destruct (Nat.eqb_spec (List.length (tdata s')) (prod [n; T; 1; 28; 28])) as [L|]; [|discriminate].
  cbn [bind] in H. injection H as _ <-. unfold twf. cbn [tshape tdata]. exact L.
Qed.

Lemma forward_masked_wf {A} (value : nat -> tensor A -> list nat -> A) blk shuffle f d T ns ie x out i r :
  forward_masked value blk shuffle f d T ns ie x false = Ok (out, i, r) -> twf r.
Proof.
  unfold forward_masked. destruct (tshape x); [discriminate|]. intros H.
  destruct (trajectories _ _ _ _ _ _) as [o|]; [|discriminate]. cbn [bind] in H.
  destruct (tview (tdata o) _) as [s|]; [|discriminate]. cbn [bind] in H.
  destruct (decode _ _ _ _) as [s'|]; [|discriminate]. cbn [bind] in H.
  unfold tview in H. destruct (Nat.eqb_spec (List.length (tdata s')) (prod [n; T; 1; 28; 28])) as [L|]; [|discriminate].
  cbn [bind] in H. injection H as _ _ <-. unfold twf. cbn [tshape tdata]. exact L.
Qed.

Lemma compared_bounds k : seq 3 (bound 20 (3 + k) - 3) = compared k.
Proof.
  unfold compared, bound. f_equal. destruct (Z.ltb_spec (3 + k) 0); destruct (Z.leb_spec 1 k); destruct (Z.leb_spec k (-4)); lia.
Qed.

(** ** balls.py *)
Lemma given (N T : nat) (inp : tensor Qc) (I : images inp N T) (T20 : 20 <= T) : exists y x, slice1 0 20 inp = Ok y /\ images y N 20 /\
  (forall n t i j, n < N -> t < 20 -> i < 28 -> j < 28 -> pixel y n t i j = pixel inp n t i j) /\
  slice1 0 3 y = Ok x /\ images x N 3 /\
  (forall n t i j, n < N -> t < 3 -> i < 28 -> j < 28 -> pixel x n t i j = pixel inp n t i j).
Proof.
  destruct (images_slice inp N T 0 20 I) as (y & Ey & Iy & Gy).
  assert (B0 : bound T 0 = 0) by (unfold bound; cbn; lia). assert (B20 : bound T 20 = 20) by (unfold bound; cbn [Z.ltb]; cbn; lia).
  rewrite B0, B20 in *. cbn [Nat.sub] in *.
  destruct (images_slice y N 20 0 3 Iy) as (x & Ex & Ix & Gx). change (bound 20 3) with 3 in *. change (bound 20 0) with 0 in *. cbn [Nat.sub] in *.
  exists y, x. split; [exact Ey|]. split; [exact Iy|]. split.
  { intros n t i j Hn Ht Hi Hj. rewrite Gy by assumption. rewrite Nat.add_0_r. reflexivity. }
  split; [exact Ex|]. split; [exact Ix|].
  intros n t i j Hn Ht Hi Hj. rewrite Gx by assumption. rewrite Nat.add_0_r. rewrite Gy by lia. rewrite Nat.add_0_r. reflexivity.
Qed.

Section Balls.
Variable value : nat -> nat -> tensor Qc -> list nat -> Qc.
Variable blk : nat -> tensor Qc -> result (tensor Qc).
Variable d : nat.
Variables (k N T : nat) (inp : tensor Qc).
Hypothesis I : images inp N T.
Hypothesis T20 : 20 <= T.

Hypothesis N2 : 2 <= N.
Hypothesis d2 : 2 <= d.
Hypothesis B : block_gives (blk k) d 20 N.

Lemma pass : exists y x out r, slice1 0 20 inp = Ok y /\ images y N 20 /\
  (forall n t i j, n < N -> t < 20 -> i < 28 -> j < 28 -> pixel y n t i j = pixel inp n t i j) /\
  slice1 0 3 y = Ok x /\ tshape (squeeze x) = [N; 3; 28; 28] /\
  (forall n t i j, n < N -> t < 3 -> i < 28 -> j < 28 -> pixel (squeeze x) n t i j = pixel inp n t i j) /\
  forward (value k) (blk k) 16 d 20 (squeeze x) = Ok (out, r) /\ images r N 20.
Proof.
  destruct (given N T inp I T20) as (y & x & Ey & Iy & Gy & Ex & Ix & Gx).
  destruct (images_squeeze x N 3 Ix ltac:(lia) ltac:(lia)) as (Wx & Sx & Px).
  destruct (forward_ok (value k) (blk k) 16 d 20 (squeeze x) N 28 28 B Sx N2 ltac:(lia) d2 ltac:(lia) ltac:(lia) ltac:(lia) eq_refl)
    as (e & enc & u & b & out & s & D & r & _ & _ & _ & _ & F & _ & Sr & _).
  exists y, x, out, r. split; [exact Ey|]. split; [exact Iy|]. split; [exact Gy|]. split; [exact Ex|]. split; [exact Sx|]. split.
  { intros n t i j Hn Ht Hi Hj. rewrite <- Gx by assumption. rewrite <- Px. unfold pixel. rewrite Sx. reflexivity. }
  split; [exact F|]. split; [exact (forward_wf _ _ _ _ _ _ _ _ F)|right; exact Sr].
Qed.

Lemma balls_train_ok : exists t, balls_train value blk d k inp = Ok t.
Proof.
  destruct pass as (y & x & out & r & Ey & Iy & Gy & Ex & Sx & _ & F & Ir).
  unfold balls_train. rewrite Ey. cbn [bind]. rewrite Ex. cbn [bind]. rewrite F. cbn [bind snd].
  destruct (images_squeeze y N 20 Iy ltac:(lia) ltac:(lia)) as (_ & Sy & _).
  destruct (images_squeeze r N 20 Ir ltac:(lia) ltac:(lia)) as (_ & Sr & _).
  unfold tsub. rewrite Sy, Sr, (proj2 (eqb_list_eq _ _) eq_refl). eexists. reflexivity.
Qed.

Lemma balls_errors_ok ahead : exists x out r, tshape x = [N; 3; 28; 28] /\
  (forall n t i j, n < N -> t < 3 -> i < 28 -> j < 28 -> pixel x n t i j = pixel inp n t i j) /\
  forward (value k) (blk k) 16 d 20 x = Ok (out, r) /\ tshape r = [N; 20; 1; 28; 28] /\
  balls_errors value blk d ahead k inp =
    Ok (map (fun n => map (fun t => Fin (frame_error r inp n t)) (compared ahead)) (seq 0 N)).
Proof.
  destruct pass as (y & x & out & r & Ey & Iy & Gy & Ex & Sx & Px & F & Ir).
  exists (squeeze x), out, r. split; [exact Sx|]. split; [exact Px|]. split; [exact F|]. split.
  { destruct Ir as (_ & [E|E]); [|exact E]. exfalso.
    revert F E. unfold forward. rewrite Sx. destruct (trajectories _ _ _ _ _ _) as [o|]; [|discriminate]. cbn [bind].
    destruct (tview (tdata o) _) as [s|]; [|discriminate]. cbn [bind]. destruct (decode _ _ _ _) as [s'|]; [|discriminate]. cbn [bind].
    unfold tview. destruct (_ =? _); [|discriminate]. cbn [bind]. intros [= _ <-] E. discriminate E. }
  unfold balls_errors. rewrite Ey. cbn [bind]. rewrite Ex. cbn [bind]. rewrite F. cbn [bind snd].
  destruct (images_squeeze y N 20 Iy ltac:(lia) ltac:(lia)) as (Wy & Sy & Py).
  destruct (images_squeeze r N 20 Ir ltac:(lia) ltac:(lia)) as (Wr & Sr & Pr).
  destruct (slice1_ok 3 (3 + ahead) _ _ _ _ Wr Sr) as (R & ER & WR & SR & GR).
  destruct (slice1_ok 3 (3 + ahead) _ _ _ _ Wy Sy) as (V & EV & WV & SV & GV).
  rewrite ER. cbn [bind]. rewrite EV. cbn [bind]. change (bound 20 3) with 3 in *.
  pose proof (compared_bounds ahead) as CB. pose proof (bound_le 20 (3 + ahead)) as BL.
  set (m := bound 20 (3 + ahead) - 3) in *.
  unfold samples. rewrite SR, SV. cbn [hd]. rewrite Nat.eqb_refl. apply mapM_ok. intros n Hn. apply in_seq in Hn.
  destruct (item0_ok n R N [m; 28; 28] WR SR ltac:(lia)) as (a & -> & Wa & Sa & Ga).
  destruct (item0_ok n V N [m; 28; 28] WV SV ltac:(lia)) as (b & -> & Wb & Sb & Gb). cbn [bind].
  destruct (np_sub_ok a b [m; 28; 28] Wa Wb Sa Sb ltac:(discriminate)) as (e & -> & We & Se & Ge). cbn [bind].
  rewrite (axis_errors_ok e m 27 27 We Se). f_equal. rewrite <- CB. clear CB.
  replace (seq 3 m) with (map (fun t => 3 + t) (seq 0 m)).
  2: { rewrite <- seq_shift, <- seq_shift, <- seq_shift, !map_map. reflexivity. }
  rewrite map_map. apply map_ext_in. intros t Ht. apply in_seq in Ht. f_equal. unfold frame_error. f_equal.
  apply map_ext_in. intros (i, j) IJ. apply in_prod_iff in IJ as (Hi & Hj). apply in_seq in Hi. apply in_seq in Hj. cbn [fst snd].
  assert (Va : val e [t; i; j] = (pixel r n (3 + t) i j - pixel inp n (3 + t) i j)%Qc).
  { rewrite Ge by (cbn [valid_idx]; lia). unfold val at 1 2. rewrite Ga by (cbn [valid_idx]; lia). rewrite Gb by (cbn [valid_idx]; lia).
    rewrite GR by (cbn [valid_idx]; lia). rewrite GV by (cbn [valid_idx]; lia).
    replace (t + 3) with (3 + t) by lia. fold (val (squeeze r) [n; 3 + t; i; j]) (val (squeeze y) [n; 3 + t; i; j]).
    rewrite Pr, Py. rewrite (Gy n (3 + t) i j) by lia. reflexivity. }
  rewrite Va. reflexivity.
Qed.
End Balls.

(** One sample loses its axis. *)
Lemma balls_lost value blk d k T inp : images inp 1 T -> 20 <= T ->
  balls_train value blk d k inp = Raise RuntimeError /\ forall ahead, balls_errors value blk d ahead k inp = Raise RuntimeError.
Proof.
  intros I T20. destruct (given 1 T inp I T20) as (y & x & Ey & Iy & _ & Ex & (Wx & Sx) & _).
  assert (S3 : tshape (squeeze x) = [3; 28; 28]) by (unfold squeeze; cbn [tshape]; destruct Sx as [-> | ->]; reflexivity).
  assert (F : forall v b, forward v b 16 d 20 (squeeze x) = Raise RuntimeError).
  { intros v b. unfold forward. rewrite S3. unfold trajectories, encoder, conv2d. rewrite S3. reflexivity. }
  split; [|intros ahead]; unfold balls_train, balls_errors; rewrite Ey; cbn [bind]; rewrite Ex; cbn [bind]; rewrite F; reflexivity.
Qed.

(** One latent dimension. *)
Lemma balls_dim1 value blk k N T inp : images inp N T -> 20 <= T -> 2 <= N -> block_gives (blk k) 1 20 N ->
  balls_train value blk 1 k inp = Raise RuntimeError /\ forall ahead, balls_errors value blk 1 ahead k inp = Raise RuntimeError.
Proof.
  intros I T20 N2 B. destruct (given N T inp I T20) as (y & x & Ey & Iy & _ & Ex & Ix & _).
  destruct (images_squeeze x N 3 Ix ltac:(lia) ltac:(lia)) as (Wx & Sx & Px).
  assert (F := forward_small (value k) (blk k) 16 1 20 (squeeze x) N 28 28 B Sx ltac:(lia) ltac:(lia) ltac:(lia) ltac:(lia) ltac:(lia) eq_refl).
  split; [|intros ahead]; unfold balls_train, balls_errors; rewrite Ey; cbn [bind]; rewrite Ex; cbn [bind]; rewrite F; reflexivity.
Qed.

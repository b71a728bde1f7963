(** Lemmas for the demos with images: batches, passes and epochs of rot.py and balls.py. *)
From Coq Require Import List String ZArith QArith Qcanon Bool Lia Arith Permutation.
From Verif Require Import Base BaseFacts Tensor TensorFacts SchedulerModel LoopModel DataModel DataProofs ResNetProofs
  AutoencoderModel AutoencoderSpec AutoencoderProofs AutoencoderProofs2 ImagesModel ImagesSpec ImagesProofs.
Import ListNotations.
Open Scope list_scope.
Open Scope nat_scope.

(** ** Batches *)
Lemma batches_single {X} b : 2 <= b -> forall fuel (l : list X), List.length l <= fuel ->
  (exists c, In c (batches_of fuel b false l) /\ List.length c = 1) <-> List.length l mod b = 1.
Proof.
  intros B. induction fuel as [|f IH]; intros l L.
  - destruct l; [|cbn in L; lia]. cbn [batches_of List.length]. rewrite Nat.mod_0_l by lia. split; [intros (c & [] & _)|discriminate].
  - cbn [batches_of]. destruct l as [|x l0]; [cbn [List.length]; rewrite Nat.mod_0_l by lia; split; [intros (c & [] & _)|discriminate]|].
    set (l := x :: l0) in *. assert (P : 0 < List.length l) by (unfold l; cbn; lia). destruct (Nat.leb_spec b (List.length l)) as [E|E].
    + assert (Q : List.length l mod b = List.length (skipn b l) mod b).
      { rewrite skipn_length. replace (List.length l) with ((List.length l - b) + 1 * b) at 1 by lia. apply Nat.mod_add. lia. }
      rewrite Q, <- (IH (skipn b l)) by (rewrite skipn_length; lia). split.
      * intros (c & [<-|I] & H); [rewrite firstn_length in H; lia|]. exists c. auto.
      * intros (c & I & H). exists c. split; [right; exact I|exact H].
    + rewrite Nat.mod_small by lia. split.
      * intros (c & [<-|[]] & H). exact H.
      * intros H. exists l. split; [left; reflexivity|exact H].
Qed.

Lemma batch_at_ok X M r idx : twf X -> tshape X = M :: r -> Forall (fun m => m < M) idx ->
  twf (batch_at X idx) /\ tshape (batch_at X idx) = List.length idx :: r.
Proof.
  intros W S F. unfold batch_at. rewrite S. cbn [tl]. split; [|reflexivity]. apply tgather_wf. intros [|n z] V; [destruct V|].
  destruct V as (V1 & V2). destruct (nth_error idx n) as [m|] eqn:E; [|apply nth_error_None in E; lia].
  destruct (tget_valid X (m :: z) W) as (v & ->); [|discriminate]. rewrite S. cbn [valid_idx]. split; [|exact V2].
  rewrite Forall_forall in F. exact (F m (nth_error_In _ _ E)).
Qed.

Lemma batches25_ok X M r order : twf X -> tshape X = M :: r -> Permutation order (seq 0 M) ->
  Forall (fun b => exists m, 1 <= m /\ (no_single M -> 2 <= m) /\ twf b /\ tshape b = m :: r) (batches25 X order) /\
  (M mod 25 = 1 -> exists b, In b (batches25 X order) /\ twf b /\ tshape b = 1 :: r) /\
  (0 < M -> batches25 X order <> []) /\ list_sum (map samples (batches25 X order)) = M.
Proof.
  intros W S P. assert (L : List.length order = M) by (rewrite (Permutation_length P), seq_length; reflexivity).
  destruct (batches_keep (List.length order) 25 order ltac:(lia) (le_n _)) as (C & F).
  assert (SG : (exists c, In c (batches_of (List.length order) 25 false order) /\ List.length c = 1) <-> M mod 25 = 1).
  { rewrite (batches_single 25 ltac:(lia) (List.length order) order (le_n _)), L. reflexivity. }
  assert (IN : forall c, In c (batches_of (List.length order) 25 false order) -> Forall (fun m => m < M) c).
  { intros c I. apply Forall_forall. intros m J.
    assert (Q : In m order) by (rewrite <- C; apply in_concat; exists c; auto).
    apply (Permutation_in m P) in Q. apply in_seq in Q. lia. }
  unfold batches25. set (bs := batches_of (List.length order) 25 false order) in *. split; [|split; [|split]].
  - apply Forall_forall. intros b I. apply in_map_iff in I as (c & <- & I). destruct (batch_at_ok X M r c W S (IN c I)) as (W' & S').
    rewrite Forall_forall in F. specialize (F c I). exists (List.length c). split; [lia|]. split; [|split; assumption].
    intros NS. assert (List.length c <> 1); [|lia]. intros Q. apply NS. apply SG. exists c. auto.
  - intros H. apply SG in H as (c & I & H). exists (batch_at X c). split; [apply in_map; exact I|].
    rewrite <- H. apply (batch_at_ok X M r c W S (IN c I)).
  - intros M0 H. destruct bs as [|c bs]; [|discriminate]. cbn [List.concat] in C. subst order. cbn in L. lia.
  - rewrite map_map. cbn [samples batch_at tgather tshape hd]. rewrite <- L, <- C at 1. clear. induction bs as [|c bs IH]; [reflexivity|].
    cbn [map list_sum fold_right List.concat]. rewrite app_length. unfold list_sum in IH. rewrite IH. reflexivity.
Qed.

(** ** Passes *)
Lemma in_numbered {B} (bs : list B) b : In b bs -> forall k, exists j, In (j, b) (combine (seq k (List.length bs)) bs).
Proof.
  induction bs as [|a bs IH]; intros I k; [destruct I|]. cbn [List.length seq combine]. destruct I as [->|I].
  - exists k. left. reflexivity.
  - destruct (IH I (S k)) as (j & J). exists j. right. exact J.
Qed.

Lemma passes_ok {B} (f : nat -> tensor Qc -> result B) (P : tensor Qc -> B -> Prop) bs :
  (forall j b, In b bs -> exists r, f j b = Ok r /\ P b r) -> forall k, exists l, passes f k bs = Ok l /\ Forall2 P bs l.
Proof.
  unfold passes. induction bs as [|b bs IH]; intros H k; [exists []; split; [reflexivity|constructor]|].
  cbn [List.length seq combine mapM fst snd]. destruct (H k b (or_introl eq_refl)) as (r & -> & Pr). cbn [bind].
  destruct (IH (fun j b I => H j b (or_intror I)) (S k)) as (l & -> & F). cbn [bind]. exists (r :: l). split; [reflexivity|]. constructor; assumption.
Qed.

Lemma passes_raise {B} (f : nat -> tensor Qc -> result B) bs b : In b bs -> (forall j, exists e, f j b = Raise e) ->
  forall k, exists e, passes f k bs = Raise e.
Proof.
  intros I H k. destruct (in_numbered bs b I k) as (j & J). destruct (H j) as (e & E).
  exact (mapM_raise _ _ (j, b) e J E).
Qed.

Lemma sum_lengths {B} bs (l : list (list B)) : Forall2 (fun b r => List.length r = samples b) bs l ->
  List.length (List.concat l) = list_sum (map samples bs).
Proof.
  induction 1 as [|b r bs l H F IH]; [reflexivity|]. cbn [List.concat map list_sum fold_right]. rewrite app_length, H, IH. reflexivity.
Qed.

Definition finite (l : list num) : Prop := exists qs, l = map Fin qs.
Lemma finite_concat ls : Forall finite ls -> finite (List.concat ls).
Proof.
  induction 1 as [|l ls (qs & ->) F (qs' & IH)]; [exists []; reflexivity|]. exists (qs ++ qs'). cbn [List.concat]. rewrite IH, map_app. reflexivity.
Qed.

(** ** rot.py *)
Section Rot.
Variable value : nat -> nat -> tensor Qc -> list nat -> Qc.
Variable blk : nat -> tensor Qc -> result (tensor Qc).
Variable shuffle : nat -> nat -> list Z -> list Z.
Variable d : nat.
Hypothesis B : forall k m, 1 <= m -> block_gives (blk k) d 16 m.
Hypothesis SH : forall k, shuffles (shuffle k).
Notation sequences := (fun (inp : tensor Qc) (N : nat) => twf inp /\ tshape inp = [N; 16; 1; 28; 28]).

Lemma first_shape (inp : tensor Qc) N : tshape inp = [N; 16; 1; 28; 28] -> exists x, first_frame inp = Ok x /\ tshape x = [N; 1; 28; 28].
Proof. intros S. unfold first_frame. rewrite S. eexists. split; reflexivity. Qed.

Lemma plain_pass k n_skip i_eval inp N : sequences inp N -> 2 <= N -> 2 <= d ->
  exists x out r, first_frame inp = Ok x /\ forward_masked (value k) (blk k) (shuffle k) 8 d 16 n_skip i_eval x false = Ok (out, None, r) /\
    twf r /\ tshape r = [N; 16; 1; 28; 28].
Proof.
  intros (W & S) N2 d2. destruct (first_shape inp N S) as (x & Ex & Sx).
  destruct (trajectories_ok (value k) (blk k) 8 d 16 1 x N 28 28 (B k N ltac:(lia)) Sx N2 ltac:(lia) d2 ltac:(lia) ltac:(lia) ltac:(lia) eq_refl)
    as (e & enc & u & b & out & _ & _ & _ & _ & _ & _ & _ & ET & Wo & So & _).
  destruct (decode_frames (value k) 8 d out N 16 Wo So ltac:(lia) ltac:(lia) ltac:(lia)) as (D & ED & V1 & V2 & SD & WD & _ & _).
  exists x, out, (mkT [N; 16; 1; 28; 28] (tdata D)). split; [exact Ex|].
  assert (F : forward_masked (value k) (blk k) (shuffle k) 8 d 16 n_skip i_eval x false = Ok (out, None, mkT [N; 16; 1; 28; 28] (tdata D))).
  { unfold forward_masked. rewrite Sx, ET. cbn [bind]. rewrite V1. cbn [bind]. rewrite ED. cbn [bind]. rewrite V2. reflexivity. }
  split; [exact F|]. split; [exact (forward_masked_wf _ _ _ _ _ _ _ _ _ _ _ _ F)|reflexivity].
Qed.

Lemma rot_pass_ok k n_skip i_eval inp N : sequences inp N -> 2 <= N -> 2 <= d ->
  exists x out r, first_frame inp = Ok x /\ forward_masked (value k) (blk k) (shuffle k) 8 d 16 n_skip i_eval x false = Ok (out, None, r) /\
    twf r /\ tshape r = [N; 16; 1; 28; 28] /\
    rot_pass value blk shuffle d n_skip i_eval k inp = Ok (squeeze r, squeeze inp).
Proof.
  intros I N2 d2. destruct (plain_pass k n_skip i_eval inp N I N2 d2) as (x & out & r & Ex & F & Wr & Sr).
  exists x, out, r. repeat (split; [assumption|]). unfold rot_pass. rewrite Ex. cbn [bind]. rewrite F. reflexivity.
Qed.

Lemma item01_ok n (i : nat) (t : tensor Qc) a b h w : twf t -> tshape t = [a; b; h; w] -> n < a -> i < b ->
  exists s, item01 n (Z.of_nat i) t = Ok s /\ twf s /\ tshape s = [h; w] /\ forall y z, y < h -> z < w -> val s [y; z] = val t [n; i; y; z].
Proof.
  intros W S Hn Hi. unfold item01. rewrite S, (proj2 (Nat.ltb_lt n a) Hn).
  rewrite (proj2 (Z.leb_le _ _)) by lia. rewrite (proj2 (Z.ltb_lt _ _)) by lia. cbn [andb].
  rewrite (proj2 (Z.ltb_ge (Z.of_nat i) 0)) by lia. rewrite Nat2Z.id.
  assert (H : forall idx, valid_idx [h; w] idx -> tget t (n :: i :: idx) <> None).
  { intros idx V. destruct (tget_valid t (n :: i :: idx) W) as (v & ->); [|discriminate]. rewrite S. cbn [valid_idx] in *. auto. }
  eexists. split; [reflexivity|]. split; [apply tgather_wf, H|]. split; [reflexivity|].
  intros y z Hy Hz. unfold val. rewrite tget_gather; [reflexivity|exact H|cbn [valid_idx]; auto].
Qed.

Lemma rot_errors_ok k n_skip (i : nat) inp N : sequences inp N -> 2 <= N -> 2 <= d -> i < 16 ->
  exists x out r, first_frame inp = Ok x /\ forward_masked (value k) (blk k) (shuffle k) 8 d 16 n_skip (Z.of_nat i) x false = Ok (out, None, r) /\
    tshape r = [N; 16; 1; 28; 28] /\
    rot_errors value blk shuffle d n_skip (Z.of_nat i) k inp = Ok (map (fun n => Fin (frame_error r inp n i)) (seq 0 N)).
Proof.
  intros I N2 d2 Hi. destruct (rot_pass_ok k n_skip (Z.of_nat i) inp N I N2 d2) as (x & out & r & Ex & F & Wr & Sr & E).
  exists x, out, r. repeat (split; [assumption|]). unfold rot_errors. rewrite E. cbn [bind].
  destruct (images_squeeze r N 16 (conj Wr (or_intror Sr)) ltac:(lia) ltac:(lia)) as (W1 & S1 & P1).
  destruct (images_squeeze inp N 16 (conj (proj1 I) (or_intror (proj2 I))) ltac:(lia) ltac:(lia)) as (W2 & S2 & P2).
  unfold samples. rewrite (proj2 I). cbn [hd]. apply mapM_ok. intros n Hn. apply in_seq in Hn.
  destruct (item01_ok n i _ N 16 28 28 W1 S1 ltac:(lia) Hi) as (a & -> & Wa & Sa & Ga).
  destruct (item01_ok n i _ N 16 28 28 W2 S2 ltac:(lia) Hi) as (b & -> & Wb & Sb & Gb). cbn [bind].
  destruct (np_sub_ok a b [28; 28] Wa Wb Sa Sb ltac:(discriminate)) as (e & -> & We & Se & Ge). cbn [bind].
  rewrite (mean_square_frame e 27 27 We Se). f_equal. f_equal. unfold frame_error. f_equal.
  apply map_ext_in. intros (y, z) YZ. apply in_prod_iff in YZ as (Hy & Hz). apply in_seq in Hy. apply in_seq in Hz. cbn [fst snd].
  rewrite Ge by (cbn [valid_idx]; lia). rewrite Ga, Gb, P1, P2 by lia. reflexivity.
Qed.

Lemma rot_train_ok k n_skip i_eval inp N : sequences inp N -> 2 <= N -> 2 <= d -> (0 <= n_skip <= 14)%Z -> (0 <= i_eval <= 15)%Z ->
  exists t, rot_train value blk shuffle d n_skip i_eval k inp = Ok t.
Proof.
  intros (W & S) N2 d2 Hn Hi. unfold rot_train. replace n_skip with (Z.of_nat (Z.to_nat n_skip)) by lia.
  destruct (train_differences_ok (value k) Qcminus (blk k) (shuffle k) 8 d 16 (Z.to_nat n_skip) i_eval (SH k) ltac:(lia) ltac:(lia)
    inp N (B k N ltac:(lia)) W S N2 d2 ltac:(lia)) as (x & e & enc & u & b & s & D & diff & _ & _ & _ & _ & _ & _ & _ & E & _).
  exists diff. exact E.
Qed.

Lemma rot_train_bad k n_skip i_eval inp N : sequences inp N -> 2 <= N -> 2 <= d -> ~ ((0 <= n_skip <= 14)%Z /\ (0 <= i_eval <= 15)%Z) ->
  exists e, rot_train value blk shuffle d n_skip i_eval k inp = Raise e.
Proof.
  intros (W & S) N2 d2 H. destruct (first_shape inp N S) as (x & Ex & Sx).
  assert (F : exists e, forward_masked (value k) (blk k) (shuffle k) 8 d 16 n_skip i_eval x true = Raise e).
  { assert (Bk := B k N ltac:(lia)). destruct (Z.ltb_spec n_skip 0) as [L|L].
    - exists RuntimeError. apply (forward_masked_negative (value k) Qcminus (blk k) (shuffle k) 8 d 16 0 i_eval (SH k) n_skip x N 28 28 Bk Sx);
        [lia..|reflexivity|exact L].
    - replace n_skip with (Z.of_nat (Z.to_nat n_skip)) by lia. destruct (Z_lt_dec i_eval 0) as [I|I]; [|destruct (Z_lt_dec 15 i_eval) as [J|J]].
      + exists RuntimeError. apply (forward_masked_bad (value k) Qcminus (blk k) (shuffle k) 8 d 16 (Z.to_nat n_skip) i_eval (SH k) x N 28 28 Bk Sx);
          [lia..|reflexivity|lia].
      + exists RuntimeError. apply (forward_masked_bad (value k) Qcminus (blk k) (shuffle k) 8 d 16 (Z.to_nat n_skip) i_eval (SH k) x N 28 28 Bk Sx);
          [lia..|reflexivity|lia].
      + apply (forward_masked_none (value k) Qcminus (blk k) (shuffle k) 8 d 16 (Z.to_nat n_skip) i_eval (SH k) x N 28 28 Bk Sx);
          [lia..|reflexivity|lia|lia]. }
  destruct F as (e & F). exists e. unfold rot_train, train_differences. rewrite S, Ex. cbn [bind]. rewrite F. reflexivity.
Qed.

Lemma rot_small k n_skip i_eval inp N : sequences inp N -> 1 <= N -> N = 1 \/ d = 1 ->
  rot_train value blk shuffle d n_skip i_eval k inp = Raise RuntimeError /\
  rot_pass value blk shuffle d n_skip i_eval k inp = Raise RuntimeError /\ rot_errors value blk shuffle d n_skip i_eval k inp = Raise RuntimeError.
Proof.
  intros (W & S) N1 H. destruct (first_shape inp N S) as (x & Ex & Sx).
  assert (P : rot_pass value blk shuffle d n_skip i_eval k inp = Raise RuntimeError).
  { unfold rot_pass. rewrite Ex. cbn [bind]. unfold forward_masked. rewrite Sx.
    rewrite (trajectories_small (value k) (blk k) 8 d 16 1 x N 28 28 (B k N N1) Sx N1 ltac:(lia) ltac:(lia) ltac:(lia) ltac:(lia) eq_refl). reflexivity. }
  split; [|split; [exact P|]].
  - apply (train_single (value k) Qcminus (blk k) (shuffle k) 8 d 16 n_skip i_eval inp N (B k N N1) S); lia.
  - unfold rot_errors. rewrite P. reflexivity.
Qed.

(** *** Epochs *)
Variable order : nat -> list nat.
Variables train test : tensor Qc.
Variable M : nat.
Hypothesis OR : orders 500 order.
Hypothesis TR : sequences train 500.
Hypothesis TE : sequences test M.
Hypothesis M0 : 0 < M.
Variables n_skip i_eval : Z.
Notation ts := (batches25 test (seq 0 (samples test))).
Notation epochs := (rot_epochs value blk shuffle order d n_skip i_eval train test).

Lemma test_batches : Forall (fun b => exists m, 1 <= m /\ (no_single M -> 2 <= m) /\ sequences b m) ts /\
  (M mod 25 = 1 -> exists b, In b ts /\ sequences b 1) /\ ts <> [] /\ list_sum (map samples ts) = M.
Proof.
  assert (S : samples test = M) by (unfold samples; rewrite (proj2 TE); reflexivity). rewrite S.
  destruct (batches25_ok test M [16; 1; 28; 28] (seq 0 M) (proj1 TE) (proj2 TE) (Permutation_refl _)) as (F & E & N & L).
  split; [exact F|]. split; [exact E|]. split; [exact (N M0)|exact L].
Qed.

Lemma train_batches e : Forall (fun b => exists m, 2 <= m /\ sequences b m) (batches25 train (order e)) /\ batches25 train (order e) <> [].
Proof.
  destruct (batches25_ok train 500 [16; 1; 28; 28] (order e) (proj1 TR) (proj2 TR) (OR e)) as (F & _ & N & _). split; [|apply N; lia].
  eapply Forall_impl; [|exact F]. intros b (m & _ & H & I). exists m. split; [apply H; unfold no_single; discriminate|exact I].
Qed.

Section Good.
Hypothesis d2 : 2 <= d.
Hypothesis NS : no_single M.
Hypothesis Hn : (0 <= n_skip <= 14)%Z.
Hypothesis Hi : (0 <= i_eval <= 15)%Z.

Lemma rot_epochs_ok : forall n e k, exists tr k', epochs n e k = Ok (tr, k') /\ List.length tr = n /\
  forall i t, nth_error tr i = Some t -> good_entry M (e + i) t.
Proof.
  induction n as [|n IH]; intros e k; [exists [], k; split; [reflexivity|split; [reflexivity|intros [|i] t H; discriminate H]]|].
  cbn [rot_epochs]. destruct (train_batches e) as (F & _).
  destruct (passes_ok (rot_train value blk shuffle d n_skip i_eval) (fun _ _ => True) (batches25 train (order e))) with (k := k) as (l & -> & _).
  { intros j b I. rewrite Forall_forall in F. destruct (F b I) as (m & m2 & S). destruct (rot_train_ok j n_skip i_eval b m S m2 d2 Hn Hi) as (t & E).
    exists t. auto. }
  cbn [bind]. destruct test_batches as (G & _ & NE & SU).
  destruct (passes_ok (rot_errors value blk shuffle d n_skip i_eval) (fun b r => List.length r = samples b /\ finite r) ts)
    with (k := k + List.length (batches25 train (order e))) as (errs & -> & F2).
  { intros j b I. rewrite Forall_forall in G. destruct (G b I) as (m & _ & m2 & S). specialize (m2 NS).
    destruct (rot_errors_ok j n_skip (Z.to_nat i_eval) b m S m2 d2 ltac:(lia)) as (x & out & r & _ & _ & _ & E).
    rewrite Z2Nat.id in E by lia. eexists. split; [exact E|]. split.
    - rewrite map_length, seq_length. unfold samples. rewrite (proj2 S). reflexivity.
    - exists (map (fun n => frame_error r b n (Z.to_nat i_eval)) (seq 0 m)). rewrite map_map. reflexivity. }
  cbn [bind]. match goal with |- context [epochs n (S e) ?kk] => destruct (IH (S e) kk) as (tr & k' & -> & L & H) end. cbn [bind].
  eexists _, k'. split; [reflexivity|]. split; [cbn [List.length]; rewrite L; reflexivity|].
  assert (LE : List.length (List.concat errs) = M).
  { rewrite (sum_lengths ts errs); [exact SU|]. clear - F2. induction F2; constructor; tauto. }
  assert (FI : finite (List.concat errs)).
  { apply finite_concat. clear - F2. induction F2; constructor; tauto. }
  destruct FI as (qs & Q). intros [|i] t E; cbn [nth_error] in E.
  - injection E as <-. rewrite Nat.add_0_r. exists qs. rewrite Q in *. rewrite map_length in LE. split; [|exact LE].
    rewrite np_mean_fin by (intros ->; cbn in LE; lia). reflexivity.
  - replace (e + S i) with (S e + i) by lia. exact (H i t E).
Qed.

Lemma rot_images_ok k : exists l, passes (rot_pass value blk shuffle d n_skip i_eval) k ts = Ok l /\ List.length l = List.length ts.
Proof.
  destruct test_batches as (G & _).
  destruct (passes_ok (rot_pass value blk shuffle d n_skip i_eval) (fun _ _ => True) ts) with (k := k) as (l & E & F).
  { intros j b I. rewrite Forall_forall in G. destruct (G b I) as (m & _ & m2 & S).
    destruct (rot_pass_ok j n_skip i_eval b m S (m2 NS) d2) as (x & out & r & _ & _ & _ & _ & E). eexists. split; [exact E|exact Logic.I]. }
  exists l. split; [exact E|]. symmetry. clear - F. induction F; cbn; auto.
Qed.
End Good.

Lemma rot_epochs_bad n e k : 1 <= d -> 0 < n ->
  ~ (2 <= d /\ no_single M /\ (0 <= n_skip <= 14)%Z /\ (0 <= i_eval <= 15)%Z) -> exists x, epochs n e k = Raise x.
Proof.
  intros d1 Hn0 H. destruct n as [|n]; [lia|]. cbn [rot_epochs]. destruct (train_batches e) as (F & NE).
  destruct (batches25 train (order e)) as [|b bs] eqn:EB; [contradiction|]. rewrite <- EB in *.
  assert (IB : In b (batches25 train (order e))) by (rewrite EB; left; reflexivity).
  destruct (proj1 (Forall_forall _ _) F b IB) as (m & m2 & S).
  destruct (Nat.eq_dec d 1) as [D1|D1].
  { destruct (passes_raise (rot_train value blk shuffle d n_skip i_eval) (batches25 train (order e)) b IB) with (k := k) as (x & ->); [|exists x; reflexivity].
    intros j. exists RuntimeError. apply (rot_small j n_skip i_eval b m S); lia. }
  assert (d2 : 2 <= d) by lia.
  destruct (Z_le_dec 0 n_skip) as [A1|A1]; [destruct (Z_le_dec n_skip 14) as [A2|A2]; [destruct (Z_le_dec 0 i_eval) as [A3|A3];
    [destruct (Z_le_dec i_eval 15) as [A4|A4]|]|]|].
  2-5: destruct (passes_raise (rot_train value blk shuffle d n_skip i_eval) (batches25 train (order e)) b IB) with (k := k) as (x & ->); [|exists x; reflexivity];
       intros j; apply (rot_train_bad j n_skip i_eval b m S m2 d2); lia.
  destruct (passes_ok (rot_train value blk shuffle d n_skip i_eval) (fun _ _ => True) (batches25 train (order e))) with (k := k) as (l & -> & _).
  { intros j b' I. destruct (proj1 (Forall_forall _ _) F b' I) as (m' & m2' & S'). destruct (rot_train_ok j n_skip i_eval b' m' S' m2' d2 (conj A1 A2) (conj A3 A4)) as (t & E).
    exists t. auto. }
  cbn [bind]. destruct test_batches as (G & SG & _).
  assert (M1 : M mod 25 = 1).
  { destruct (Nat.eq_dec (M mod 25) 1) as [Q|Q]; [exact Q|]. exfalso. apply H. auto. }
  destruct (SG M1) as (b1 & I1 & S1).
  match goal with |- context [passes (rot_errors value blk shuffle d n_skip i_eval) ?kk _] =>
    destruct (passes_raise (rot_errors value blk shuffle d n_skip i_eval) ts b1 I1) with (k := kk) as (x & ->) end; [|exists x; reflexivity].
  intros j. exists RuntimeError. apply (rot_small j n_skip i_eval b1 1 S1); lia.
Qed.
End Rot.

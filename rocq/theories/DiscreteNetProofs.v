(** Proofs about the discrete networks: values. *)
From Coq Require Import List String Ascii Bool Reals Arith Lia Lra DecimalNat DecimalString.
From Verif Require Import Base BaseFacts Tensor RealSum UtilsModel CommandModel BlockModel BlockProofs3 VecNet VecModel VecSpec
  VecProofs VecProofs2 VecProofs3 DiscreteNetModel DiscreteNetSpec.
Import ListNotations.
Open Scope string_scope.
Open Scope R_scope.

Lemma relu_pos x : relu x = pos x.
Proof. unfold relu, pos, Rmax. destruct (Rle_dec 0 x); reflexivity. Qed.

(** ** Replicated modules *)
Definition layer_name (i : nat) : string := "l" ++ str_nat i.

Lemma layer_name_inj i j : layer_name i = layer_name j -> i = j.
Proof. unfold layer_name. cbn. intros H. injection H as H. now apply str_nat_inj. Qed.

Lemma pd_set_new {A} k (v : A) d : ~ In k (map fst d) -> pd_set k v d = (d ++ [(k, v)])%list.
Proof.
  induction d as [|[k' v'] d IH]; cbn; intros H; [reflexivity|].
  destruct (String.eqb_spec k k') as [->|]; [exfalso; tauto|]. rewrite IH; tauto.
Qed.

Lemma replicate_from {M} (make : nat -> M) m n d :
  (forall i, (n <= i)%nat -> ~ In (layer_name i) (map fst d)) ->
  fold_left (fun modules i => pd_set ("l" ++ str_nat i) (make i) modules) (seq n m) d
  = (d ++ map (fun i => (layer_name i, make i)) (seq n m))%list.
Proof.
  revert n d. induction m as [|m IH]; intros n d H; cbn [seq fold_left map]; [now rewrite app_nil_r|].
  rewrite pd_set_new by (apply (H n); lia). rewrite IH.
  - rewrite <- app_assoc. reflexivity.
  - intros i Hi. rewrite map_app, in_app_iff. cbn. intros [I|[E|[]]]; [apply (H i); [lia|exact I]|].
    change (layer_name n = layer_name i) in E. apply layer_name_inj in E. lia.
Qed.

Lemma replicate_eq {M} (make : nat -> M) n :
  replicate_modules make n = map (fun i => (layer_name i, make i)) (seq 0 n).
Proof. unfold replicate_modules. rewrite replicate_from; [reflexivity|]. cbn. tauto. Qed.

Lemma replicate_names {M} (make : nat -> M) n :
  List.length (replicate_modules make n) = n /\ NoDup (map fst (replicate_modules make n)) /\
  forall i, (i < n)%nat -> nth_error (replicate_modules make n) i = Some ("l" ++ str_nat i, make i).
Proof.
  rewrite replicate_eq. split; [now rewrite map_length, seq_length|]. split.
  - rewrite map_map. cbn [fst]. apply FinFun.Injective_map_NoDup; [intros i j; apply layer_name_inj|apply seq_NoDup].
  - intros i Hi. apply (map_nth_error (fun i => (layer_name i, make i))).
    rewrite nth_error_nth' with (d := O) by (rewrite seq_length; lia). now rewrite seq_nth by lia.
Qed.

Lemma foldM_map {A B S} (f : S -> B -> result S) (g : A -> B) l s :
  foldM f (map g l) s = foldM (fun s a => f s (g a)) l s.
Proof. revert s. induction l as [|a l IH]; intros s; cbn; [reflexivity|]. destruct (f s (g a)); cbn; auto. Qed.

Lemma sequential_eq {M X} (apply : M -> X -> result X) make n x :
  sequential apply (replicate_modules make n) x = foldM (fun x i => apply (make i) x) (seq 0 n) x.
Proof. unfold sequential. rewrite replicate_eq, foldM_map. reflexivity. Qed.

(** A loop described by its value after each number of turns. *)
Lemma foldM_value {X} (f : X -> nat -> result X) (ok : nat -> X -> Prop) n x :
  ok 0%nat x -> (forall m y, (m < n)%nat -> ok m y -> exists z, f y m = Ok z /\ ok (S m) z) ->
  exists y, foldM f (seq 0 n) x = Ok y /\ ok n y.
Proof.
  intros H0 Hs.
  assert (G : forall m, (m <= n)%nat -> exists y, foldM f (seq 0 m) x = Ok y /\ ok m y).
  { induction m as [|m IH]; intros Hm; [exists x; split; [reflexivity|exact H0]|].
    destruct (IH ltac:(lia)) as (y & E & K). destruct (Hs m y ltac:(lia) K) as (z & Ez & Kz).
    exists z. split; [|exact Kz]. rewrite seq_S, foldM_app, E. cbn. rewrite Ez. reflexivity. }
  exact (G n (le_n n)).
Qed.

(** ** Values *)
Lemma layer_is l x a b i o bias f : linear_layer i o bias l -> is3 a b i f x ->
  exists y, forward l x = Ok y /\
    is3 a b o (fun n k j => rsum i (fun q => factor l j q * f n k q) + offset l j) y.
Proof.
  intros (H0 & H1 & Hb) Hx. destruct (forward_is l x a b i o bias f H0 H1 Hb Hx) as (y & E & S & Hy).
  exists y. split; [exact E|]. split; [exact S|]. intros n k j Hn Hk Hj. rewrite Hy by assumption.
  unfold offset, bias_value, factor. f_equal. apply rsum_ext. intros. ring.
Qed.

Lemma is3_ext a b c f g y : is3 a b c f y ->
  (forall n i k, (n < a)%nat -> (i < b)%nat -> (k < c)%nat -> f n i k = g n i k) -> is3 a b c g y.
Proof. intros [S H] E. split; [exact S|]. intros. rewrite H; auto. Qed.

Lemma is3_self x : is3 (n0 x) (n1 x) (n2 x) (v3 x) x.
Proof. split; [repeat split|reflexivity]. Qed.

Lemma resnet_values (make : nat -> lin) N x : n2 x = 1%nat ->
  (forall i, (i < N)%nat -> linear_layer 1 1 true (make i)) ->
  exists y, resnet make N x = Ok y /\ same_shape x y /\
    forall n i, (n < n0 x)%nat -> (i < n1 x)%nat -> v3 y n i 0%nat = resnet_value make N (v3 x n i 0%nat).
Proof.
  intros Hx HL. unfold resnet. rewrite sequential_eq.
  destruct (foldM_value (fun y i => simple_block (make i) y)
              (fun m y => is3 (n0 x) (n1 x) 1 (fun n i _ => resnet_value make m (v3 x n i 0%nat)) y) N x) as (y & E & S & H).
  - pose proof (is3_self x) as S. rewrite Hx in S. apply (is3_ext _ _ _ _ _ _ S). intros n i k _ _ Hk.
    replace k with O by lia. reflexivity.
  - intros m y Hm Hy. unfold simple_block.
    destruct (layer_is _ _ _ _ _ _ _ _ (HL m Hm) (map3_is relu _ _ _ _ _ Hy)) as (z & -> & Hz). cbn [bind].
    destruct (zip3_is Rplus _ _ _ _ _ _ _ Hy Hz) as (r & -> & Hr). exists r. split; [reflexivity|].
    apply (is3_ext _ _ _ _ _ _ Hr). intros n i k _ _ Hk. replace k with O by lia. cbn [rsum resnet_value].
    rewrite relu_pos. ring.
  - exists y. split; [exact E|]. destruct S as (A & B & C). split; [repeat split; congruence|].
    intros n i Hn Hi. apply H; [exact Hn|exact Hi|lia].
Qed.

Lemma updown_values f (make : nat -> two) N x : n2 x = 1%nat ->
  (forall i, (i < N)%nat -> linear_layer 1 f true (b_l1 (make i)) /\ linear_layer f 1 true (b_l2 (make i))) ->
  exists y, resnet_updown make N x = Ok y /\ same_shape x y /\
    forall n i, (n < n0 x)%nat -> (i < n1 x)%nat ->
      v3 y n i 0%nat = updown_value f (fun k => b_l1 (make k)) (fun k => b_l2 (make k)) N (v3 x n i 0%nat).
Proof.
  intros Hx HL. unfold resnet_updown. rewrite sequential_eq.
  destruct (foldM_value (fun y i => updown_block (make i) y)
              (fun m y => is3 (n0 x) (n1 x) 1
                 (fun n i _ => updown_value f (fun k => b_l1 (make k)) (fun k => b_l2 (make k)) m (v3 x n i 0%nat)) y) N x)
    as (y & E & S & H).
  - pose proof (is3_self x) as S. rewrite Hx in S. apply (is3_ext _ _ _ _ _ _ S). intros n i k _ _ Hk.
    replace k with O by lia. reflexivity.
  - intros m y Hm Hy. destruct (HL m Hm) as [L1 L2]. unfold updown_block.
    destruct (layer_is _ _ _ _ _ _ _ _ L1 (map3_is relu _ _ _ _ _ Hy)) as (z & -> & Hz). cbn [bind].
    destruct (layer_is _ _ _ _ _ _ _ _ L2 (map3_is relu _ _ _ _ _ Hz)) as (w & -> & Hw). cbn [bind].
    destruct (zip3_is Rplus _ _ _ _ _ _ _ Hy Hw) as (r & -> & Hr). exists r. split; [reflexivity|].
    apply (is3_ext _ _ _ _ _ _ Hr). intros n i k _ _ Hk. replace k with O by lia.
    cbn [updown_value]. unfold shallow. f_equal. f_equal. apply rsum_ext. intros j Hj. cbn [rsum].
    rewrite relu_pos. f_equal. f_equal. rewrite relu_pos. ring.
  - exists y. split; [exact E|]. destruct S as (A & B & C). split; [repeat split; congruence|].
    intros n i Hn Hi. apply H; [exact Hn|exact Hi|lia].
Qed.

Lemma double_values f (make : nat -> two) N x z : n2 x = 1%nat -> of_shape (n0 x) (n1 x) f z ->
  (forall i, (i < N)%nat -> linear_layer f 1 true (b_l1 (make i)) /\ linear_layer 1 f false (b_l2 (make i))) ->
  exists x' z', double_resnet make N (x, z) = Ok (x', z') /\ same_shape x x' /\ same_shape z z' /\
    forall n i, (n < n0 x)%nat -> (i < n1 x)%nat ->
      let r := double_value f (fun k => b_l1 (make k)) (fun k => b_l2 (make k)) N (v3 x n i 0%nat) (v3 z n i) in
      v3 x' n i 0%nat = fst r /\ forall j, (j < f)%nat -> v3 z' n i j = snd r j.
Proof.
  intros Hx Hz HL. unfold double_resnet. rewrite sequential_eq.
  set (val m n i := double_value f (fun k => b_l1 (make k)) (fun k => b_l2 (make k)) m (v3 x n i 0%nat) (v3 z n i)).
  destruct (foldM_value (fun y i => double_block (make i) y)
              (fun m y => is3 (n0 x) (n1 x) 1 (fun n i _ => fst (val m n i)) (fst y) /\
                          is3 (n0 x) (n1 x) f (fun n i j => snd (val m n i) j) (snd y)) N (x, z))
    as ([x' z'] & E & (S & H) & (S' & H')).
  - split; cbn [fst snd].
    + pose proof (is3_self x) as S. rewrite Hx in S. apply (is3_ext _ _ _ _ _ _ S). intros n i k _ _ Hk.
      replace k with O by lia. reflexivity.
    + destruct Hz as (A & B & C). pose proof (is3_self z) as S. rewrite A, B, C in S. exact S.
  - intros m [y w] Hm [Hy Hw]. cbn [fst snd] in Hy, Hw. destruct (HL m Hm) as [L1 L2]. unfold double_block.
    destruct (layer_is _ _ _ _ _ _ _ _ L1 (map3_is relu _ _ _ _ _ Hw)) as (u & -> & Hu). cbn [bind].
    destruct (zip3_is Rplus _ _ _ _ _ _ _ Hy Hu) as (y' & -> & Hy'). cbn [bind].
    destruct (layer_is _ _ _ _ _ _ _ _ L2 (map3_is relu _ _ _ _ _ Hy')) as (v & -> & Hv). cbn [bind].
    destruct (zip3_is Rplus _ _ _ _ _ _ _ Hw Hv) as (w' & -> & Hw'). cbn [bind].
    exists (y', w'). split; [reflexivity|]. cbn [fst snd].
    assert (V : forall n i, val (S m) n i =
      let y' := fst (val m n i) + (rsum f (fun j => factor (b_l1 (make m)) 0 j * pos (snd (val m n i) j)) + offset (b_l1 (make m)) 0) in
      (y', fun j => snd (val m n i) j + factor (b_l2 (make m)) j 0 * pos y')).
    { intros n i. unfold val. cbn [double_value]. destruct (double_value _ _ _ m _ _). reflexivity. }
    assert (Q : forall n i, fst (val m n i) + (rsum f (fun q => factor (b_l1 (make m)) 0 q * relu (snd (val m n i) q)) + offset (b_l1 (make m)) 0)
      = fst (val (S m) n i)).
    { intros n i. rewrite V. reflexivity. }
    split.
    + apply (is3_ext _ _ _ _ _ _ Hy'). intros n i k _ _ Hk. replace k with O by lia. apply Q.
    + apply (is3_ext _ _ _ _ _ _ Hw'). intros n i k _ _ Hk. cbn [rsum]. rewrite Q, relu_pos, V. cbn [fst snd].
      destruct L2 as (_ & _ & NB). unfold offset. rewrite NB. ring.
  - exists x', z'. split; [exact E|]. cbn [fst snd] in *. destruct S as (A & B & C), S' as (A' & B' & C').
    destruct Hz as (A2 & B2 & C2).
    split; [repeat split; congruence|]. split; [repeat split; congruence|].
    intros n i Hn Hi. split; [apply H; [exact Hn|exact Hi|lia]|]. intros j Hj. apply H'; assumption.
Qed.

Lemma rnn_values f (b : two) N x : n2 x = 1%nat ->
  linear_layer f 1 true (b_l1 b) -> linear_layer 1 f true (b_l2 b) ->
  exists y, resnet_rnn b N x = Ok y /\ same_shape x y /\
    forall n i, (n < n0 x)%nat -> (i < n1 x)%nat ->
      v3 y n i 0%nat = euler (shallow f (fun t => t) (b_l2 b) (b_l1 b)) (1 / INR N) N (v3 x n i 0%nat).
Proof.
  intros Hx L1 L2. unfold resnet_rnn. set (F := shallow f (fun t => t) (b_l2 b) (b_l1 b)).
  match goal with |- context [foldM ?g _ _] =>
    destruct (foldM_value g (fun m y => is3 (n0 x) (n1 x) 1 (fun n i _ => euler F (1 / INR N) m (v3 x n i 0%nat)) y) N x)
      as (y & E & S & H) end.
  - pose proof (is3_self x) as S. rewrite Hx in S. apply (is3_ext _ _ _ _ _ _ S). intros n i k _ _ Hk.
    replace k with O by lia. reflexivity.
  - intros m y Hm Hy.
    destruct (layer_is _ _ _ _ _ _ _ _ L2 Hy) as (z & -> & Hz). cbn [bind].
    destruct (layer_is _ _ _ _ _ _ _ _ L1 (map3_is relu _ _ _ _ _ Hz)) as (w & -> & Hw). cbn [bind].
    destruct (zip3_is Rplus _ _ _ _ _ _ _ Hy (map3_is (Rmult (1 / INR N)) _ _ _ _ _ Hw)) as (r & -> & Hr).
    exists r. split; [reflexivity|].
    apply (is3_ext _ _ _ _ _ _ Hr). intros n i k _ _ Hk. replace k with O by lia.
    cbn [euler]. f_equal. f_equal. generalize (euler F (1 / INR N) m (v3 x n i 0%nat)). intros t.
    unfold F, shallow. f_equal. apply rsum_ext. intros j Hj. cbn [rsum]. rewrite relu_pos. f_equal. f_equal. ring.
  - exists y. split; [exact E|]. destruct S as (A & B & C). split; [repeat split; congruence|].
    intros n i Hn Hi. apply H; [exact Hn|exact Hi|lia].
Qed.

(** ** A layer of [ResNet] and the simple shooting model *)
Lemma resnet_layer_euler l1 x :
  simple_block l1 x = (r <- simple_rhs relu [("q1", x)] [("l1", l1)] ;; d <- sd_item "dot_q1" r ;; zip3 Rplus x d).
Proof.
  unfold simple_block, simple_rhs. cbn. destruct (forward l1 (map3 relu x)); reflexivity.
Qed.

(** ** Sharing of weights *)
Lemma double_shared b n x : double_resnet (fun _ => b) n x = double_resnet_rnn b n x.
Proof. unfold double_resnet, double_resnet_rnn. now rewrite sequential_eq. Qed.

Lemma cnn_shared (I O : Type) (plus : I -> I -> result I) scale relu_i conv0 (head : I -> result O) c1 c2 n x :
  cnn_resnet plus scale relu_i conv0 head (fun _ => (c1, c2)) n x = cnn_resrecnet plus scale relu_i conv0 head c1 c2 n x.
Proof. unfold cnn_resnet, cnn_resrecnet. destruct (conv0 x); cbn; [|reflexivity]. now rewrite sequential_eq. Qed.

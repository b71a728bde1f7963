(** The tensorboard hook. *)
From Coq Require Import List String Arith ZArith QArith Qcanon Reals Bool Lia.
From Verif Require Import Base Tensor EnergyModel FixedGridModel RecordModel VecModel GridProofs TensorboardModel TensorboardSpec.
Import ListNotations.
Open Scope string_scope.
Open Scope list_scope.
Open Scope nat_scope.

Lemma sd_item_get {A} k (d : sdict A) : sd_item k d = match sd_get k d with Some v => Ok v | None => Raise KeyError end.
Proof. reflexivity. Qed.

Lemma zero_eq : Qc_eq_bool 0%Qc 0%Qc = true.
Proof. reflexivity. Qed.

Lemma epoch_known d k : epoch_is d k -> epoch_of (Some d) = Ok (HInt k).
Proof. intros [E|(E & ->)]; unfold epoch_of; rewrite E; reflexivity. Qed.

Lemma no_data t os log : linear_transform_hook t os None log = (Raise TypeError, log).
Proof. reflexivity. Qed.

Lemma not_due t os d k log : epoch_is d k -> (t <> 0%Qc \/ (k mod 10 <> 0)%Z) -> linear_transform_hook t os (Some d) log = (Ok tt, log).
Proof.
  intros E H. unfold linear_transform_hook, then_, pure_. rewrite (epoch_known d k E).
  destruct (Qc_eq_bool t 0%Qc) eqn:T; [|reflexivity]. apply Qc_eq_bool_correct in T. destruct H as [H|H]; [destruct (H T)|].
  apply Z.eqb_neq in H. rewrite H. reflexivity.
Qed.

Lemma other_time t os d log : t <> 0%Qc -> linear_transform_hook t os (Some d) log = (Ok tt, log).
Proof.
  intros T. unfold linear_transform_hook, then_, pure_. cbn [epoch_of].
  destruct (Qc_eq_bool t 0%Qc) eqn:Q; [apply Qc_eq_bool_correct in Q; destruct (T Q)|].
  destruct (sd_get "epoch" d); reflexivity.
Qed.

(** An element of a proper tensor. *)
Lemma index_item b n s i : twf b -> tshape b = n :: s ->
  (x <- index_first b i ;; item x) =
  if i <? n then (if Nat.eqb (prod s) 1 then match nth_error (tdata b) i with Some v => Ok v | None => Raise ValueError end else Raise ValueError)
  else Raise IndexError.
Proof.
  intros W S. unfold index_first. rewrite S. destruct (Nat.ltb_spec i n) as [L|L]; [|reflexivity].
  cbn [bind]. unfold item. cbn [tdata]. unfold twf in W. rewrite S in W. change (prod (n :: s)) with (n * prod s) in W.
  assert (LE : List.length (firstn (prod s) (skipn (i * prod s) (tdata b))) = prod s).
  { rewrite firstn_length, skipn_length, W. assert ((i + 1) * prod s <= n * prod s) by (apply Nat.mul_le_mono_r; lia). lia. }
  destruct (Nat.eqb_spec (prod s) 1) as [E|E].
  - rewrite E, Nat.mul_1_r in LE |- *. rewrite E, Nat.mul_1_r in W.
    destruct (nth_error (tdata b) i) as [v|] eqn:N; [|apply nth_error_None in N; lia].
    apply nth_error_split in N as (l1 & l2 & -> & <-). rewrite skipn_app, skipn_all, Nat.sub_diag. reflexivity.
  - destruct (firstn (prod s) (skipn (i * prod s) (tdata b))) as [|x [|y l]]; cbn in LE; [reflexivity|lia|reflexivity].
Qed.

(** What happens when something is to be shown. *)
Lemma due os d k log : epoch_is d k -> (k mod 10 = 0)%Z -> proper os ->
  exists r new, linear_transform_hook 0%Qc os (Some d) log = (r, log ++ new) /\
    ((r = Ok tt /\ shows k os new) \/ ((forall es, ~ shows k os es) /\ (exists e, r = Raise e) /\ List.length new <= 2)).
Proof.
  intros E M P. unfold linear_transform_hook, then_, pure_. rewrite (epoch_known d k E), zero_eq, M. cbn [Z.eqb].
  rewrite sd_item_get. destruct (sd_get "l1" os) as [o|] eqn:O; cbn [bind].
  2:{ eexists _, []. rewrite app_nil_r. split; [reflexivity|]. right. split; [|split; [eauto|cbn; lia]].
      intros es (w & b & n & s & b0 & b1 & bs & (o & Q & _) & _). congruence. }
  rewrite sd_item_get. destruct (sd_get "weight" (po_pars o)) as [w|] eqn:W.
  2:{ eexists _, []. rewrite app_nil_r. split; [reflexivity|]. right. split; [|split; [eauto|cbn; lia]].
      intros es (w & b & n & s & b0 & b1 & bs & (o' & Q1 & Q2 & _) & _). congruence. }
  rewrite sd_item_get. destruct (sd_get "bias" (po_pars o)) as [b|] eqn:B.
  2:{ eexists _, []. rewrite app_nil_r. split; [reflexivity|]. right. split; [|split; [eauto|cbn; lia]].
      intros es (w' & b & n & s & b0 & b1 & bs & (o' & Q1 & Q2 & Q3) & _). congruence. }
  assert (LA : layer os w b) by (exists o; auto). assert (WB := P w b LA).
  assert (U : forall es, shows k os es -> exists n s b0 b1 bs, List.length (tshape w) = 2 /\ tshape b = n :: s /\ prod s = 1 /\ 2 <= n /\
    tdata b = b0 :: b1 :: bs /\ es = [Scalar "bias0" b0 k; Scalar "bias1" b1 k; Image "weight" w k]).
  { intros es (w' & b' & n & s & b0 & b1 & bs & (o' & Q1 & Q2 & Q3) & R). assert (o' = o) by congruence. subst o'.
    assert (w' = w) by congruence. assert (b' = b) by congruence. subst w' b'. exists n, s, b0, b1, bs. exact R. }
  destruct (tshape b) as [|n s] eqn:SB.
  { unfold index_first. rewrite SB. cbn [bind]. eexists _, []. rewrite app_nil_r. split; [reflexivity|]. right.
    split; [|split; [eauto|cbn; lia]]. intros es Q. destruct (U es Q) as (n & s & b0 & b1 & bs & _ & Q1 & _). discriminate Q1. }
  rewrite !(index_item b n s _ WB SB). unfold twf in WB. rewrite SB in WB. change (prod (n :: s)) with (n * prod s) in WB.
  destruct (Nat.ltb_spec 0 n) as [L0|L0].
  2:{ eexists _, []. rewrite app_nil_r. split; [reflexivity|]. right. split; [|split; [eauto|cbn; lia]].
      intros es Q. destruct (U es Q) as (n' & s' & b0 & b1 & bs & _ & Q1 & _ & Q2 & _). injection Q1 as <- <-. lia. }
  destruct (Nat.eqb_spec (prod s) 1) as [PS|PS].
  2:{ eexists _, []. rewrite app_nil_r. split; [reflexivity|]. right. split; [|split; [eauto|cbn; lia]].
      intros es Q. destruct (U es Q) as (n' & s' & b0 & b1 & bs & _ & Q1 & Q2 & _). injection Q1 as <- <-. lia. }
  rewrite PS, Nat.mul_1_r in WB. destruct (tdata b) as [|b0 bs'] eqn:DB; [cbn in WB; lia|]. cbn [nth_error].
  cbn [put]. destruct (Nat.ltb_spec 1 n) as [L1|L1].
  2:{ eexists _, [_]. split; [reflexivity|]. right. split; [|split; [eauto|cbn; lia]].
      intros es Q. destruct (U es Q) as (n' & s' & b0' & b1 & bs & _ & Q1 & _ & Q2 & _). injection Q1 as <- <-. lia. }
  destruct bs' as [|b1 bs]; [cbn in WB; lia|]. cbn [nth_error]. unfold add_image, put, pure_.
  destruct (Nat.eqb_spec (List.length (tshape w)) 2) as [WW|WW].
  - eexists _, [_; _; _]. rewrite <- !app_assoc. split; [reflexivity|]. left. split; [reflexivity|].
    exists w, b, n, s, b0, b1, bs. repeat (split; [assumption|]). reflexivity.
  - eexists _, [_; _]. rewrite <- !app_assoc. split; [reflexivity|]. right. split; [|split; [eauto|cbn; lia]].
    intros es Q. destruct (U es Q) as (n' & s' & b0' & b1' & bs' & Q1 & _). lia.
Qed.

Lemma shows_unique k os es es' : shows k os es -> shows k os es' -> es = es'.
Proof.
  intros (w & b & n & s & b0 & b1 & bs & (o & Q1 & Q2 & Q3) & _ & _ & _ & _ & D & ->)
    (w' & b' & n' & s' & b0' & b1' & bs' & (o' & Q1' & Q2' & Q3') & _ & _ & _ & _ & D' & ->). congruence.
Qed.

Lemma exactly os d k log : epoch_is d k -> (k mod 10 = 0)%Z -> proper os ->
  (forall es, shows k os es -> linear_transform_hook 0%Qc os (Some d) log = (Ok tt, log ++ es)) /\
  ((forall es, ~ shows k os es) -> exists e new, linear_transform_hook 0%Qc os (Some d) log = (Raise e, log ++ new) /\ List.length new <= 2).
Proof.
  intros E M P. destruct (due os d k log E M P) as (r & new & -> & [(-> & S)|(N & (e & ->) & L)]).
  - split; [intros es S'; rewrite (shows_unique _ _ _ _ S' S); reflexivity|]. intros N. destruct (N new S).
  - split; [intros es S'; destruct (N es S')|]. intros _. exists e, new. auto.
Qed.

(** ** All cases together *)
Lemma every_call t os data log : proper os ->
  match data with
  | None => linear_transform_hook t os data log = (Raise TypeError, log)
  | Some d =>
      (t <> 0%Qc -> linear_transform_hook t os data log = (Ok tt, log)) /\
      forall k, epoch_is d k ->
        ((k mod 10 <> 0)%Z -> linear_transform_hook t os data log = (Ok tt, log)) /\
        (t = 0%Qc -> (k mod 10 = 0)%Z ->
          (forall es, shows k os es -> linear_transform_hook t os data log = (Ok tt, log ++ es)) /\
          ((forall es, ~ shows k os es) -> exists e new, linear_transform_hook t os data log = (Raise e, log ++ new) /\ List.length new <= 2))
  end.
Proof.
  intros P. destruct data as [d|]; [|apply no_data]. split; [apply other_time|]. intros k E. split.
  - intros M. apply (not_due t os d k log E). right. exact M.
  - intros -> M. apply (exactly os d k log E M P).
Qed.

(** ** Shapes of the biases *)
Lemma t2_data_length x : List.length (t2_data x) = m0 x * m1 x.
Proof.
  unfold t2_data. assert (G : forall n a, List.length (flat_map (fun i => map (v2 x i) (seq 0 (m1 x))) (seq a n)) = n * m1 x).
  { induction n as [|n IH]; intros a; [reflexivity|]. cbn [seq flat_map]. rewrite app_length, map_length, seq_length, IH. reflexivity. }
  apply G.
Qed.

Lemma objects_get a p k : sd_get k (objects_of a p) =
  match sd_get k p with
  | Some l => Some (mkPobj (("weight", matrix (lin_weight l)) ::
      match lin_bias l with Some b => [("bias", if a then matrix b else mkT [m1 b] (t2_data b))] | None => [] end) [])
  | None => None
  end.
Proof.
  unfold objects_of. induction p as [|(k', l) p IH]; [reflexivity|]. cbn [map fst snd sd_get].
  destruct (String.eqb k k'); [reflexivity|exact IH].
Qed.

Lemma objects_layer a p w b : layer (objects_of a p) w b <->
  exists l c, sd_get "l1" p = Some l /\ lin_bias l = Some c /\ w = matrix (lin_weight l) /\ b = (if a then matrix c else mkT [m1 c] (t2_data c)).
Proof.
  unfold layer. rewrite objects_get. split.
  - intros (o & E & W & B). destruct (sd_get "l1" p) as [l|] eqn:L; [|discriminate E]. injection E as <-. cbn [po_pars] in W, B.
    destruct (lin_bias l) as [c|] eqn:C; cbn in W, B; [|discriminate B]. injection W as <-. injection B as <-. exists l, c. auto.
  - intros (l & c & -> & C & -> & ->). eexists. split; [reflexivity|]. cbn [po_pars]. rewrite C. split; reflexivity.
Qed.

Lemma matrix_shown p l c : sd_get "l1" p = Some l -> lin_bias l = Some c ->
  proper (objects_of true p) /\ (forall k, (exists es, shows k (objects_of true p) es) <-> 2 <= m0 c /\ m1 c = 1).
Proof.
  intros L C. split.
  - intros w b Q. apply objects_layer in Q as (l' & c' & L' & C' & -> & ->). unfold twf. cbn [matrix tdata tshape]. rewrite t2_data_length. cbn. lia.
  - intros k. split.
    + intros (es & w & b & n & s & b0 & b1 & bs & Q & _ & SB & PS & N & _). apply objects_layer in Q as (l' & c' & L' & C' & -> & ->).
      assert (l' = l) by congruence. subst l'. assert (c' = c) by congruence. subst c'. cbn in SB. injection SB as <- <-. cbn in PS. lia.
    + intros (N & M1). assert (D := t2_data_length c). rewrite M1 in D. destruct (t2_data c) as [|b0 [|b1 bs]] eqn:T; try (cbn in D; lia).
      eexists. exists (matrix (lin_weight l)), (matrix c), (m0 c), [m1 c], b0, b1, bs. split; [apply objects_layer; exists l, c; auto|].
      split; [reflexivity|]. split; [reflexivity|]. split; [cbn; lia|]. split; [exact N|]. split; [exact T|]. reflexivity.
Qed.

Lemma vector_shown p l c : sd_get "l1" p = Some l -> lin_bias l = Some c -> m0 c = 1 ->
  proper (objects_of false p) /\ (forall k, (exists es, shows k (objects_of false p) es) <-> 2 <= m1 c).
Proof.
  intros L C M0. assert (D := t2_data_length c). rewrite M0, Nat.mul_1_l in D. split.
  - intros w b Q. apply objects_layer in Q as (l' & c' & L' & C' & -> & ->).
    assert (l' = l) by congruence. subst l'. assert (c' = c) by congruence. subst c'. unfold twf. cbn [tdata tshape]. rewrite D. cbn. lia.
  - intros k. split.
    + intros (es & w & b & n & s & b0 & b1 & bs & Q & _ & SB & PS & N & _). apply objects_layer in Q as (l' & c' & L' & C' & -> & ->).
      assert (l' = l) by congruence. subst l'. assert (c' = c) by congruence. subst c'. cbn in SB. injection SB as <- <-. exact N.
    + intros N. destruct (t2_data c) as [|b0 [|b1 bs]] eqn:T; try (cbn in D; lia).
      eexists. exists (matrix (lin_weight l)), (mkT [m1 c] (t2_data c)), (m1 c), [], b0, b1, bs. split; [apply objects_layer; exists l, c; auto|].
      split; [reflexivity|]. split; [reflexivity|]. split; [reflexivity|]. split; [exact N|]. split; [exact T|]. reflexivity.
Qed.

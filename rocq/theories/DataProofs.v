(** Lemmas about data loaders and sampling. *)
From Coq Require Import String.
From Coq Require Import List ZArith Arith Bool Lia Permutation.
From Verif Require Import Base BaseFacts DataModel.
Import ListNotations.
Open Scope list_scope.
Open Scope nat_scope.

Section Loader.
  Context {X : Type}.
  Implicit Types (l : list X).

  Lemma firstn_plus : forall a c l, firstn (a + c) l = firstn a l ++ firstn c (skipn a l).
  Proof.
    induction a as [|a IH]; intros c l; [reflexivity|].
    destruct l as [|x l]; [cbn; rewrite firstn_nil; reflexivity|]. cbn. rewrite IH. reflexivity.
  Qed.

  Lemma batches_drop : forall fuel b l, 0 < b -> length l <= fuel ->
    concat (batches_of fuel b true l) = firstn (length l / b * b) l /\
    Forall (fun c => length c = b) (batches_of fuel b true l) /\
    length (batches_of fuel b true l) = length l / b.
  Proof.
    induction fuel as [|f IH]; intros b l B H.
    - assert (l = []) by (destruct l; [reflexivity|cbn in H; lia]). subst l. cbn.
      rewrite Nat.div_0_l by lia. split; [reflexivity|]. split; [constructor|reflexivity].
    - cbn [batches_of]. destruct l as [|x l0]; [cbn; rewrite Nat.div_0_l by lia; repeat split; constructor|].
      set (l := x :: l0) in *. destruct (Nat.leb b (length l)) eqn:E.
      + apply Nat.leb_le in E.
        destruct (IH b (skipn b l) B) as (H1 & H2 & H3); [rewrite skipn_length; lia|].
        assert (D : length l / b = S (length (skipn b l) / b)).
        { rewrite skipn_length. replace (length l) with (1 * b + (length l - b)) at 1 by lia.
          rewrite Nat.div_add_l by lia. lia. }
        cbn [concat length]. rewrite H1, H3, D. split; [|split; [|reflexivity]].
        * cbn [Nat.mul]. symmetry. apply firstn_plus.
        * constructor; [rewrite firstn_length; lia|exact H2].
      + apply Nat.leb_gt in E. rewrite (Nat.div_small (length l) b) by lia. repeat split; constructor.
  Qed.

  Lemma batches_keep : forall fuel b l, 0 < b -> length l <= fuel ->
    concat (batches_of fuel b false l) = l /\
    Forall (fun c => 0 < length c <= b) (batches_of fuel b false l).
  Proof.
    induction fuel as [|f IH]; intros b l B H.
    - assert (l = []) by (destruct l; [reflexivity|cbn in H; lia]). subst l. split; constructor.
    - cbn [batches_of]. destruct l as [|x l0]; [split; constructor|].
      set (l := x :: l0) in *. assert (P : 0 < length l) by (unfold l; cbn; lia).
      destruct (Nat.leb b (length l)) eqn:E.
      + apply Nat.leb_le in E.
        destruct (IH b (skipn b l) B) as (H1 & H2); [rewrite skipn_length; lia|].
        cbn [concat]. rewrite H1. split; [apply firstn_skipn|].
        constructor; [rewrite firstn_length; lia|exact H2].
      + apply Nat.leb_gt in E. cbn [concat]. rewrite app_nil_r. split; [reflexivity|].
        constructor; [lia|constructor].
  Qed.

  Lemma div_mul_iff : forall n b, 0 < b -> (n / b * b = n <-> Nat.divide b n).
  Proof.
    intros n b B. split.
    - intros E. exists (n / b). lia.
    - intros [k ->]. rewrite Nat.div_mul by lia. reflexivity.
  Qed.

  (** A loader without shuffling that drops the last batch. *)
  Lemma loader_drop : forall b order l, (0 < b)%Z ->
    exists bs, loader b false true order l = Ok bs /\
      Forall (fun c => Z.of_nat (length c) = b) bs /\
      concat bs = firstn (length l / Z.to_nat b * Z.to_nat b) l /\
      (concat bs = l <-> (b | Z.of_nat (length l))%Z).
  Proof.
    intros b order l B. unfold loader. rewrite (proj2 (Z.leb_gt _ _)) by lia. cbn [andb].
    destruct (batches_drop (length l) (Z.to_nat b) l) as (H1 & H2 & _); [lia|lia|].
    eexists. split; [reflexivity|]. split; [|split; [exact H1|]].
    - eapply Forall_impl; [|exact H2]. cbv beta. intros c E. lia.
    - rewrite H1. assert (Z.to_nat b <> 0) by lia.
      transitivity (length l / Z.to_nat b * Z.to_nat b = length l).
      + split; intros E.
        * apply (f_equal (@length X)) in E. rewrite firstn_length in E.
          pose proof (Nat.div_mod (length l) (Z.to_nat b)). nia.
        * rewrite E. apply firstn_all.
      + rewrite div_mul_iff by lia. split.
        * intros [k E]. exists (Z.of_nat k). nia.
        * intros [k E]. exists (Z.to_nat k). nia.
  Qed.

  (** A shuffled loader that drops the last batch. *)
  Lemma loader_shuffled : forall b order l, (0 < b)%Z -> l <> [] -> Permutation (order l) l ->
    exists bs rest, loader b true true order l = Ok bs /\
      Forall (fun c => Z.of_nat (length c) = b) bs /\
      Permutation (concat bs ++ rest) l /\ (Z.of_nat (length rest) < b)%Z.
  Proof.
    intros b order l B N P. unfold loader. rewrite (proj2 (Z.leb_gt _ _)) by lia.
    replace (Nat.eqb (length l) 0) with false by (symmetry; apply Nat.eqb_neq; destruct l; cbn; [congruence|lia]).
    cbn [andb]. pose proof (Permutation_length P) as L.
    destruct (batches_drop (length l) (Z.to_nat b) (order l)) as (H1 & H2 & _); [lia|lia|].
    exists (batches_of (length l) (Z.to_nat b) true (order l)),
      (skipn (length (order l) / Z.to_nat b * Z.to_nat b) (order l)).
    split; [reflexivity|]. split; [eapply Forall_impl; [|exact H2]; cbv beta; intros c E; lia|].
    rewrite H1, firstn_skipn. split; [exact P|].
    rewrite skipn_length. pose proof (Nat.mod_upper_bound (length (order l)) (Z.to_nat b)).
    pose proof (Nat.div_mod (length (order l)) (Z.to_nat b)). nia.
  Qed.
End Loader.

(** get_data_loaders *)
Lemma supported_cases : forall d,
  existsb (String.eqb d) supported_datasets = true <-> In d supported_datasets.
Proof.
  intros d. rewrite existsb_exists. split.
  - intros (x & I & E). apply String.eqb_eq in E. subst. exact I.
  - intros I. exists d. split; [exact I|apply String.eqb_refl].
Qed.

Definition classes (d : string) : nat := if String.eqb d "CIFAR100"%string then 100 else 10.
Definition side (d : string) : nat := if String.eqb d "MNIST"%string then 28 else 32.

Lemma get_data_loaders_eq : forall X (fetch : string -> bool -> list X) order d aug b tb,
  In d supported_datasets ->
  get_data_loaders fetch order d aug b tb =
    (tr <- loader b true true order (map (fun x => (x, if aug then 28 else side d)) (fetch d true)) ;;
     te <- loader tb false true order (map (fun x => (x, side d)) (fetch d true)) ;;
     ts <- loader tb false true order (map (fun x => (x, side d)) (fetch d false)) ;;
     Ok (tr, ts, te, classes d)).
Proof.
  intros X fetch order d aug b tb I. unfold get_data_loaders.
  rewrite (proj2 (supported_cases d) I). cbn [negb].
  destruct I as [<-|[<-|[<-|[]]]]; destruct aug; reflexivity.
Qed.

Lemma unsupported : forall X (fetch : string -> bool -> list X) order d aug b tb,
  ~ In d supported_datasets -> get_data_loaders fetch order d aug b tb = Raise ValueError.
Proof.
  intros X fetch order d aug b tb H. unfold get_data_loaders.
  destruct (existsb (String.eqb d) supported_datasets) eqn:E; [|reflexivity].
  apply supported_cases in E. contradiction.
Qed.

Lemma map_fst_pair : forall (X Y : Type) (y : Y) (l : list X), map fst (map (fun x => (x, y)) l) = l.
Proof. intros. rewrite map_map. apply map_id. Qed.

Lemma get_data_loaders_ok : forall X (fetch : string -> bool -> list X) order d aug b tb,
  In d supported_datasets -> (0 < b)%Z -> (0 < tb)%Z -> fetch d true <> [] ->
  (forall l, Permutation (order l) l) ->
  exists tr ts te, get_data_loaders fetch order d aug b tb = Ok (tr, ts, te, classes d) /\
    Forall (fun c => Z.of_nat (length c) = b) tr /\
    Forall (fun c => Z.of_nat (length c) = tb) ts /\
    Forall (fun c => Z.of_nat (length c) = tb) te /\
    (exists rest, Permutation (map fst (concat tr) ++ rest) (fetch d true) /\ (Z.of_nat (length rest) < b)%Z) /\
    (map fst (concat ts) = fetch d false <-> (tb | Z.of_nat (length (fetch d false)))%Z) /\
    (map fst (concat te) = fetch d true <-> (tb | Z.of_nat (length (fetch d true)))%Z) /\
    Forall (fun x => snd x = if aug then 28 else side d) (concat tr) /\
    Forall (fun x => snd x = side d) (concat ts) /\ Forall (fun x => snd x = side d) (concat te).
Proof.
  intros X fetch order d aug b tb I B TB N P. rewrite get_data_loaders_eq by exact I.
  assert (A : forall (y : nat) (l : list X) bs, concat bs = firstn (length (map (fun x => (x, y)) l) / Z.to_nat tb * Z.to_nat tb) (map (fun x => (x, y)) l) ->
    (concat bs = map (fun x => (x, y)) l <-> (tb | Z.of_nat (length (map (fun x => (x, y)) l)))%Z) ->
    (map fst (concat bs) = l <-> (tb | Z.of_nat (length l))%Z) /\ Forall (fun x => snd x = y) (concat bs)).
  { intros y l bs E H. rewrite map_length in H. split.
    - rewrite <- H. split; [|intros ->; apply map_fst_pair]. intros C.
      apply (f_equal (@length X)) in C. rewrite E, map_length, firstn_length, map_length in C.
      rewrite E, map_length. apply firstn_all2. rewrite map_length. lia.
    - rewrite E. apply Forall_forall. intros x J.
      assert (J' : In x (map (fun x => (x, y)) l)) by (rewrite <- (firstn_skipn (length (map (fun x => (x, y)) l) / Z.to_nat tb * Z.to_nat tb)); apply in_or_app; left; exact J).
      apply in_map_iff in J'. destruct J' as (z & <- & _). reflexivity. }
  set (ls := map (fun x => (x, if aug then 28 else side d)) (fetch d true)).
  destruct (loader_shuffled b order ls B) as (tr & rest & E1 & F1 & P1 & R1);
    [unfold ls; destruct (fetch d true); cbn; congruence|apply P|].
  destruct (loader_drop tb order (map (fun x => (x, side d)) (fetch d true)) TB) as (te & E2 & F2 & C2 & D2).
  destruct (loader_drop tb order (map (fun x => (x, side d)) (fetch d false)) TB) as (ts & E3 & F3 & C3 & D3).
  rewrite E1. cbn [bind]. rewrite E2. cbn [bind]. rewrite E3. cbn [bind].
  exists tr, ts, te. split; [reflexivity|]. split; [exact F1|]. split; [exact F3|]. split; [exact F2|].
  split.
  { exists (map fst rest). rewrite <- map_app, map_length. split; [|exact R1].
    rewrite P1. unfold ls. rewrite map_fst_pair. reflexivity. }
  destruct (A _ _ _ C3 D3) as [A3 S3]. destruct (A _ _ _ C2 D2) as [A2 S2].
  split; [exact A3|]. split; [exact A2|]. split; [|split; [exact S3|exact S2]].
  apply Forall_forall. intros x J.
  assert (J' : In x ls) by (apply (Permutation_in _ P1), in_or_app; left; exact J).
  apply in_map_iff in J'. destruct J' as (z & <- & _). reflexivity.
Qed.

(** sample *)
Lemma positions_spec : forall v labels i, In i (positions v labels) <-> nth_error labels i = Some v.
Proof.
  intros v labels i. unfold positions. rewrite filter_In, in_seq. split.
  - intros [_ H]. destruct (nth_error labels i) as [x|]; [|discriminate].
    apply Z.eqb_eq in H. subst. reflexivity.
  - intros H. rewrite H, Z.eqb_refl. split; [|reflexivity].
    assert (i < length labels) by (apply nth_error_Some; congruence). lia.
Qed.

Lemma take_ok : forall l idx, Forall (fun i => i < length l) idx ->
  exists r, take l idx = Ok r /\ length r = length idx /\ Forall (fun x => In x l) r.
Proof.
  intros l idx F. induction F as [|i idx H F (r & E & L & A)].
  - exists []. repeat split; constructor.
  - unfold take in *. cbn [mapM]. destruct (nth_error l i) as [x|] eqn:EX;
      [|apply nth_error_None in EX; lia].
    cbn [bind]. rewrite E. cbn [bind]. exists (x :: r). split; [reflexivity|].
    cbn [length]. split; [lia|]. constructor; [eapply nth_error_In; eassumption|exact A].
Qed.

Lemma randint_ok : forall draw n N, 0 < n -> exists r, randint draw n N = Ok r /\ length r = N /\
  Forall (fun i => i < n) r.
Proof.
  intros draw n N H. unfold randint. destruct (Nat.eqb_spec N 0) as [->|Z0].
  - exists []. repeat split; constructor.
  - rewrite (proj2 (Nat.eqb_neq n 0)) by lia. eexists. split; [reflexivity|].
    rewrite map_length, seq_length. split; [reflexivity|].
    apply Forall_forall. intros i I. apply in_map_iff in I. destruct I as (j & <- & _).
    apply Nat.mod_upper_bound. lia.
Qed.

Lemma sample_ok : forall draw1 draw2 targets N,
  N <= length targets -> (forall x, In x targets -> x = 0%Z \/ x = 1%Z) -> In 0%Z targets -> In 1%Z targets ->
  exists i1 i0, sample draw1 draw2 targets N = Ok (i1 ++ i0) /\ length i1 = N /\ length i0 = N /\
    Forall (fun i => nth_error targets i = Some 1%Z) i1 /\
    Forall (fun i => nth_error targets i = Some 0%Z) i0.
Proof.
  intros draw1 draw2 targets N L A H0 H1. unfold sample.
  rewrite (proj2 (Nat.leb_le _ _) L). cbn [negb].
  assert (U : length (nodup Z.eq_dec targets) = 2).
  { assert (P : Permutation (nodup Z.eq_dec targets) [0%Z; 1%Z]).
    { apply NoDup_Permutation; [apply NoDup_nodup|repeat constructor; cbn; intuition congruence|].
      intros x. rewrite nodup_In. cbn. split; [intros I; apply A in I; intuition congruence|].
      intros [<-|[<-|[]]]; assumption. }
    exact (Permutation_length P). }
  rewrite U. cbn [Nat.eqb negb].
  assert (NE : forall v, In v targets -> 0 < length (positions v targets)).
  { intros v I. apply In_nth_error in I. destruct I as [i I].
    apply positions_spec in I. destruct (positions v targets); [destruct I|cbn; lia]. }
  destruct (randint_ok draw1 (length (positions 1 targets)) N (NE 1%Z H1)) as (r0 & E0 & L0 & F0).
  destruct (randint_ok draw2 (length (positions 0 targets)) N (NE 0%Z H0)) as (r1 & E1 & L1 & F1).
  rewrite E0. cbn [bind]. destruct (take_ok _ _ F0) as (i0 & T0 & M0 & I0). rewrite T0. cbn [bind].
  rewrite E1. cbn [bind]. destruct (take_ok _ _ F1) as (i1 & T1 & M1 & I1). rewrite T1. cbn [bind].
  exists i0, i1. split; [reflexivity|]. split; [congruence|]. split; [congruence|].
  split; [eapply Forall_impl; [|exact I0]|eapply Forall_impl; [|exact I1]]; cbv beta;
    intros i I; apply positions_spec; exact I.
Qed.

Lemma sample_too_many : forall draw1 draw2 targets N, length targets < N ->
  sample draw1 draw2 targets N = Raise AssertionError.
Proof.
  intros. unfold sample. rewrite (proj2 (Nat.leb_gt _ _)) by assumption. reflexivity.
Qed.

Lemma sample_one_class : forall draw1 draw2 targets N v, (forall x, In x targets -> x = v) ->
  sample draw1 draw2 targets N = Raise AssertionError.
Proof.
  intros draw1 draw2 targets N v A. unfold sample. destruct (Nat.leb N (length targets)); [|reflexivity].
  cbn [negb]. assert (H : length (nodup Z.eq_dec targets) <= 1).
  { change 1 with (length [v]). apply NoDup_incl_length; [apply NoDup_nodup|].
    intros x I. apply nodup_In in I. left. symmetry. apply A. exact I. }
  rewrite (proj2 (Nat.eqb_neq _ 2)) by lia. reflexivity.
Qed.

Lemma to_numpy_loader : forall (X Y : Type) b order (l : list (X * Y)), (0 < b)%Z -> l <> [] ->
  exists bs, loader b false false order l = Ok bs /\ dataset_to_numpy bs = Ok (map fst l, map snd l).
Proof.
  intros X Y b order l B N. unfold loader. rewrite (proj2 (Z.leb_gt _ _)) by lia. cbn [andb].
  destruct (batches_keep (length l) (Z.to_nat b) l) as (H1 & _); [lia|lia|].
  eexists. split; [reflexivity|]. unfold dataset_to_numpy.
  destruct (batches_of (length l) (Z.to_nat b) false l) eqn:E; [cbn in H1; congruence|].
  rewrite <- !concat_map, H1. reflexivity.
Qed.

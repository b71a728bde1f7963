(** Proofs about data, losses and figures of simple_functional_mapping_example.py. *)
From Coq Require Import String.
From Coq Require Import List Reals ZArith Bool Lia Lra Permutation.
From Verif Require Import Base DataModel DataProofs FunctionalDataModel FunctionalDataSpec.
Import ListNotations.
Open Scope list_scope.
Open Scope R_scope.

Lemma fcn_target : forall t f x, fcn t = Ok f -> target t x (f x).
Proof.
  intros t f x. unfold fcn, target.
  destruct (String.eqb_spec t "cubic"); [intros H; injection H as <-; left; split; [assumption|ring]|].
  destruct (String.eqb_spec t "quadratic"); [|discriminate].
  intros H. injection H as <-. right. split; [assumption|]. field. nra.
Qed.

Lemma fcn_known : forall t, (t = "cubic" \/ t = "quadratic")%string -> exists f, fcn t = Ok f.
Proof. intros t [-> | ->]; eexists; reflexivity. Qed.

Lemma fcn_unknown : forall t, t <> "cubic"%string -> t <> "quadratic"%string -> fcn t = Raise ValueError.
Proof.
  intros t H1 H2. unfold fcn. rewrite (proj2 (String.eqb_neq _ _) H1), (proj2 (String.eqb_neq _ _) H2). reflexivity.
Qed.

Lemma linspace_length : forall a b n, length (linspace a b n) = n.
Proof. intros a b [|[|n]]; cbn -[INR seq]; [reflexivity|reflexivity|]. now rewrite map_length, seq_length. Qed.

Lemma linspace_in : forall m n x, 0 <= m -> In x (linspace (- m) m n) -> - m <= x <= m.
Proof.
  intros m n x Hm. destruct n as [|[|n]].
  - intros [].
  - cbn. intros [<-|[]]. lra.
  - unfold linspace. rewrite in_map_iff. intros (i & <- & Hi). apply in_seq in Hi.
    assert (H0 : 0 <= INR i) by apply pos_INR.
    assert (H1 : INR i <= INR (S (S n)) - 1).
    { rewrite S_INR. assert (INR i <= INR (S n)) by (apply le_INR; lia). lra. }
    assert (H2 : 0 < INR (S (S n)) - 1).
    { rewrite S_INR. assert (0 < INR (S n)) by (apply lt_0_INR; lia). lra. }
    set (d := INR (S (S n)) - 1) in *. replace (m - - m) with (2 * m) by ring.
    assert (H3 : 0 <= INR i * (2 * m / d) <= 2 * m).
    { replace (INR i * (2 * m / d)) with (2 * m * (INR i / d)) by (field; lra).
      assert (0 <= INR i / d) by (apply Rmult_le_pos; [assumption|left; now apply Rinv_0_lt_compat]).
      assert (INR i / d <= 1) by (apply Rmult_le_reg_r with d; [assumption|]; unfold Rdiv; rewrite Rmult_assoc, Rinv_l by lra; lra).
      split; nra. }
    lra.
Qed.

Lemma combine_map_r : forall (A B : Type) (f : A -> B) l, combine l (map f l) = map (fun x => (x, f x)) l.
Proof. induction l as [|x l IH]; cbn; congruence. Qed.

Lemma function_dataset_ok : forall u n uni m t, 0 <= m -> (forall i, 0 <= u i < 1) ->
  (t = "cubic" \/ t = "quadratic")%string ->
  exists ds, function_dataset u n uni m t = Ok ds /\ length ds = n /\
    Forall (fun s => - m <= fst s <= m /\ target t (fst s) (snd s)) ds.
Proof.
  intros u n uni m t Hm Hu Ht. destruct (fcn_known t Ht) as [f Hf].
  unfold function_dataset, get_uniform_sample_batch, get_sample_batch. rewrite Hf. cbn [bind].
  destruct uni; cbn [bind fst snd]; rewrite combine_map_r; eexists; (split; [reflexivity|]); rewrite map_length.
  - rewrite linspace_length. split; [reflexivity|]. apply Forall_forall. intros s Hs.
    apply in_map_iff in Hs. destruct Hs as (x & <- & Hx). cbn [fst snd]. split; [now apply linspace_in in Hx|].
    now apply fcn_target.
  - rewrite map_length, seq_length. split; [reflexivity|]. apply Forall_forall. intros s Hs.
    apply in_map_iff in Hs. destruct Hs as (x & <- & Hx). cbn [fst snd]. split; [|now apply fcn_target].
    apply in_map_iff in Hx. destruct Hx as (i & <- & _). specialize (Hu i). nra.
Qed.

Lemma uniform_dataset_points : forall u n m t ds, function_dataset u n true m t = Ok ds -> (2 <= n)%nat ->
  forall i, (i < n)%nat -> exists y, nth_error ds i = Some (- m + 2 * m * INR i / INR (n - 1), y).
Proof.
  intros u n m t ds H Hn i Hi. unfold function_dataset, get_uniform_sample_batch in H.
  destruct (fcn t) as [f|]; [|discriminate]. cbn [bind fst snd] in H. rewrite combine_map_r in H. injection H as <-.
  destruct n as [|[|n]]; [lia|lia|]. unfold linspace. rewrite map_map.
  assert (E : nth_error (seq 0 (S (S n))) i = Some i).
  { rewrite nth_error_nth' with (d := O) by (rewrite seq_length; lia). now rewrite seq_nth by lia. }
  rewrite (map_nth_error _ _ _ E).
  exists (f (- m + 2 * m * INR i / INR (S (S n) - 1))).
  replace (- m + INR i * ((m - - m) / (INR (S (S n)) - 1))) with (- m + 2 * m * INR i / INR (S (S n) - 1)); [reflexivity|].
  replace (S (S n) - 1)%nat with (S n) by lia. rewrite (S_INR (S n)).
  assert (0 < INR (S n)) by (apply lt_0_INR; lia). field. lra.
Qed.

Lemma one_batch : forall (X : Type) (order : list X -> list X) l, l <> [] ->
  loader (Z.of_nat (length l)) false true order l = Ok [l].
Proof.
  intros X order l Hl. unfold loader. rewrite (proj2 (Z.leb_gt _ _)) by (destruct l; cbn; [congruence|lia]).
  cbn [andb]. rewrite Nat2Z.id.
  destruct (batches_drop (length l) (length l) l) as (H1 & H2 & H3); [destruct l; cbn; [congruence|lia]|lia|].
  assert (N : (length l <> 0)%nat) by (destruct l; cbn; [congruence|lia]).
  rewrite Nat.div_same in H1, H3 by exact N.
  destruct (batches_of _ _ _ _) as [|c [|? ?]]; try discriminate. cbn in H1. rewrite app_nil_r in H1.
  rewrite H1, Nat.add_0_r, firstn_all. reflexivity.
Qed.

Lemma get_loaders_ok : forall u v order n1 n2 n3 n4 b m t,
  0 <= m -> (forall i, 0 <= u i < 1) -> (forall i, 0 <= v i < 1) -> (forall l, Permutation (order l) l) ->
  (t = "cubic" \/ t = "quadratic")%string -> (0 < b)%Z -> (n1 <> 0 /\ n2 <> 0 /\ n3 <> 0 /\ n4 <> 0)%nat ->
  exists train test train_eval vis,
    get_function_data_loaders u v order n1 n2 n3 n4 b m t = Ok (train, [test], [train_eval], [vis]) /\
    length train_eval = n2 /\ length test = n3 /\ length vis = n4 /\
    Forall (fun c => Z.of_nat (length c) = b) train /\ length train = (n1 / Z.to_nat b)%nat /\
    (exists ds, length ds = n1 /\ exists rest, Permutation (concat train ++ rest) ds) /\
    forall s, In s (concat train ++ test ++ train_eval ++ vis) -> - m <= fst s <= m /\ target t (fst s) (snd s).
Proof.
  intros u v order n1 n2 n3 n4 b m t Hm Hu Hv Ho Ht Hb (N1 & N2 & N3 & N4).
  unfold get_function_data_loaders.
  destruct (function_dataset_ok u n1 false m t Hm Hu Ht) as (d1 & E1 & L1 & F1). rewrite E1. cbn [bind].
  assert (D1 : d1 <> []) by (destruct d1; cbn in L1; [congruence|discriminate]).
  assert (ET : loader b true true order d1 = Ok (batches_of (length d1) (Z.to_nat b) true (order d1))).
  { unfold loader. rewrite (proj2 (Z.leb_gt _ _)) by lia.
    replace (Nat.eqb (length d1) 0) with false by (symmetry; apply Nat.eqb_neq; lia). reflexivity. }
  rewrite ET. cbn [bind].
  pose proof (Permutation_length (Ho d1)) as LP.
  destruct (batches_drop (length d1) (Z.to_nat b) (order d1)) as (B1 & B2 & B3); [lia|lia|].
  destruct (function_dataset_ok v n2 false m t Hm Hv Ht) as (d2 & E2 & L2 & F2). rewrite E2. cbn [bind].
  destruct (function_dataset_ok v n3 true m t Hm Hv Ht) as (d3 & E3 & L3 & F3). rewrite E3. cbn [bind].
  destruct (function_dataset_ok v n4 true m t Hm Hv Ht) as (d4 & E4 & L4 & F4). rewrite E4. cbn [bind].
  rewrite <- L2, <- L3, <- L4.
  rewrite !one_batch by (intros ->; cbn in *; congruence). cbn [bind].
  do 4 eexists. split; [reflexivity|]. split; [reflexivity|]. split; [reflexivity|]. split; [reflexivity|].
  split; [eapply Forall_impl; [|exact B2]; cbv beta; intros c E; lia|].
  split; [rewrite B3, LP; now rewrite L1|].
  split.
  - exists d1. split; [exact L1|].
    exists (skipn (length (order d1) / Z.to_nat b * Z.to_nat b) (order d1)).
    rewrite B1, firstn_skipn. apply Ho.
  - intros s. rewrite !in_app_iff, B1. rewrite Forall_forall in F1, F2, F3, F4.
    intros [H|[H|[H|H]]]; auto. apply F1. apply (Permutation_in _ (Ho d1)).
    rewrite <- (firstn_skipn (length (order d1) / Z.to_nat b * Z.to_nat b) (order d1)).
    apply in_or_app. now left.
Qed.

(** Losses. *)

Lemma mse_eq : forall p q, fold_right Rplus 0 (map (fun x => (fst x - snd x) ^ 2) (combine p q)) = square_error p q.
Proof. induction p as [|x p IH]; intros [|y q]; cbn [combine map fold_right square_error fst snd]; try reflexivity. rewrite IH. ring. Qed.

Lemma saved_lookup : forall prefix l,
  saved_under (append prefix "test_loss") (saved_values prefix l) (l_loss l) /\
  saved_under (append prefix "sim_loss") (saved_values prefix l) (l_sim l) /\
  saved_under (append prefix "norm_loss") (saved_values prefix l) (l_norm l) /\
  saved_under (append prefix "norm_penalty") (saved_values prefix l) (l_norm l).
Proof.
  intros prefix l.
  assert (N : forall a b, a <> b -> append prefix a <> append prefix b).
  { intros a b H. induction prefix; cbn; [exact H|]. intros E. injection E. exact IHprefix. }
  unfold saved_values. cbn [saved_under].
  assert (forall a b, a <> b -> append prefix a <> append prefix b) by exact N.
  repeat split.
  - left. now split.
  - right. split; [apply N; discriminate|]. left. now split.
  - right. split; [apply N; discriminate|]. right. split; [apply N; discriminate|]. left. now split.
  - right. split; [apply N; discriminate|]. right. split; [apply N; discriminate|].
    right. split; [apply N; discriminate|]. left. now split.
Qed.

Lemma saved_unique : forall name d v w, saved_under name d v -> saved_under name d w -> v = w.
Proof.
  induction d as [|[k x] d IH]; cbn; intros v w Hv Hw; [contradiction|].
  destruct Hv as [[? <-]|[? Hv]], Hw as [[? <-]|[? Hw]]; try reflexivity; try contradiction. now apply IH.
Qed.

Lemma norm_is_penalty : forall (b : bool) w p,
  (if b then 0 else w * p) = p <-> p = 0 \/ (b = false /\ w = 1).
Proof.
  intros [] w p; split.
  - intros <-. now left.
  - intros [->|[? _]]; [reflexivity|discriminate].
  - intros H. destruct (Req_EM_T p 0) as [Z|NZ]; [now left|right; split; [reflexivity|]].
    apply Rmult_eq_reg_r with p; [lra|exact NZ].
  - intros [->|[_ ->]]; ring.
Qed.

Lemma sfm_saved : forall w penalty pred out, pred <> [] -> length pred = length out ->
  let l := sfm_compute_loss w true penalty pred out in
  let d := saved_values "" l in
  exists sim norm,
    sim = sim_weight w * (square_error pred out / INR (length pred)) /\
    norm = (if no_penalty w then 0 else norm_weight w * penalty) /\
    saved_under "test_loss" d (sim + norm) /\ saved_under "sim_loss" d sim /\ saved_under "norm_loss" d norm /\
    (saved_under "norm_penalty" d penalty <-> penalty = 0 \/ (no_penalty w = false /\ norm_weight w = 1)).
Proof.
  intros w penalty pred out Hp Hl l d.
  assert (E : l_sim l = sim_weight w * (square_error pred out / INR (length pred))).
  { unfold l, sfm_compute_loss, t_mean. cbn [l_sim]. rewrite mse_eq, map_length, combine_length, <- Hl, Nat.min_id. reflexivity. }
  destruct (saved_lookup "" l) as (H1 & H2 & H3 & H4). cbn [append] in *.
  exists (l_sim l), (l_norm l). split; [exact E|]. split; [reflexivity|].
  split; [exact H1|]. split; [exact H2|]. split; [exact H3|].
  rewrite <- norm_is_penalty. split.
  - intros H. exact (saved_unique _ _ _ _ H4 H).
  - intros H. change (if no_penalty w then 0 else norm_weight w * penalty) with (l_norm l) in H. rewrite <- H. exact H4.
Qed.

(** The distances of the predicted points as expected. *)
Lemma absolute_sum : forall p q,
  fold_right Rplus 0 (map (fun x => Rabs (fst x - snd x)) (combine p q)) = absolute_error p q.
Proof.
  induction p as [|x p IH]; intros [|y q]; cbn [combine map fold_right absolute_error fst snd]; try reflexivity.
  now rewrite IH.
Qed.

Lemma square_sum : forall p q,
  fold_right Rplus 0 (map (fun x => (fst x - snd x) ^ 2) (combine p q)) = square_error p q.
Proof.
  induction p as [|x p IH]; intros [|y q]; cbn [combine map fold_right square_error fst snd]; try reflexivity.
  rewrite IH. ring.
Qed.

Lemma square_error_nonneg : forall p q, 0 <= square_error p q.
Proof.
  induction p as [|x p IH]; intros [|y q]; cbn [square_error]; try lra.
  specialize (IH q). pose proof (Rle_0_sqr (x - y)) as S. unfold Rsqr in S. lra.
Qed.

Lemma distance_sum : forall pred y,
  total_distance pred y (fold_right Rplus 0 (map (fun x => dist2 (fst x) (snd x)) (combine pred y))).
Proof.
  induction pred as [|p pred IH]; intros [|q y]; cbn [combine map fold_right total_distance fst snd]; try reflexivity.
  exists (dist2 p q). split; [apply sqrt_pos|]. split.
  - unfold dist2. rewrite square_sum. apply sqrt_sqrt, square_error_nonneg.
  - match goal with |- total_distance _ _ (?a + ?b - ?a) => replace (a + b - a) with b by ring end. apply IH.
Qed.

Lemma t_mean_mul : forall l, l <> [] -> t_mean l * INR (length l) = fold_right Rplus 0 l.
Proof.
  intros l H. unfold t_mean. field. apply not_0_INR. destruct l; [congruence|discriminate].
Qed.

Lemma map_combine_length : forall A B (f : A * A -> B) (p q : list A), length p = length q ->
  length (map f (combine p q)) = length p.
Proof. intros. rewrite map_length, combine_length. lia. Qed.

Lemma concat_same_length : forall A (p q : list (list A)), Forall2 (fun a b => length a = length b) p q ->
  length (concat p) = length (concat q).
Proof. induction 1 as [|a b p q E _ IH]; [reflexivity|]. cbn. rewrite !app_length. lia. Qed.

Lemma spiral_saved : forall prefix w sim_norm penalty pred y l, concat pred <> [] ->
  Forall2 (fun a b => length a = length b) pred y ->
  spiral_compute_loss w sim_norm penalty pred y = Ok l ->
  let d := saved_values prefix l in
  exists m sim norm,
    mean_deviation sim_norm pred y m /\ sim = sim_weight w * m /\
    norm = (if no_penalty w then 0 else norm_weight w * penalty) /\
    saved_under (append prefix "test_loss") d (sim + norm) /\ saved_under (append prefix "sim_loss") d sim /\
    saved_under (append prefix "norm_loss") d norm /\
    (saved_under (append prefix "norm_penalty") d penalty <-> penalty = 0 \/ (no_penalty w = false /\ norm_weight w = 1)).
Proof.
  intros prefix w sim_norm penalty pred y l Hne Hl H d. unfold spiral_compute_loss in H.
  assert (Hm : exists m, mean_deviation sim_norm pred y m /\ l_sim l = sim_weight w * m).
  { destruct (String.eqb_spec sim_norm "l1") as [->|N1].
    - cbn [bind] in H. injection H as <-. cbn [l_sim]. eexists. split; [|reflexivity]. left. split; [reflexivity|].
      rewrite <- absolute_sum. pose proof (concat_same_length _ _ _ Hl) as L.
      rewrite <- (map_combine_length _ _ (fun x => Rabs (fst x - snd x)) _ _ L). apply t_mean_mul.
      intros E. apply (f_equal (@length R)) in E. rewrite map_combine_length in E by exact L.
      apply Hne. now apply length_zero_iff_nil.
    - destruct (String.eqb_spec sim_norm "l2") as [->|N2]; [|discriminate].
      cbn [bind] in H. injection H as <-. cbn [l_sim]. eexists. split; [|reflexivity]. right. split; [reflexivity|].
      assert (L : length pred = length y) by (clear - Hl; induction Hl; cbn; lia).
      rewrite <- (map_combine_length _ _ (fun x => dist2 (fst x) (snd x)) _ _ L). rewrite t_mean_mul.
      + apply distance_sum.
      + intros E. apply (f_equal (@length R)) in E. rewrite map_combine_length in E by exact L.
        apply Hne. apply length_zero_iff_nil in E. now rewrite E. }
  destruct (if String.eqb sim_norm "l1" then _ else _) as [sim|]; [|discriminate]. cbn [bind] in H. injection H as H.
  destruct (saved_lookup prefix l) as (H1 & H2 & H3 & H4). destruct Hm as (m & Hm & Es).
  exists m, (l_sim l), (l_norm l). split; [exact Hm|]. split; [exact Es|].
  split; [now rewrite <- H|]. split.
  { replace (l_sim l + l_norm l) with (l_loss l) by now rewrite <- H. exact H1. }
  split; [exact H2|]. split; [exact H3|].
  rewrite <- norm_is_penalty. replace (if no_penalty w then 0 else norm_weight w * penalty) with (l_norm l) by now rewrite <- H.
  split.
  - intros HP. exact (saved_unique _ _ _ _ H4 HP).
  - intros HP. rewrite <- HP. exact H4.
Qed.

Lemma spiral_accepts : forall w sim_norm penalty pred y,
  (sim_norm = "l1" \/ sim_norm = "l2")%string <-> exists l, spiral_compute_loss w sim_norm penalty pred y = Ok l.
Proof.
  intros. unfold spiral_compute_loss. destruct (String.eqb_spec sim_norm "l1"), (String.eqb_spec sim_norm "l2"); cbn [bind];
    split; intros H; eauto; try (destruct H; congruence).
Qed.

Lemma sfm_baseline_loss : forall w penalty pred out,
  let l := sfm_compute_loss w false penalty pred out in l_loss l = l_sim l /\ l_norm l = 0 /\ l_penalty l = 0.
Proof. intros. cbn. repeat split. ring. Qed.

(** Figures. *)

Lemma cube_le : forall x r, - r <= x <= r -> - (r ^ 3) <= x ^ 3 <= r ^ 3.
Proof.
  intros x r H. split.
  - cut (0 <= (r + x) * ((r - x / 2) ^ 2 + 3 / 4 * x ^ 2)); [intros C; ring_simplify in C; lra|].
    apply Rmult_le_pos; [lra|]. assert (0 <= (r - x / 2) ^ 2) by apply pow2_ge_0. assert (0 <= x ^ 2) by apply pow2_ge_0. lra.
  - cut (0 <= (r - x) * ((r + x / 2) ^ 2 + 3 / 4 * x ^ 2)); [intros C; ring_simplify in C; lra|].
    apply Rmult_le_pos; [lra|]. assert (0 <= (r + x / 2) ^ 2) by apply pow2_ge_0. assert (0 <= x ^ 2) by apply pow2_ge_0. lra.
Qed.

Lemma y_range_cubic : forall r, 0 < r -> exists lo hi, y_range r "cubic" = Ok (lo, hi) /\
  forall x y, - r <= x <= r -> target "cubic" x y -> lo <= y <= hi.
Proof.
  intros r Hr. unfold y_range. cbn [fcn String.eqb bind].
  change (fcn "cubic") with (Ok (fun x : R => x ^ 3)). cbn [bind].
  destruct (Req_EM_T (2 * r) 0); [lra|]. do 2 eexists. split; [reflexivity|].
  intros x y Hx [[_ ->]|[Hq _]]; [|discriminate].
  assert (0 < r ^ 3) by (apply pow_lt; exact Hr).
  assert (M : Rmax (Rabs ((- r) ^ 3)) (Rabs (r ^ 3)) = r ^ 3).
  { replace ((- r) ^ 3) with (- r ^ 3) by ring. rewrite Rabs_Ropp, (Rabs_pos_eq (r ^ 3)) by lra.
    apply Rmax_left. lra. }
  rewrite M. pose proof (cube_le x r Hx). lra.
Qed.

Lemma target_quadratic : forall x y, target "quadratic" x y -> y = x * x + 3 / (1 + x * x).
Proof.
  intros x y [[H _]|[_ H]]; [discriminate|]. assert (0 < 1 + x * x) by nra.
  apply Rmult_eq_reg_r with (1 + x * x); [|lra].
  replace ((x * x + 3 / (1 + x * x)) * (1 + x * x)) with (x * x * (1 + x * x) + 3) by (field; lra). lra.
Qed.

Lemma y_range_quadratic : forall r, 0 < r -> exists lo hi, y_range r "quadratic" = Ok (lo, hi) /\
  lo < hi /\
  (forall x y, target "quadratic" x y -> lo < y) /\
  ((forall x y, - r <= x <= r -> target "quadratic" x y -> y <= hi) <-> 2 <= r * r).
Proof.
  intros r Hr. unfold y_range.
  change (fcn "quadratic") with (Ok (fun x : R => x ^ 2 + 3 / (1 + x ^ 2))). cbn [bind].
  cbn [String.eqb Ascii.eqb Bool.eqb bind]. destruct (Req_EM_T (2 * r) 0); [lra|].
  do 2 eexists. split; [reflexivity|].
  assert (P : forall x, 9 / 4 < x * x + 3 / (1 + x * x)).
  { intros x. assert (0 < 1 + x * x) by nra. apply Rmult_lt_reg_r with (1 + x * x); [assumption|].
    replace ((x * x + 3 / (1 + x * x)) * (1 + x * x)) with (x * x * (1 + x * x) + 3) by (field; lra).
    generalize (x * x). intros s. pose proof (pow2_ge_0 (s - 5 / 8)) as Q. ring_simplify in Q. ring_simplify (s * (1 + s) + 3). lra. }
  assert (M : Rmax (Rabs ((- r) ^ 2 + 3 / (1 + (- r) ^ 2))) (Rabs (r ^ 2 + 3 / (1 + r ^ 2))) = r * r + 3 / (1 + r * r)).
  { replace ((- r) ^ 2) with (r * r) by ring. replace (r ^ 2) with (r * r) by ring.
    rewrite (Rabs_pos_eq (r * r + _)); [apply Rmax_left; lra|]. pose proof (P r). lra. }
  rewrite M. split; [pose proof (P r); lra|]. split.
  - intros x y T. rewrite (target_quadratic _ _ T). pose proof (P x). lra.
  - split.
    + intros H. destruct (Rle_dec 2 (r * r)) as [|N]; [assumption|exfalso].
      assert (T : 3 <= r * r + 3 / (1 + r * r)).
      { apply (H 0 3); [lra|]. right. split; [reflexivity|]. ring. }
      assert (S0 : 0 < 1 + r * r) by nra.
      apply Rmult_le_compat_r with (r := 1 + r * r) in T; [|lra].
      replace ((r * r + 3 / (1 + r * r)) * (1 + r * r)) with (r * r * (1 + r * r) + 3) in T by (field; lra).
      assert (0 < r * r) by nra. nra.
    + intros Hr2 x y Hx T. rewrite (target_quadratic _ _ T).
      assert (S0 : 0 < 1 + r * r) by nra. assert (s0 : 0 < 1 + x * x) by nra.
      assert (X : x * x <= r * r) by nra.
      cut (0 <= (r * r - x * x) * (1 - 3 / ((1 + r * r) * (1 + x * x)))).
      { intros C. replace ((r * r - x * x) * (1 - 3 / ((1 + r * r) * (1 + x * x))))
          with (r * r + 3 / (1 + r * r) - (x * x + 3 / (1 + x * x))) in C by (field; lra). lra. }
      apply Rmult_le_pos; [lra|].
      assert (Q : 3 / ((1 + r * r) * (1 + x * x)) <= 1).
      { apply Rmult_le_reg_r with ((1 + r * r) * (1 + x * x)); [now apply Rmult_lt_0_compat|].
        replace (3 / ((1 + r * r) * (1 + x * x)) * ((1 + r * r) * (1 + x * x))) with 3 by (field; lra). nra. }
      lra.
Qed.

(** Every input of the range can be drawn. *)
Lemma random_covers : forall n m t i x, 0 < m -> (t = "cubic" \/ t = "quadratic")%string -> (i < n)%nat -> - m <= x < m ->
  exists u ds y, (forall j, 0 <= u j < 1) /\ function_dataset u n false m t = Ok ds /\ nth_error ds i = Some (x, y).
Proof.
  intros n m t i x Hm Ht Hi Hx. destruct (fcn_known t Ht) as [f Hf].
  assert (Hu : 0 <= (x + m) / (2 * m) < 1).
  { split.
    - apply Rmult_le_pos; [lra|left; apply Rinv_0_lt_compat; lra].
    - apply Rmult_lt_reg_r with (2 * m); [lra|]. unfold Rdiv. rewrite Rmult_assoc, Rinv_l by lra. lra. }
  exists (fun _ => (x + m) / (2 * m)). eexists. exists (f x). split; [intros; exact Hu|].
  unfold function_dataset, get_sample_batch. rewrite Hf. cbn [bind fst snd]. split; [reflexivity|].
  rewrite combine_map_r, map_map.
  assert (E : nth_error (seq 0 n) i = Some i).
  { rewrite nth_error_nth' with (d := O) by (rewrite seq_length; lia). now rewrite seq_nth by lia. }
  rewrite (map_nth_error _ _ _ E). cbn beta.
  replace (2 * m * ((x + m) / (2 * m)) - m) with x by (field; lra). reflexivity.
Qed.

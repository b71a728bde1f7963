(** Lemmas about the training loops. *)
From Coq Require Import List ZArith QArith Qcanon Bool Lia.
From Verif Require Import Base BaseFacts SchedulerModel LoopModel LoopSpec.
Import ListNotations.
Open Scope nat_scope.

Lemma qltb_true : forall a b, qltb a b = true <-> (a < b)%Qc.
Proof.
  intros a b. unfold qltb. rewrite Qclt_alt. destruct (a ?= b)%Qc; split; congruence.
Qed.

Lemma num_leb_le : forall a b, num_leb a b = true <-> le_num a b.
Proof.
  intros a b. split.
  - destruct a as [x| | |], b as [y| | |]; cbn; intros H; try discriminate;
      try (constructor; discriminate).
    constructor. apply Qcnot_lt_le. intros C. apply qltb_true in C. rewrite C in H. discriminate.
  - intros H; destruct H as [x y H|a H|a H].
    + cbn. destruct (qltb y x) eqn:E; [|reflexivity]. apply qltb_true in E.
      exfalso. exact (Qclt_not_le _ _ E H).
    + destruct a; cbn; congruence.
    + destruct a; cbn; congruence.
Qed.

Lemma le_num_refl : forall a, a <> NaN -> le_num a a.
Proof.
  intros [x| | |] H; try congruence; try (constructor; discriminate).
  constructor. apply Qcle_refl.
Qed.

Lemma le_num_trans : forall a b c, le_num a b -> le_num b c -> le_num a c.
Proof.
  intros a b c H K. destruct H as [x y H|a H|a H].
  - inversion K; subst; [|constructor; discriminate].
    constructor. eapply Qcle_trans; eassumption.
  - inversion K; subst; constructor; assumption.
  - constructor. inversion K; subst; congruence.
Qed.

Lemma le_num_nan : forall a b, le_num a b -> a <> NaN /\ b <> NaN.
Proof. intros a b H. destruct H; split; congruence. Qed.

Lemma le_num_total : forall a b, a <> NaN -> b <> NaN -> ~ le_num a b -> le_num b a.
Proof.
  intros a b HA HB N. destruct a as [x| | |], b as [y| | |]; try congruence;
    try (constructor; discriminate); try (exfalso; apply N; constructor; discriminate).
  constructor. destruct (Qclt_le_dec y x) as [l|l]; [apply Qclt_le_weak; exact l|].
  exfalso. apply N. constructor. exact l.
Qed.

Section Loop.
  Context {W B O : Type}.
  Variable step : bool -> W -> B -> W * (Qc * Qc * Qc).
  Variable infer : bool -> W -> B -> W * O.
  Variable errors_of : O -> list num.
  Variable sched : W -> W.

  Definition s1 (l : Qc * Qc * Qc) := fst (fst l).
  Definition s2 (l : Qc * Qc * Qc) := snd (fst l).
  Definition s3 (l : Qc * Qc * Qc) := snd l.
  Definition sum3 (ls : list (Qc * Qc * Qc)) (a : Qc * Qc * Qc) : Qc * Qc * Qc :=
    ((s1 a + fold_right Qcplus 0 (map s1 ls))%Qc, (s2 a + fold_right Qcplus 0 (map s2 ls))%Qc,
     (s3 a + fold_right Qcplus 0 (map s3 ls))%Qc).

  Lemma run_batches_gen : forall bs w t l,
    fold_left (fun acc b =>
      match acc with
      | (m, l) => let (w, l') := step (n_training m) (n_weights m) b in
                  (mkNet w (n_training m), add3 l l')
      end) bs (mkNet w t, l)
    = (mkNet (trained_on step t w bs) t, sum3 (losses_on step t w bs) l).
  Proof.
    induction bs as [|b bs IH]; intros w t l.
    - cbn. unfold sum3. destruct l as [[x y] z]. unfold s1, s2, s3. cbn.
      rewrite !Qcplus_0_r. reflexivity.
    - cbn [fold_left trained_on losses_on n_training n_weights].
      destruct (step t w b) as [w' l'] eqn:E. rewrite IH. cbn [fst snd].
      f_equal. unfold sum3. cbn [map fold_right]. destruct l as [[x y] z], l' as [[x' y'] z'].
      unfold s1, s2, s3, add3. cbn [fst snd]. rewrite !Qcplus_assoc. reflexivity.
  Qed.

  Lemma run_batches_eq : forall bs w t,
    run_batches step (mkNet w t) bs
    = (mkNet (trained_on step t w bs) t, sum3 (losses_on step t w bs) (0%Qc, 0%Qc, 0%Qc)).
  Proof. intros. apply run_batches_gen. Qed.

  Lemma losses_length : forall bs t w, length (losses_on step t w bs) = length bs.
  Proof. induction bs; intros; cbn; [reflexivity|rewrite IHbs; reflexivity]. Qed.

  Lemma py_avg_mean : forall ls n, length ls = n -> n <> 0 ->
    py_avg (0 + fold_right Qcplus 0 ls)%Qc n = Ok (mean ls).
  Proof.
    intros ls n E N. unfold py_avg, mean, qnat. rewrite Qcplus_0_l, E. destruct n; [congruence|reflexivity].
  Qed.

  Lemma avg3_mean : forall t w bs, bs <> [] ->
    avg3 (sum3 (losses_on step t w bs) (0%Qc, 0%Qc, 0%Qc)) (length bs)
    = Ok (mean (map s1 (losses_on step t w bs)), mean (map s2 (losses_on step t w bs)),
          mean (map s3 (losses_on step t w bs))).
  Proof.
    intros t w bs N. unfold avg3, sum3. cbn [s1 s2 s3 fst snd].
    assert (length bs <> 0) by (destruct bs; cbn; congruence).
    assert (forall f : Qc * Qc * Qc -> Qc, length (map f (losses_on step t w bs)) = length bs)
      by (intros; rewrite map_length; apply losses_length).
    unfold bind. rewrite !py_avg_mean by auto. reflexivity.
  Qed.

  Variable still : forall w b, fst (infer false w b) = w.

  Lemma run_loader_gen : forall bs w os,
    fold_left (fun acc b =>
      match acc with
      | (m, os) => let (w, o) := infer (n_training m) (n_weights m) b in
                   (mkNet w (n_training m), os ++ [o])
      end) bs (mkNet w false, os)
    = (mkNet w false, os ++ map (fun b => snd (infer false w b)) bs).
  Proof.
    induction bs as [|b bs IH]; intros w os; cbn [fold_left map n_training n_weights].
    - rewrite app_nil_r. reflexivity.
    - pose proof (still w b) as E. destruct (infer false w b) as [w' o] eqn:F. cbn [fst] in E. subst w'.
      rewrite IH, <- app_assoc. cbn [app snd]. reflexivity.
  Qed.

  Lemma evaluate_eq : forall m bs,
    evaluate infer m bs = (mkNet (n_weights m) false, map (fun b => snd (infer false (n_weights m) b)) bs).
  Proof. intros. unfold evaluate, run_loader, set_eval. apply run_loader_gen. Qed.

  Variables (batches : nat -> list B) (testset valset : list B) (w0 : W).
  Variable full : forall k, batches k <> [].

  (** What rot.py writes into its record after epoch [k]. *)
  Definition rot_mode (k : nat) : bool := k =? 0.

  Notation after mode := (weights_after step sched mode batches w0).

  Definition rot_entry (k : nat) : entry :=
    let ls := losses_on step (rot_mode k) (after rot_mode k) (batches k) in
    let out := map (fun b => snd (infer false (after rot_mode (S k)) b)) testset in
    mkEntry k (mean (map s1 ls), mean (map s2 ls), mean (map s3 ls)) (np_mean (flat_map errors_of out)) out.

  Lemma rot_epoch_eq : forall k tr t, t = rot_mode k ->
    rot_epoch step infer errors_of sched batches testset (mkNet (after rot_mode k) t, tr) k
    = Ok (mkNet (after rot_mode (S k)) false, tr ++ [rot_entry k]).
  Proof.
    intros k tr t E. subst t. unfold rot_epoch. rewrite run_batches_eq. unfold sched_step.
    cbn [n_weights n_training]. rewrite evaluate_eq. cbn [n_weights].
    rewrite avg3_mean by apply full. reflexivity.
  Qed.

  Lemma rot_epochs : forall n k tr t, t = rot_mode k ->
    foldM (rot_epoch step infer errors_of sched batches testset) (seq k n) (mkNet (after rot_mode k) t, tr)
    = Ok (mkNet (after rot_mode (k + n)) (match n with 0 => t | _ => false end), tr ++ map rot_entry (seq k n)).
  Proof.
    induction n as [|n IH]; intros k tr t E.
    - cbn. rewrite Nat.add_0_r, app_nil_r. reflexivity.
    - cbn [seq foldM map]. rewrite rot_epoch_eq by exact E. cbn [bind].
      rewrite IH by reflexivity. rewrite <- app_assoc, Nat.add_succ_r. destruct n; reflexivity.
  Qed.

  Lemma rot_main_eq : forall n,
    rot_main step infer errors_of sched batches testset w0 n
    = Ok (mkNet (after rot_mode n) false, map rot_entry (seq 0 n),
          map (fun b => snd (infer false (after rot_mode n) b)) testset).
  Proof.
    intros n. unfold rot_main.
    assert (E : rot_loop step infer errors_of sched batches testset w0 n = _)
      by exact (rot_epochs n 0 [] true eq_refl).
    rewrite E. cbn [bind app Nat.add]. unfold set_eval. cbn [n_weights].
    unfold run_loader. rewrite run_loader_gen. reflexivity.
  Qed.

  Lemma rot_main_ok : forall n, exists m tracker images,
    rot_main step infer errors_of sched batches testset w0 n = Ok (m, tracker, images) /\
    n_weights m = after (fun k => k =? 0) n /\ length tracker = n /\
    images = map (fun b => snd (infer false (n_weights m) b)) testset /\
    forall k e, nth_error tracker k = Some e ->
      let ls := losses_on step (k =? 0) (after (fun k => k =? 0) k) (batches k) in
      e_it e = k /\
      e_losses e = (mean (map s1 ls), mean (map s2 ls), mean (map s3 ls)) /\
      e_eval e = map (fun b => snd (infer false (after (fun k => k =? 0) (S k)) b)) testset.
  Proof.
    intros n. do 3 eexists. split; [apply rot_main_eq|]. split; [reflexivity|].
    split; [rewrite map_length; apply seq_length|]. split; [reflexivity|].
    intros k e H. rewrite nth_error_map in H.
    destruct (nth_error (seq 0 n) k) as [j|] eqn:E; [|discriminate].
    assert (j = k).
    { assert (k < n) by (rewrite <- (seq_length n 0); apply nth_error_Some; congruence).
      apply nth_error_nth with (d := 0) in E. rewrite seq_nth in E by assumption. lia. }
    subst j. injection H as <-. split; [reflexivity|]. split; reflexivity.
  Qed.

  (** balls.py *)
  Definition tmode (_ : nat) : bool := true.
  Definition outs (l : list B) (k : nat) : list O := map (fun b => snd (infer false (after tmode (S k)) b)) l.
  Definition err (l : list B) (k : nat) : num := np_mean (flat_map errors_of (outs l k)).
  Variables (T1 : testset <> []) (V1 : valset <> []).

  Lemma error_of_ok : forall l k, l <> [] -> error_of errors_of (outs l k) = Ok (err l k).
  Proof. intros l k H. destruct l; [congruence|reflexivity]. Qed.

  Definition balls_next (st : balls_state) (k : nat) : @balls_state W O :=
    let m := mkNet (after tmode (S k)) false in
    let best := match b_best st with None => err valset k | Some b => b end in
    if num_leb (err valset k) best
    then mkBalls m (Some (err valset k))
           (Some (mkSaved m (err valset k) (outs valset k) (err testset k) (outs testset k)))
    else mkBalls m (Some best) (b_file st).

  Lemma balls_epoch_eq : forall st k, n_weights (b_net st) = after tmode k ->
    balls_epoch step infer errors_of sched batches testset valset st k = Ok (balls_next st k).
  Proof.
    intros st k E. unfold balls_epoch, set_train. rewrite E, run_batches_eq. unfold sched_step.
    cbn [n_weights n_training]. rewrite evaluate_eq. cbn [n_weights].
    change (sched (trained_on step true (after tmode k) (batches k))) with (after tmode (S k)).
    change (map (fun b => snd (infer false (after tmode (S k)) b)) testset) with (outs testset k).
    rewrite error_of_ok by exact T1. cbn [bind]. rewrite evaluate_eq. cbn [n_weights].
    change (map (fun b => snd (infer false (after tmode (S k)) b)) valset) with (outs valset k).
    rewrite error_of_ok by exact V1. cbn [bind]. rewrite avg3_mean by apply full. reflexivity.
  Qed.

  (** The state after [k] epochs. *)
  Fixpoint balls_after (k : nat) : balls_state :=
    match k with
    | 0 => mkBalls (mkNet w0 true) None None
    | S i => balls_next (balls_after i) i
    end.

  Lemma balls_after_net : forall k, n_weights (b_net (balls_after k)) = after tmode k.
  Proof.
    intros [|k]; [reflexivity|]. cbn [balls_after]. unfold balls_next.
    destruct (num_leb _ _); reflexivity.
  Qed.

  Lemma balls_epochs : forall n k,
    foldM (balls_epoch step infer errors_of sched batches testset valset) (seq k n) (balls_after k)
    = Ok (balls_after (k + n)).
  Proof.
    induction n as [|n IH]; intros k; cbn [seq foldM].
    - rewrite Nat.add_0_r. reflexivity.
    - rewrite balls_epoch_eq by apply balls_after_net. cbn [bind].
      change (balls_next (balls_after k) k) with (balls_after (S k)). rewrite IH.
      f_equal. f_equal. lia.
  Qed.

  Lemma balls_main_eq : forall n,
    balls_main step infer errors_of sched batches testset valset w0 n = Ok (balls_after n).
  Proof. intros n. exact (balls_epochs n 0). Qed.

  Lemma balls_nan : err valset 0 = NaN -> forall n, 0 < n ->
    b_best (balls_after n) = Some NaN /\ b_file (balls_after n) = None.
  Proof.
    intros E n H. induction n as [|n IH]; [lia|]. cbn [balls_after]. unfold balls_next.
    destruct n as [|n].
    - cbn [balls_after b_best b_file]. rewrite E. cbn. split; reflexivity.
    - destruct IH as [H1 H2]; [lia|]. rewrite H1, H2.
      destruct (err valset (S n)); cbn; split; reflexivity.
  Qed.

  Lemma balls_best : err valset 0 <> NaN -> forall n, 0 < n -> exists k, k < n /\
    b_best (balls_after n) = Some (err valset k) /\
    b_file (balls_after n) = Some (mkSaved (mkNet (after tmode (S k)) false) (err valset k) (outs valset k)
                                     (err testset k) (outs testset k)) /\
    err valset k <> NaN /\
    (forall j, j < n -> err valset j <> NaN -> le_num (err valset k) (err valset j)) /\
    (forall j, k < j < n -> ~ le_num (err valset j) (err valset k)).
  Proof.
    intros E n H. induction n as [|n IH]; [lia|]. cbn [balls_after]. unfold balls_next.
    destruct n as [|n].
    - exists 0. cbn [balls_after b_best b_file].
      assert (L : num_leb (err valset 0) (err valset 0) = true)
        by (apply num_leb_le, le_num_refl, E).
      rewrite L. cbn [b_best b_file]. split; [lia|]. split; [reflexivity|]. split; [reflexivity|].
      split; [exact E|]. split; [|intros; lia].
      intros j J NJ. replace j with 0 by lia. apply le_num_refl, E.
    - destruct IH as (k & K & HB & HF & HN & HM & HL); [lia|]. rewrite HB.
      destruct (num_leb (err valset (S n)) (err valset k)) eqn:L.
      + exists (S n). apply num_leb_le in L. cbn [b_best b_file].
        destruct (le_num_nan _ _ L) as [N1 _].
        split; [lia|]. split; [reflexivity|]. split; [reflexivity|]. split; [exact N1|].
        split; [|intros; lia].
        intros j J NJ. destruct (Nat.eq_dec j (S n)) as [->|D]; [apply le_num_refl, N1|].
        apply (le_num_trans _ _ _ L). apply HM; [lia|exact NJ].
      + exists k. cbn [b_best b_file].
        split; [lia|]. split; [reflexivity|]. split; [exact HF|]. split; [exact HN|]. split.
        * intros j J NJ. destruct (Nat.eq_dec j (S n)) as [->|D]; [|apply HM; [lia|exact NJ]].
          apply le_num_total; [exact NJ|exact HN|]. intros C. apply num_leb_le in C. congruence.
        * intros j J C. destruct (Nat.eq_dec j (S n)) as [->|D].
          -- apply num_leb_le in C. congruence.
          -- apply (HL j); [lia|exact C].
  Qed.
End Loop.

Section CC.
  Context {W B O : Type}.
  Variable step : bool -> W -> B -> W * (Qc * Qc * Qc).
  Variable infer : bool -> W -> B -> W * O.
  Variable sched : W -> W.
  Variable still : forall w b, fst (infer false w b) = w.
  Variables (batches : nat -> list B) (testset : list B).
  Variable full : forall k, batches k <> [].
  Variable w1 : W.
  Let drawn (k : nat) : list B := batches (1 + 2 * k).
  Notation after := (weights_after step sched tmode drawn w1).

  Definition cc_rowk (k : nat) : cc_row :=
    let w := trained_on step true (after k) (drawn k) in
    mkRow (mean (map s3 (losses_on step true (after k) (drawn k))))
      (map (fun b => snd (infer false w b)) testset)
      (map (fun b => snd (infer false w b)) (firstn 1 (batches (2 + 2 * k)))).

  Lemma cc_epoch_eq : forall k rows t,
    cc_epoch step infer sched batches testset (mkNet (after k) t, rows) k
    = Ok (mkNet (after (S k)) false, rows ++ [cc_rowk k]).
  Proof.
    intros k rows t. unfold cc_epoch, cc_train, set_train. cbn [n_weights].
    rewrite run_batches_eq. cbn [snd sum3 s3].
    assert (N : length (batches (1 + 2 * k)) <> 0)
      by (pose proof (full (1 + 2 * k)); destruct (batches (1 + 2 * k)); cbn; congruence).
    rewrite py_avg_mean by (rewrite ?map_length, ?losses_length; auto). cbn [bind].
    rewrite evaluate_eq by exact still. cbn [n_weights].
    unfold cc_hook, run_loader, set_eval. cbn [n_weights].
    rewrite run_loader_gen by exact still. reflexivity.
  Qed.

  Lemma cc_epochs : forall n k rows t,
    foldM (cc_epoch step infer sched batches testset) (seq k n) (mkNet (after k) t, rows)
    = Ok (mkNet (after (k + n)) (match n with 0 => t | _ => false end), rows ++ map cc_rowk (seq k n)).
  Proof.
    induction n as [|n IH]; intros k rows t.
    - cbn. rewrite Nat.add_0_r, app_nil_r. reflexivity.
    - cbn [seq foldM map]. rewrite cc_epoch_eq. cbn [bind].
      rewrite IH, <- app_assoc, Nat.add_succ_r. destruct n; reflexivity.
  Qed.
End CC.

Lemma cc_main_ok : forall (W B O : Type) (step : bool -> W -> B -> W * (Qc * Qc * Qc))
    (infer : bool -> W -> B -> W * O) (sched : W -> W) (batches : nat -> list B) (testset : list B) (w0 : W) n,
  (forall w b, fst (infer false w b) = w) -> (forall k, batches k <> []) ->
  exists b r m rows, batches 0 = b :: r /\
    cc_main step infer sched batches testset w0 n = Ok (m, rows) /\
    let after := weights_after step sched (fun _ => true) (fun k => batches (1 + 2 * k)) (fst (infer true w0 b)) in
    n_weights m = after n /\ length rows = n /\
    forall k row, nth_error rows k = Some row ->
      let w := trained_on step true (after k) (batches (1 + 2 * k)) in
      r_test row = map (fun b => snd (infer false w b)) testset /\
      r_hook row = map (fun b => snd (infer false w b)) (firstn 1 (batches (2 + 2 * k))) /\
      r_train_loss row = mean (map snd (losses_on step true (after k) (batches (1 + 2 * k)))).
Proof.
  intros W B O step infer sched batches testset w0 n still full.
  unfold cc_main. pose proof (full 0) as F. destruct (batches 0) as [|b r] eqn:E0; [congruence|].
  unfold run_loader. cbn [fold_left n_training n_weights].
  destruct (infer true w0 b) as [w1 o] eqn:E1. cbn [fst].
  assert (E : foldM (cc_epoch step infer sched batches testset) (seq 0 n) (mkNet w1 true, []) = _)
    by exact (cc_epochs step infer sched still batches testset full w1 n 0 [] true).
  rewrite E. cbn [app Nat.add].
  exists b, r. do 2 eexists. split; [reflexivity|]. split; [reflexivity|].
  rewrite E1. cbn [fst]. cbn zeta. split; [reflexivity|]. split; [rewrite map_length; apply seq_length|].
  intros k row H. rewrite nth_error_map in H.
  destruct (nth_error (seq 0 n) k) as [j|] eqn:EJ; [|discriminate].
  assert (j = k).
  { assert (k < n) by (rewrite <- (seq_length n 0); apply nth_error_Some; congruence).
    apply nth_error_nth with (d := 0) in EJ. rewrite seq_nth in EJ by assumption. lia. }
  subst j. injection H as <-. split; [reflexivity|]. split; reflexivity.
Qed.

(** The statements about balls.py in terms of its result. *)
Section Balls.
  Context {W B O : Type}.
  Variable step : bool -> W -> B -> W * (Qc * Qc * Qc).
  Variable infer : bool -> W -> B -> W * O.
  Variable errors_of : O -> list num.
  Variable sched : W -> W.
  Variables (batches : nat -> list B) (testset valset : list B) (w0 : W).
  Hypothesis still : forall w b, fst (infer false w b) = w.
  Hypothesis full : forall k, batches k <> [].
  Hypotheses (T1 : testset <> []) (V1 : valset <> []).
  Notation after := (weights_after step sched (fun _ => true) batches w0).
  Notation outs_at := (fun l k => map (fun b => snd (infer false (after (S k)) b)) l).
  Notation err_at := (fun l k => np_mean (flat_map errors_of (outs_at l k))).

  Lemma balls_weights : forall n, exists st,
    balls_main step infer errors_of sched batches testset valset w0 n = Ok st /\
    n_weights (b_net st) = after n.
  Proof.
    intros n. eexists. split.
    - exact (balls_main_eq step infer errors_of sched still batches testset valset w0 full T1 V1 n).
    - apply balls_after_net.
  Qed.

  Lemma balls_saved : forall n, 0 < n -> err_at valset 0 <> NaN -> exists st k f, k < n /\
    balls_main step infer errors_of sched batches testset valset w0 n = Ok st /\
    b_file st = Some f /\ s_net f = mkNet (after (S k)) false /\
    s_val f = err_at valset k /\ s_val_out f = outs_at valset k /\
    s_test f = err_at testset k /\ s_test_out f = outs_at testset k /\
    (forall j, j < n -> err_at valset j <> NaN -> le_num (err_at valset k) (err_at valset j)) /\
    (forall j, k < j < n -> ~ le_num (err_at valset j) (err_at valset k)).
  Proof.
    intros n H E.
    pose proof (balls_main_eq step infer errors_of sched still batches testset valset w0 full T1 V1 n) as M.
    destruct (balls_best step infer errors_of sched batches testset valset w0 E n H)
      as (k & K & _ & HF & _ & HM & HL).
    do 3 eexists. split; [exact K|]. split; [exact M|]. split; [exact HF|].
    repeat (split; [reflexivity|]). split; [exact HM|exact HL].
  Qed.

  Lemma balls_never : forall n, err_at valset 0 = NaN -> exists st,
    balls_main step infer errors_of sched batches testset valset w0 n = Ok st /\ b_file st = None.
  Proof.
    intros n E. eexists. split.
    - exact (balls_main_eq step infer errors_of sched still batches testset valset w0 full T1 V1 n).
    - destruct n as [|n]; [reflexivity|].
      exact (proj2 (balls_nan step infer errors_of sched batches testset valset w0 E (S n) (Nat.lt_0_succ n))).
  Qed.
End Balls.

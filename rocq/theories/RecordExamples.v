(** Instances of recorded runs. *)
From Coq Require Import List String Arith ZArith QArith Qcanon Qreals Reals Lra Lia Sorting.Sorted.
From Verif Require Import Base Tensor EnergyModel FixedGridModel FixedGridSpec FixedGridProofs HooksModel HooksSpec HooksProofs ComplexityModel ComplexitySpec.
From Verif Require Import RecordModel RecordSpec RecordProofs RecordProofs2 RecordProofs3 RecordProofs4 RecordProofs5 SpiralModel.
Import ListNotations.
Open Scope string_scope.
Open Scope list_scope.
Open Scope nat_scope.

(** A linear layer with the weights 0 and 2, recorded while integrating x' = x. *)
Definition ex_args (t : Qc) (y : Qc) : hook_args := example_call (qr t) 0.
(** Both norms of the row 0, 2. *)
Definition ex_norm (t : tensor R) : R := 2%R.
(** A run from 1. *)
Definition ex_run (name : string) (h : Qc) (t : list Qc) : result (list (list Qc)) * hook_data :=
  match method_eff Qcplus Qcmult (hooked ex_norm ex_norm (fun _ y : Qc => y) ex_args) name with
  | Some se => evaluations (fixed_grid_eff Qcplus Qcmult se (Some h)) [(1%Qc, t)] (HRecord [])
  | None => (Raise ValueError, HOther)
  end.

Lemma ex_usual : usual_arguments ex_args.
Proof.
  intros t y. split; [reflexivity|]. split; [apply example_call_ok|].
  intros k o p w [I|[]] J N. injection I as <- <-. cbn in J. destruct J as [J|[J|[]]]; injection J as <- <-.
  - cbn. split; [reflexivity|discriminate].
  - exfalso; apply N; reflexivity.
Qed.

Lemma ex_squares t y : sum_of_norms sum_squares (h_pars (ex_args t y)) = 4%R.
Proof. unfold sum_of_norms, sum_parameters. cbn. unfold sum_squares. cbn. lra. Qed.
Lemma ex_norms t y : sum_of_norms (fun t => ex_norm t ^ 2)%R (h_pars (ex_args t y)) = 4%R.
Proof. unfold sum_of_norms, sum_parameters, ex_norm. cbn. lra. Qed.

Lemma good_one : good_times [[0%Qc; 1%Qc]].
Proof. repeat constructor. Qed.

Lemma qr_int (z : Z) : qr (Q2Qc (inject_Z z)) = IZR z.
Proof. unfold qr. change (this (Q2Qc (inject_Z z))) with (Qred (inject_Z z)). rewrite (Qeq_eqR _ _ (Qred_correct _)). unfold Q2R. cbn. lra. Qed.
Lemma qr0 : qr 0%Qc = 0%R. Proof. exact (qr_int 0). Qed.
Lemma qr1 : qr 1%Qc = 1%R. Proof. exact (qr_int 1). Qed.
Lemma qr_half : qr (Q2Qc (1 # 2)) = (1 / 2)%R.
Proof. unfold qr. cbn. unfold Q2R. cbn. lra. Qed.

Lemma log_pos : (0 < ln 4 / ln 2)%R.
Proof. assert (0 < ln 2)%R by (rewrite <- ln_1; apply ln_increasing; lra). assert (0 < ln 4)%R by (rewrite <- ln_1; apply ln_increasing; lra).
  apply Rdiv_lt_0_compat; assumption. Qed.

(** The measure of the run from 0 to 1 in halves. *)
Lemma ex_measure name : In name ["euler"; "midpoint"; "rk4"] ->
  exists values d n,
    ex_run name (Q2Qc (1 # 2)) [0%Qc; 1%Qc] = (Ok values, HRecord d) /\
    let s := (0 + times n (Q2Qc (1 # 2)))%Qc in
    (s < 1)%Qc /\ (1 <= 0 + times (S n) (Q2Qc (1 # 2)))%Qc /\
    let e := last (stage_times name (s, 1%Qc)) 0%Qc in
    let m := EFin ((qr e - qr 0%Qc) * (ln 4 / ln 2))%R in
    compute_complexity_measures (numeric d) = Ok (m, m, m).
Proof.
  intros I.
  assert (exists se step, method_eff Qcplus Qcmult (hooked ex_norm ex_norm (fun _ y : Qc => y) ex_args) name = Some se /\
    method Qcplus Qcmult (fun _ y : Qc => y) name = Some step) as (se & step & ME & M).
  { destruct I as [<-|[<-|[<-|[]]]]; eexists; eexists; split; reflexivity. }
  unfold ex_run. rewrite ME.
  exact (single_constant Qcplus Qcmult ex_norm ex_norm (fun _ y : Qc => y) ex_args ex_usual (Q2Qc (1 # 2)) eq_refl name se step
    1%Qc [0%Qc; 1%Qc] 4 4 4 ME M good_one ltac:(lra) ltac:(lra) ltac:(lra) ex_squares ex_norms ex_norms).
Qed.

Lemma ex_n n : (0 + times n (Q2Qc (1 # 2)) < 1)%Qc -> (1 <= 0 + times (S n) (Q2Qc (1 # 2)))%Qc -> n = 1.
Proof.
  intros A B. assert (H : (0 < Q2Qc (1 # 2))%Qc) by reflexivity.
  rewrite Qcplus_0_l in A, B. assert (E : 1%Qc = times 2 (Q2Qc (1 # 2))) by (apply Qc_is_canon; reflexivity). rewrite E in A, B.
  apply (times_le_inv 2 (S n) _ H) in B. destruct (le_lt_dec 2 n) as [L|L]; [|lia]. exfalso.
  destruct (proj1 (Nat.lt_eq_cases 2 n) L) as [L2| <-].
  - apply (times_lt 2 n _ H) in L2. exact (Qclt_not_le _ _ L2 (Qclt_le_weak _ _ A)).
  - exact (Qclt_not_le _ _ A (Qcle_refl _)).
Qed.

Lemma example_missing : forall name, In name ["euler"; "midpoint"] ->
  exists values d m,
    ex_run name (Q2Qc (1 # 2)) [0%Qc; 1%Qc] = (Ok values, HRecord d) /\
    compute_complexity_measures (numeric d) = Ok (EFin m, EFin m, EFin m) /\
    (forall t y, sum_of_norms sum_squares (h_pars (ex_args t y)) = 4)%R /\
    (m < total_time [[0%Qc; 1%Qc]] * (ln 4 / ln 2))%R.
Proof.
  intros name I. destruct (ex_measure name) as (v & d & n & E & A & B & C); [destruct I as [<-|[<-|[]]]; cbn; auto|].
  rewrite (ex_n n A B) in C. exists v, d. eexists. split; [exact E|]. split; [exact C|]. split; [exact ex_squares|].
  apply Rmult_lt_compat_r; [exact log_pos|]. unfold total_time, final_time, first. cbn [map fold_right last hd]. rewrite qr0, qr1.
  destruct I as [<-|[<-|[]]]; unfold stage_times; cbn [String.eqb Ascii.eqb Bool.eqb last].
  - replace (0 + times 1 (Q2Qc (1 # 2)))%Qc with (Q2Qc (1 # 2)) by (apply Qc_is_canon; reflexivity). rewrite qr_half. lra.
  - replace ((0 + times 1 (Q2Qc (1 # 2)) + 1) / Q2Qc 2)%Qc with (Q2Qc (3 # 4)) by (apply Qc_is_canon; reflexivity).
    replace (qr (Q2Qc (3 # 4))) with (3 / 4)%R by (unfold qr; cbn; unfold Q2R; cbn; lra). lra.
Qed.

Lemma example_runs :
  let ts := [[0%Qc; 1%Qc]; [0%Qc; Q2Qc (1 # 2); Q2Qc 2]; [Q2Qc 2; Q2Qc 3]] in
  good_times ts /\ restarts ts /\ total_time ts = 4%R /\
  (forall t y, sum_of_norms sum_squares (h_pars (ex_args t y)) = 4)%R /\
  uniform 1%Qc [0%Qc; 1%Qc; Q2Qc 2] /\
  get_time_chunks 3 [0%Qc; 1%Qc; Q2Qc 2] 2 true = Some [[0%Qc; 1%Qc]; [0%Qc; 1%Qc]] /\
  exists values d, ex_run "rk4" (Q2Qc (1 # 2)) [0%Qc; 1%Qc] = (Ok values, HRecord d) /\
    compute_complexity_measures (numeric d) = Ok (EFin (1 * (ln 4 / ln 2)), EFin (1 * (ln 4 / ln 2)), EFin (1 * (ln 4 / ln 2)))%R.
Proof.
  intros ts. split; [repeat constructor|]. split; [|split; [|split; [exact ex_squares|split; [|split; [reflexivity|]]]]].
  - cbn [restarts ts]. split; [|split]; [..|exact I]; unfold first, final_time; cbn [hd last]; discriminate.
  - unfold total_time, ts, final_time, first. cbn [map fold_right last hd].
    replace (Q2Qc 2) with (Q2Qc (inject_Z 2)) by reflexivity. replace (Q2Qc 3) with (Q2Qc (inject_Z 3)) by reflexivity.
    rewrite qr0, qr1, !qr_int. lra.
  - split; [reflexivity|]. exists 0%Qc, 3. cbn [seq map]. repeat (apply f_equal2; [apply Qc_is_canon; reflexivity|]). reflexivity.
  - destruct (ex_measure "rk4") as (v & d & n & E & A & B & C); [cbn; auto|]. exists v, d. split; [exact E|].
    cbn zeta in C. replace (qr (last (stage_times "rk4" ((0 + times n (Q2Qc (1 # 2)))%Qc, 1%Qc)) 0%Qc) - qr 0%Qc)%R with 1%R in C; [exact C|].
    unfold stage_times. cbn [String.eqb Ascii.eqb Bool.eqb last]. rewrite qr0, qr1. lra.
Qed.

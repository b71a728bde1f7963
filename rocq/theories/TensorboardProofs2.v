(** The parameters of the analytic solutions, and passes through blocks, with the tensorboard hook. *)
From Coq Require Import Lqa List String Arith ZArith QArith Qcanon Reals Bool Lia Sorting.Sorted.
From Verif Require Import Base BaseFacts Tensor EnergyModel IntegratorModel GridProofs FixedGridModel FixedGridSpec FixedGridProofs RecordModel RecordSpec RecordProofs RecordProofs3.
From Verif Require Import VecModel TensorboardModel TensorboardSpec TensorboardProofs.
Import ListNotations.
Open Scope string_scope.
Open Scope list_scope.
Open Scope nat_scope.

(** The bias of the first layer is the average of the first costate. *)
Definition averaged (p : pars) (p1 : t3) : Prop :=
  exists l c, sd_get "l1" p = Some l /\ lin_bias l = Some c /\ m0 c = n1 p1 /\ m1 c = n2 p1.

Lemma divided b w : m0 (divide_by_if_not_none b w) = m0 b /\ m1 (divide_by_if_not_none b w) = m1 b.
Proof. destruct w; split; reflexivity. Qed.

Lemma bias_stored b os os' : store_bias "l1" b os = Ok os' ->
  exists l c, sd_get "l1" os' = Some l /\ lin_bias l = Some c /\ m0 c = m0 b /\ m1 c = m1 b.
Proof.
  unfold store_bias. rewrite sd_item_get. destruct (sd_get "l1" os) as [l|]; cbn [bind]; [|discriminate]. intros E. injection E as <-.
  rewrite sd_get_set_same. eexists _, _. split; [reflexivity|]. split; [reflexivity|]. apply divided.
Qed.

Lemma weight_kept o w os os' p1 : averaged os p1 -> store_weight o w os = Ok os' -> averaged os' p1.
Proof.
  intros (l & c & L & C & D). unfold store_weight. rewrite sd_item_get. destruct (sd_get o os) as [l'|] eqn:O; cbn [bind]; [|discriminate].
  intros E. injection E as <-. destruct (String.eqb_spec "l1" o) as [<-|N].
  - rewrite L in O. injection O as <-. eexists _, c. rewrite sd_get_set_same. split; [reflexivity|]. auto.
  - exists l, c. rewrite sd_get_set_other by congruence. auto.
Qed.

Lemma bias_kept o b os os' p1 : o <> "l1" -> averaged os p1 -> store_bias o b os = Ok os' -> averaged os' p1.
Proof.
  intros N (l & c & L & C & D). unfold store_bias. rewrite sd_item_get. destruct (sd_get o os) as [l'|] eqn:O; cbn [bind]; [|discriminate].
  intros E. injection E as <-. exists l, c. rewrite sd_get_set_other by congruence. auto.
Qed.

Lemma set_kept o l' os p1 : o <> "l1" -> averaged os p1 -> averaged (sd_set o l' os) p1.
Proof. intros N (l & c & L & D). exists l, c. rewrite sd_get_set_other by congruence. auto. Qed.

Lemma missing_weight o w os os' : o <> "l1" -> sd_get "l1" os = None -> store_weight o w os = Ok os' -> sd_get "l1" os' = None.
Proof.
  intros N L. unfold store_weight. rewrite sd_item_get. destruct (sd_get o os); cbn [bind]; [|discriminate].
  intros E. injection E as <-. rewrite sd_get_set_other by congruence. exact L.
Qed.

Lemma missing_bias o w os os' : o <> "l1" -> sd_get "l1" os = None -> store_bias o w os = Ok os' -> sd_get "l1" os' = None.
Proof.
  intros N L. unfold store_bias. rewrite sd_item_get. destruct (sd_get o os); cbn [bind]; [|discriminate].
  intros E. injection E as <-. rewrite sd_get_set_other by congruence. exact L.
Qed.

Ltac steps_of H := repeat match type of H with
  | bind ?m _ = Ok _ => let E := fresh "E" in destruct m eqn:E; cbn [bind] in H; [|discriminate H]
  end.

Section Averages.
Variables nl : R -> R.
Variable init : inits.
Variables d f np : nat.
Variable W : option R.
Variable ow : R.

Lemma mean_bias p1 os os' : store_bias "l1" (mean0 p1) os = Ok os' -> averaged os' p1.
Proof. intros E. destruct (bias_stored _ _ _ E) as (l & c & H). exists l, c. exact H. Qed.

Lemma sum_bias p1 os os' : store_bias "l1" (bias_of np p1) os = Ok os' -> averaged os' p1.
Proof. intros E. destruct (bias_stored _ _ _ E) as (l & c & H). exists l, c. exact H. Qed.

Ltac averages := repeat match goal with
  | E : store_weight ?o ?w ?os = Ok ?p |- averaged ?p _ => apply (weight_kept o w os p _); [|exact E]
  | E : store_bias "l1" (mean0 ?q) ?os = Ok ?p |- averaged ?p ?q => apply (mean_bias q os p E)
  | E : store_bias "l1" (bias_of np ?q) ?os = Ok ?p |- averaged ?p ?q => apply (sum_bias q os p E)
  | E : store_bias ?o ?w ?os = Ok ?p |- averaged ?p _ => apply (bias_kept o w os p _); [discriminate| |exact E]
  end.

Lemma all_averaged s c p p1 : sd_get "p_q1" c = Some p1 ->
  In (Ok p) [updown_parameters nl init d f W s c; universal_parameters nl init d f W ow s c; simple_parameters nl init d W np s c;
    debug_parameters nl init d W np s c; symmetrized_parameters nl init d f W s c; periodic_parameters nl init d f W s c] -> averaged p p1.
Proof.
  intros P [H|[H|[H|[H|[H|[H|[]]]]]]].
  - unfold updown_parameters in H. rewrite (sd_item_get "p_q1" c), P in H. steps_of H. averages.
  - unfold universal_parameters in H. rewrite (sd_item_get "p_q1" c), P in H. steps_of H. averages.
  - unfold simple_parameters in H. rewrite (sd_item_get "p_q1" c), P in H. steps_of H. averages.
  - unfold debug_parameters in H. rewrite (sd_item_get "p_q1" c), P in H. steps_of H. averages.
  - unfold symmetrized_parameters in H. rewrite (sd_item_get "p_q1" c), P in H. steps_of H.
    refine (bias_kept "l3" _ _ _ _ ltac:(discriminate) _ H). apply set_kept; [discriminate|]. averages.
  - unfold periodic_parameters in H. rewrite (sd_item_get "p_q1" c), P in H. steps_of H. averages.
Qed.

Lemma analytic s c p p1 data k log : sd_get "p_q1" c = Some p1 ->
  In (Ok p) [updown_parameters nl init d f W s c; universal_parameters nl init d f W ow s c; simple_parameters nl init d W np s c;
    debug_parameters nl init d W np s c; symmetrized_parameters nl init d f W s c; periodic_parameters nl init d f W s c] ->
  epoch_is data k -> (k mod 10 = 0)%Z ->
  fst (linear_transform_hook 0%Qc (objects_of true p) (Some data) log) = Ok tt <-> 2 <= n1 p1 /\ n2 p1 = 1.
Proof.
  intros P I E M. destruct (all_averaged s c p p1 P I) as (l & b & L & B & <- & <-).
  destruct (matrix_shown p l b L B) as (PR & S). rewrite <- (S k).
  destruct (due _ _ _ log E M PR) as (r & new & -> & [(-> & SH)|(N & (e & ->) & _)]); cbn [fst]; split.
  - eauto.
  - reflexivity.
  - discriminate.
  - intros (es & SH). destruct (N es SH).
Qed.

Lemma general_missing s c p data k log : general_parameters nl init d f W s c = Ok p ->
  epoch_is data k -> (k mod 10 = 0)%Z ->
  linear_transform_hook 0%Qc (objects_of true p) (Some data) log = (Raise KeyError, log).
Proof.
  intros H E M. assert (N : sd_get "l1" p = None).
  { unfold general_parameters in H. steps_of H.
    repeat match goal with
    | Q : store_weight ?o ?w ?os = Ok ?p |- sd_get "l1" ?p = None => apply (missing_weight o w os p); [discriminate| |exact Q]
    | Q : store_bias ?o ?w ?os = Ok ?p |- sd_get "l1" ?p = None => apply (missing_bias o w os p); [discriminate| |exact Q]
    end. reflexivity. }
  unfold linear_transform_hook, then_, pure_. rewrite (epoch_known data k E), zero_eq, M. cbn [Z.eqb].
  rewrite sd_item_get, objects_get, N. reflexivity.
Qed.
End Averages.

Lemma default_bias p l c data k log : sd_get "l1" p = Some l -> lin_bias l = Some c -> m0 c = 1 ->
  epoch_is data k -> (k mod 10 = 0)%Z ->
  fst (linear_transform_hook 0%Qc (objects_of false p) (Some data) log) = Ok tt <-> 2 <= m1 c.
Proof.
  intros L C M0 E M. destruct (vector_shown p l c L C M0) as (PR & S). rewrite <- (S k).
  destruct (due _ _ _ log E M PR) as (r & new & -> & [(-> & SH)|(N & (e & ->) & _)]); cbn [fst]; split.
  - eauto.
  - reflexivity.
  - discriminate.
  - intros (es & SH). destruct (N es SH).
Qed.

(** ** Passes *)
Section Passes.
Context {X : Type}.
Variable add : X -> X -> X.
Variable mul : Qc -> X -> X.
Variable f : Qc -> X -> X.
Variable parameters : Qc -> X -> pobjs.
Variable shown : Z -> X -> list entry.
Hypothesis shown_ok : forall k x, shows k (parameters 0%Qc x) (shown k x).
Hypothesis proper_ok : forall x, proper (parameters 0%Qc x).

(** What an evaluation adds. *)
Let adds (k : Z) (ty : Qc * X) : list entry := if Qc_eq_bool (fst ty) 0%Qc then (if (k mod 10 =? 0)%Z then shown k (snd ty) else []) else [].

Lemma hook_adds d k : epoch_is d k -> forall t y log, True ->
  with_tensorboard f parameters (Some d) t y log = (Ok (f t y), log ++ adds k (t, y)) /\ True.
Proof.
  intros E t y log _. split; [|exact I]. unfold with_tensorboard, then_, adds. cbn [fst snd].
  destruct (Qc_eq_bool t 0%Qc) eqn:T.
  - apply Qc_eq_bool_correct in T. subst t. destruct (Z.eqb_spec (k mod 10) 0) as [M|M].
    + destruct (exactly (parameters 0%Qc y) d k log E M (proper_ok y)) as (Q & _). rewrite (Q _ (shown_ok k y)). reflexivity.
    + rewrite (not_due 0%Qc (parameters 0%Qc y) d k log E (or_intror M)), app_nil_r. reflexivity.
  - rewrite (other_time t (parameters t y) d log), app_nil_r; [reflexivity|]. intros ->. discriminate T.
Qed.

Lemma adds_none k calls : Forall (fun c => (0 < fst c)%Qc) calls -> forall log, fold_left (fun h c => h ++ adds k c) calls log = log.
Proof.
  induction 1 as [|(t, y) calls L F IH]; intros log; [reflexivity|]. cbn [fold_left]. rewrite IH. unfold adds. cbn [fst] in *.
  destruct (Qc_eq_bool t 0%Qc) eqn:T; [|apply app_nil_r]. apply Qc_eq_bool_correct in T. subst t. discriminate L.
Qed.

Lemma stages_after name a b : (a < b)%Qc -> exists r, stage_times name (a, b) = a :: r /\ Forall (fun s => (a < s)%Qc) r.
Proof.
  intros L. assert (H2 : (a < (a + b) / Q2Qc 2)%Qc).
  { unfold Qcdiv, Qclt in *. rewrite this_mult, this_plus. change (this (/ Q2Qc 2)%Qc) with (1 # 2)%Q. Lqa.lra. }
  assert (H3 : (a < (Q2Qc 2 * a + b) / Q2Qc 3)%Qc /\ (a < (a + Q2Qc 2 * b) / Q2Qc 3)%Qc).
  { unfold Qcdiv, Qclt in *. rewrite !this_mult, !this_plus, !this_mult. change (this (/ Q2Qc 3)%Qc) with (1 # 3)%Q.
    change (this (Q2Qc 2)) with 2%Q. split; Lqa.lra. }
  destruct H3 as (H3 & H4). unfold stage_times.
  destruct (String.eqb name "euler"); [|destruct (String.eqb name "midpoint")]; eexists; (split; [reflexivity|]); repeat (constructor; try assumption).
Qed.

Lemma times_after name g : forall a, StronglySorted Qclt (a :: g) ->
  (forall b r, g = b :: r -> exists q, run_times name (a :: g) = a :: q /\ Forall (fun s => (a < s)%Qc) q).
Proof.
  intros a S b r ->. inversion S as [|? ? S1 F]; subst. inversion F as [|? ? L F']; subst.
  destruct (stages_after name a b L) as (q & E & Q). change (run_times name (a :: b :: r)) with (stage_times name (a, b) ++ run_times name (b :: r)).
  rewrite E. exists (q ++ run_times name (b :: r)). split; [reflexivity|]. apply Forall_app. split; [exact Q|].
  destruct (run_times_sorted name r b S1) as (_ & B). eapply Forall_impl; [|exact B]. intros s LE. exact (Qclt_le_trans _ _ _ L LE).
Qed.

Variable name : string.
Variable h : Qc.
Hypothesis Hh : (0 < h)%Qc.
Variable step : Qc -> Qc -> X -> X.
Hypothesis M : method add mul f name = Some step.

Lemma one_pass d k x t : epoch_is d k -> 2 <= List.length t -> StronglySorted Qclt t -> (0 <= first t)%Qc ->
  exists values, fixed_grid add mul step (Some h) x t = Ok values /\
    forall log, forward_pass add mul f parameters name h (Some d) x t log =
      (Ok values, log ++ adds k (first t, x)).
Proof.
  intros E L S P. unfold forward_pass.
  destruct (method_eff add mul (with_tensorboard f parameters (Some d)) name) as [se|] eqn:ME.
  2:{ exfalso. unfold method_eff in ME. unfold method in M. destruct (String.eqb name "euler"); [discriminate ME|].
      destruct (String.eqb name "midpoint"); [discriminate ME|]. destruct (String.eqb name "rk4"); [discriminate ME|discriminate M]. }
  destruct (run_calls add mul f step (fun _ => True) (fun c log => log ++ adds k c) _ (hook_adds d k E) name se h x t ME M Hh L S)
    as (g & values & G & FG & R).
  exists values. split; [exact FG|]. intros log. rewrite (R log I). f_equal.
  destruct (grid_sorted h _ _ _ Hh G) as (SG & _ & m & n & EG & _).
  destruct g as [|b g]; [destruct m as [|? [|? m]]; discriminate EG|].
  assert (T : map fst (List.concat (blocks add mul f step name (first t) (b :: g) x)) = run_times name (first t :: b :: g)).
  { rewrite concat_map, blocks_times. unfold run_times. rewrite flat_map_concat_map. reflexivity. }
  destruct (times_after name (b :: g) (first t) SG b g eq_refl) as (q & EQ & FQ). rewrite EQ in T.
  cbn [blocks List.concat] in T |- *.
  assert (SC : exists rest, step_calls add mul f name (first t) (b - first t)%Qc x = (first t, x) :: rest).
  { unfold step_calls. destruct (String.eqb name "euler"); [eexists; reflexivity|]. destruct (String.eqb name "midpoint"); eexists; reflexivity. }
  destruct SC as (rest & SC). rewrite SC in T |- *. cbn [app map fst] in T. injection T as T. unfold after. cbn [app fold_left].
  apply adds_none. rewrite <- T in FQ. apply (proj1 (Forall_map _ _ _)) in FQ. eapply Forall_impl; [|exact FQ]. intros c A. exact (Qcle_lt_trans _ _ _ P A).
Qed.

(** What a pass is expected to add. *)
Lemma all_passes ps : Forall (fun p => let '(data, _, t) := p in
    (exists d k, data = Some d /\ epoch_is d k) /\ 2 <= List.length t /\ StronglySorted Qclt t /\ (0 <= first t)%Qc) ps ->
  exists values news,
    Forall2 (fun p v => fixed_grid add mul step (Some h) (snd (fst p)) (snd p) = Ok v) ps values /\
    Forall2 (fun p new => forall d k, fst (fst p) = Some d -> epoch_is d k ->
      new = if Qc_eq_bool (first (snd p)) 0%Qc && (k mod 10 =? 0)%Z then shown k (snd (fst p)) else []) ps news /\
    forall log, forward_passes add mul f parameters name h ps log = (Ok values, log ++ List.concat news).
Proof.
  induction 1 as [|((data, x), t) ps ((d & k & -> & E) & L & S & P) F (values & news & F1 & F2 & R)].
  - exists [], []. split; [constructor|]. split; [constructor|]. intros log. cbn. rewrite app_nil_r. reflexivity.
  - destruct (one_pass d k x t E L S P) as (v & FG & Q). exists (v :: values), (adds k (first t, x) :: news).
    split; [constructor; assumption|]. split.
    + constructor; [|exact F2]. cbn [fst snd]. intros d' k' Q1 Q2. injection Q1 as <-.
      assert (k' = k) as -> by (destruct E as [E|(E & ->)], Q2 as [Q2|(Q2 & ->)]; congruence).
      unfold adds. cbn [fst snd]. destruct (Qc_eq_bool (first t) 0%Qc), (k mod 10 =? 0)%Z; reflexivity.
    + intros log. cbn [forward_passes]. unfold then_. rewrite Q, R. unfold give. cbn [List.concat]. rewrite app_assoc. reflexivity.
Qed.
End Passes.

(** One forward pass of the model of cc.py. *)
From Coq Require Import List String ZArith Reals Lra Bool Lia Arith.
From Verif Require Import Base BaseFacts Tensor VecNet VecModel VecInit VecSpec VecFlow RecordModel.
From Verif Require Import VecProofs VecProofs2 VecProofs3 VecProofs4 VecProofs5 VecProofs8 VecProofs9 CirclesModel CirclesSpec.
Import ListNotations.
Open Scope string_scope.
Open Scope list_scope.
Open Scope nat_scope.

(** ** Joining states *)
Lemma in_place_good names pre pre' N D s : has_states names pre N D s -> forall r, has_states names pre' N D r ->
  exists l, in_place_of s r = Ok l /\ has_states names pre N D l.
Proof.
  induction 1 as [|nd [q x] names s [Eq O] Hs IH]; intros r Hr; inversion Hr as [|? [o y] ? r' [Eo O'] Hr']; subst.
  - exists []. split; constructor.
  - cbn [fst snd] in *. destruct O as (A & B & C), O' as (A' & B' & C'). destruct (IH r' Hr') as (l & E & L). cbn [in_place_of]. unfold shapes_agree.
    rewrite A, B, C, A', B', C', !Nat.eqb_refl. cbn [andb]. rewrite E. cbn [bind]. eexists. split; [reflexivity|].
    constructor; [|exact L]. split; [exact Eq|repeat split; assumption].
Qed.

Lemma axpy_good names pre pre' N D a x : has_states names pre' N D x -> forall y, has_states names pre N D y ->
  exists l, axpy a x y = Ok l /\ has_states names pre N D l.
Proof.
  induction 1 as [|nd [q x] names s [Eq O] Hs IH]; intros r Hr; inversion Hr as [|? [o y] ? r' [Eo O'] Hr']; subst.
  - exists []. split; constructor.
  - cbn [fst snd] in *. destruct O as (A & B & C), O' as (A' & B' & C'). destruct (IH r' Hr') as (l & E & L). cbn [axpy]. unfold shapes_agree.
    rewrite A, B, C, A', B', C', !Nat.eqb_refl. cbn [andb]. rewrite E. cbn [bind]. eexists. split; [reflexivity|].
    constructor; [|exact L]. split; [exact Eo|repeat split; reflexivity].
Qed.

Lemma scale_good names pre N D a x : has_states names pre N D x -> has_states names pre N D (scale a x).
Proof.
  induction 1 as [|nd [q y] names s [Eq [A [B C]]] Hs IH]; [constructor|]. cbn [scale map]. constructor; [|exact IH].
  split; [exact Eq|repeat split; assumption].
Qed.

Lemma first_state k names B l : has_states (("q1", k) :: names) "" B 1 l -> exists q, sd_item "q1" l = Ok q /\ of_shape B 1 k q.
Proof.
  intros H. inversion H as [|? [q x] ? ? [Eq X] ?]; subst. cbn in Eq. subst q. exists x. split; [reflexivity|exact X].
Qed.

Section Pass.
Variables nl dnl : R -> R.
Variable pw : R.
Hypothesis PW : pw <> 0%R.
Variable b : block.
Hypothesis N0 : 0 < b_particles b.
Notation N := (b_particles b).
Notation d := (b_dim b).
Notation e := (b_dim b * b_inflation b).

Definition net_of : net :=
  match b_model b with Simple => simple_net nl dnl d | UpDown => updown_net nl dnl d e | Universal => universal_net nl dnl d e end.
Notation names := (net_states net_of).

Lemma objects_ok en : pars_ok net_of (model_objects pw b en).
Proof.
  unfold net_of, model_objects. destruct (b_model b).
  - apply simple_pars_ok.
  - apply updown_pars_ok.
  - apply universal_pars_ok.
Qed.

Lemma rhs_good B D s th : has_states names "" B D s -> pars_ok net_of th ->
  exists r, model_rhs nl b s th = Ok r /\ has_states names "dot_" B D r.
Proof.
  intros S P.
  assert (C : conforms net_of (model_rhs nl b)).
  { unfold net_of, model_rhs. destruct (b_model b); [apply simple_conforms|apply updown_conforms|apply universal_conforms]. }
  destruct (C B D s th S P) as (r & E & H & _). exists r. split; assumption.
Qed.

Lemma costate_good s c th : has_states names "" N 1 s -> has_states names "p_" N 1 c -> pars_ok net_of th ->
  exists r, model_costate nl dnl b s c th = Ok r /\ has_states names "dot_p_" N 1 r.
Proof.
  intros S C P.
  assert (CC : costate_conforms net_of N 1 (model_costate nl dnl b)).
  { unfold net_of, model_costate. destruct (b_model b); [apply simple_costates|apply updown_costates|apply universal_costates]. }
  destruct (CC s c th S C P) as (r & E & H & _). exists r. split; assumption.
Qed.

Lemma parameters_good en s c : has_states names "" N 1 s -> has_states names "p_" N 1 c ->
  exists th, model_parameters nl pw b en s c = Ok th /\ pars_ok net_of th.
Proof.
  intros S C. assert (HW : effective (Some pw) <> 0%R) by exact PW. assert (How : (1 / 10 <> 0)%R) by lra.
  assert (O := objects_ok en). unfold net_of, model_parameters, model_objects in *. destruct (b_model b).
  - destruct (simple_formula nl dnl (e_layers en) d (Some pw) HW N 1 N0 s c eq_refl S C) as (th & E & F & _).
    exists th. split; [exact E|apply (same_objects_ok _ _ O th F)].
  - destruct (updown_formula nl dnl (e_layers en) d (b_inflation b) (Some pw) HW N 1 N0 s c S C) as (th & E & _ & _ & F).
    exists th. split; [exact E|apply (same_objects_ok _ _ O th (proj1 (F eq_refl)))].
  - destruct (universal_formula nl dnl (e_layers en) d (b_inflation b) (Some pw) HW (1 / 10) How N 1 N0 s c S C) as (th & E & _ & _ & F).
    exists th. split; [exact E|apply (same_objects_ok _ _ O th (proj1 (F eq_refl)))].
Qed.

(** ** The start *)
Lemma states_good ini : has_states names "" N 1 (model_states b ini).
Proof.
  unfold net_of, model_states. destruct (b_model b); repeat (constructor; [split; [reflexivity|repeat split]|]); constructor.
Qed.
Lemma costates_good en : has_states names "p_" N 1 (model_costates b en).
Proof.
  unfold model_costates, net_of, model_states. destruct (b_model b); repeat (constructor; [split; [reflexivity|repeat split]|]); constructor.
Qed.

Definition good (B : nat) (y : system) : Prop :=
  has_states names "" N 1 (sys_state y) /\ has_states names "p_" N 1 (sys_costate y) /\ has_states names "" B 1 (sys_data y).
Definition kept_ok (k : option pars) : Prop := match k with Some th => pars_ok net_of th | None => True end.

(** The parameters of an evaluation. *)
Definition current (en : entries) (kept : option pars) (y : system) : result pars :=
  if b_free b then Ok (model_objects pw b en)
  else match b_rnn b, kept with
       | true, Some th => Ok th
       | _, _ => model_parameters nl pw b en (sys_state y) (sys_costate y)
       end.
Lemma current_good en B kept y : good B y -> kept_ok kept -> exists th, current en kept y = Ok th /\ pars_ok net_of th.
Proof.
  intros (S & C & _) K. unfold current. destruct (b_free b).
  - eexists. split; [reflexivity|apply objects_ok].
  - destruct (b_rnn b); [destruct kept as [th|]|].
    + exists th. split; [reflexivity|exact K].
    + apply parameters_good; assumption.
    + apply parameters_good; assumption.
Qed.

(** An evaluation when the hook, if any, succeeds. *)
Lemma evaluate_good en hooked B t y kept n : good B y -> kept_ok kept ->
  exists th y', pars_ok net_of th /\ good B y' /\
    evaluate nl dnl pw b en hooked t y (kept, n) =
      let (r, n') := if hooked then linear_transform_hook t (sys_state y) th n else (Ok tt, n) in
      (_ <- r ;; Ok y', (Some th, n')).
Proof.
  intros G K. destruct (current_good en B kept y G K) as (th & E & P). destruct G as (S & C & D).
  destruct (rhs_good _ _ _ _ S P) as (ds & Es & Hs). destruct (rhs_good _ _ _ _ D P) as (dx & Ex & Hx).
  destruct (costate_good _ _ _ S C P) as (dp & Ep & Hp).
  destruct (in_place_good _ _ _ _ _ _ S _ Hs) as (s' & Es' & Gs). destruct (in_place_good _ _ _ _ _ _ C _ Hp) as (c' & Ec' & Gc).
  destruct (in_place_good _ _ _ _ _ _ D _ Hx) as (x' & Ex' & Gx).
  exists th, (mkSystem s' c' x'). split; [exact P|]. split; [repeat split; assumption|].
  unfold evaluate. fold (current en kept y). rewrite E. cbn [bind]. rewrite Es. cbn [bind]. rewrite Ex. cbn [bind]. rewrite Ep. cbn [bind].
  destruct (if hooked then linear_transform_hook t (sys_state y) th n else (Ok tt, n)) as [[u|x] n'].
  - cbn [bind]. rewrite Es'. cbn [bind]. rewrite Ec'. cbn [bind]. rewrite Ex'. reflexivity.
  - reflexivity.
Qed.

Lemma fetch_good B env j : Forall (good B) env -> j < List.length env -> exists y, fetch env j = Ok y /\ good B y.
Proof.
  intros F L. destruct (nth_error env j) as [y|] eqn:E.
  - exists y. unfold fetch. rewrite E. split; [reflexivity|]. apply nth_error_In in E. exact (proj1 (Forall_forall _ _) F y E).
  - apply nth_error_None in E. lia.
Qed.

Lemma sys_axpy_good B a x y : good B x -> good B y -> exists z, sys_axpy a x y = Ok z /\ good B z.
Proof.
  intros (A1 & A2 & A3) (B1 & B2 & B3). unfold sys_axpy.
  destruct (axpy_good _ _ _ _ _ a _ A1 _ B1) as (l1 & -> & G1). destruct (axpy_good _ _ _ _ _ a _ A2 _ B2) as (l2 & -> & G2).
  destruct (axpy_good _ _ _ _ _ a _ A3 _ B3) as (l3 & -> & G3). cbn [bind]. eexists. split; [reflexivity|repeat split; assumption].
Qed.

Lemma combine_good B env first others : Forall (good B) env -> snd first < List.length env -> Forall (fun ak => snd ak < List.length env) others ->
  exists z, (x <- fetch env (snd first) ;;
      z <- foldM (fun acc bk => y <- fetch env (snd bk) ;; sys_axpy (fst bk) y acc) others (sys_scale (fst first) x) ;; Ok (env ++ [z]))
      = Ok (env ++ [z]) /\ good B z.
Proof.
  intros F L1 L2. destruct (fetch_good B env _ F L1) as (x & -> & (G1 & G2 & G3)). cbn [bind].
  assert (G : good B (sys_scale (fst first) x)) by (repeat split; apply scale_good; assumption).
  revert G. generalize (sys_scale (fst first) x) as acc. induction L2 as [|[a k] others L L2 IH]; intros acc G.
  - exists acc. split; [reflexivity|exact G].
  - cbn [foldM fst snd] in *. destruct (fetch_good B env _ F L) as (y & -> & Gy). cbn [bind].
    destruct (sys_axpy_good B a y acc Gy G) as (z & -> & Gz). cbn [bind]. apply IH. exact Gz.
Qed.

(** ** Recordings *)
Lemma series_append k k' v n : series k (sd_set k' (match sd_get k' n with Some l => l | None => [] end ++ [v]) n) =
  if String.eqb k k' then series k n ++ [v] else series k n.
Proof.
  unfold series. destruct (String.eqb_spec k k') as [->|X].
  - rewrite sd_get_set_same. reflexivity.
  - rewrite sd_get_set_other by exact X. reflexivity.
Qed.

Lemma matrices_snoc m a c l w : matrices m a c l -> m0 w = a -> m1 w = c -> matrices (S m) a c (l ++ [NPar w]).
Proof.
  intros (ws & -> & L & F) A C. exists (ws ++ [w]). rewrite map_app, app_length, L. split; [reflexivity|]. split; [cbn; lia|].
  apply Forall_app. split; [exact F|]. constructor; [split; assumption|constructor].
Qed.

Lemma hook_good t s th times n : b_model b <> Simple -> d = 2 -> has_states names "" N 1 s -> pars_ok net_of th ->
  recording N e times n -> exists n', linear_transform_hook t s th n = (Ok tt, n') /\ recording N e (times ++ [t]) n'.
Proof.
  intros M D2 S P (R1 & (qs & R2 & R3 & R4) & R5 & R6 & R7 & R8).
  assert (Q : exists q, sd_item "q1" s = Ok q /\ of_shape N 1 2 q).
  { unfold net_of in S. rewrite D2 in S. destruct (b_model b); [contradiction| |];
      inversion S as [|? [q x] ? ? [Eq X] ? ]; subst; cbn in Eq; subst q; exists x; (split; [reflexivity|exact X]). }
  destruct Q as (q & Eq & Hq).
  assert (L : exists l1 l2 b1 b2, sd_item "l1" th = Ok l1 /\ sd_item "l2" th = Ok l2 /\ lin_bias l1 = Some b1 /\ lin_bias l2 = Some b2 /\
      (m0 (lin_weight l1) = 2 /\ m1 (lin_weight l1) = e) /\ (m0 b1 = 1 /\ m1 b1 = 2) /\
      (m0 (lin_weight l2) = e /\ m1 (lin_weight l2) = 2) /\ (m0 b2 = 1 /\ m1 b2 = e)).
  { unfold net_of in P. revert P. destruct (b_model b); [contradiction| |]; intros P;
      (inversion P as [|? [o1 x1] ? p1 L1 P1]; subst; inversion P1 as [|? [o2 x2] ? p2 L2 P2]; subst;
       destruct L1 as (E1 & A1 & A2 & (b1 & A3 & A4 & A5)); destruct L2 as (E2 & B1 & B2 & (b2 & B3 & B4 & B5));
       cbn in E1, A1, A2, A3, A4, A5, E2, B1, B2, B3, B4, B5; subst o1 o2;
       exists x1, x2, b1, b2; repeat split; try reflexivity; try assumption; congruence). }
  destruct L as (l1 & l2 & b1 & b2 & E1 & E2 & E3 & E4 & (W1 & W2) & (V1 & V2) & (W3 & W4) & (V3 & V4)).
  unfold linear_transform_hook, then_, append_note, lift, bias_item. rewrite Eq, E1, E2, E3, E4.
  eexists. split; [reflexivity|]. unfold recording. rewrite !series_append. cbn [String.eqb Ascii.eqb Bool.eqb].
  rewrite map_app, app_length, R1. cbn [map List.length]. rewrite Nat.add_1_r. split; [reflexivity|].
  split.
  { exists (qs ++ [q]). rewrite map_app, app_length, R2, R3. cbn. split; [reflexivity|]. split; [lia|].
    apply Forall_app. split; [exact R4|constructor; [exact Hq|constructor]]. }
  split; [apply matrices_snoc; assumption|]. split; [apply matrices_snoc; assumption|]. split; apply matrices_snoc; assumption.
Qed.

Lemma empty_recording : recording N e [] [].
Proof.
  repeat split; try (exists []; split; [reflexivity|split; [reflexivity|constructor]]).
Qed.

(** ** The whole integration *)
Definition noting (hooked : bool) (times : list R) (n : notes) : Prop := if hooked then recording N e times n else n = [].

Lemma integrate_good en hooked B : (hooked = true -> b_model b <> Simple /\ d = 2) ->
  forall prog env kept times n, Forall (good B) env -> kept_ok kept -> well_formed (List.length env) prog -> noting hooked times n ->
  exists env' kept' n', integrate nl dnl pw b en hooked prog env (kept, n) = (Ok (env ++ env'), (kept', n')) /\
    Forall (good B) env' /\ kept_ok kept' /\ noting hooked (times ++ evaluation_times prog) n'.
Proof.
  intros HK. induction prog as [|i prog IH]; intros env kept times n G K W T.
  { exists [], kept, n. rewrite app_nil_r. cbn [evaluation_times flat_map]. rewrite app_nil_r.
    refine (conj eq_refl (conj _ (conj K T))). constructor. }
  cbn [integrate]. unfold then_ at 1.
  assert (X : exists y' kept' n' ts, instruct nl dnl pw b en hooked env i (kept, n) = (Ok (env ++ [y']), (kept', n')) /\ good B y' /\ kept_ok kept' /\
      evaluation_times (i :: prog) = ts ++ evaluation_times prog /\ noting hooked (times ++ ts) n' /\ well_formed (S (List.length env)) prog).
  { destruct i as [t j|[a j] others]; cbn [well_formed snd] in W.
    - destruct W as [Lj W]. destruct (fetch_good B env j G Lj) as (y & Ey & Gy).
      destruct (evaluate_good en hooked B t y kept n Gy K) as (th & y' & P & G' & E).
      cbn [instruct]. unfold then_, lift, give. rewrite Ey, E. destruct hooked.
      + destruct (HK eq_refl) as [M D2]. destruct (hook_good t (sys_state y) th times n M D2 (proj1 Gy) P T) as (n' & Eh & T').
        rewrite Eh. cbn [bind]. exists y', (Some th), n', [t].
        refine (conj eq_refl (conj G' (conj P (conj eq_refl (conj T' W))))).
      + cbn [bind]. exists y', (Some th), n, [t].
        refine (conj eq_refl (conj G' (conj P (conj eq_refl (conj T W))))).
    - destruct W as (L1 & L2 & W). destruct (combine_good B env (a, j) others G L1 L2) as (z & E & Gz).
      cbn [instruct]. unfold lift. cbn [fst snd] in E. rewrite E. exists z, kept, n, []. rewrite app_nil_r.
      refine (conj eq_refl (conj Gz (conj K (conj eq_refl (conj T W))))). }
  destruct X as (y' & kept' & n' & ts & -> & Gy & K' & -> & T' & W').
  destruct (IH (env ++ [y']) kept' (times ++ ts) n') as (env' & k2 & n2 & -> & G2 & K2 & T2); try assumption.
  - apply Forall_app. split; [exact G|constructor; [exact Gy|constructor]].
  - rewrite app_length. cbn. rewrite Nat.add_1_r. exact W'.
  - exists (y' :: env'), k2, n2. rewrite <- app_assoc. cbn [app]. split; [reflexivity|]. split; [constructor; assumption|].
    split; [exact K2|]. rewrite <- app_assoc in T2. exact T2.
Qed.

Lemma last_in {A} (l : list A) x : l <> [] -> In (List.last l x) l.
Proof.
  induction l as [|a l IH]; intros H; [contradiction|]. destruct l as [|c l]; [left; reflexivity|]. right. apply IH. discriminate.
Qed.

Lemma mode_sizes en : mode_of_sizes 1 d e (model_data_mode b en).
Proof.
  unfold model_data_mode. destruct (b_optimize b) as [s|]; [|exact I].
  assert (M : mode_of_sizes 1 d e (MiniNN (snn_linear (e_data_init en "init_l1") d 10 true None)
      (snn_linear (e_data_init en "init_l2") 10 e true None))).
  { cbn. repeat split; eexists; repeat split. }
  destruct (String.eqb_spec s "direct") as [->|N1]; [cbn; split; reflexivity|].
  destruct (String.eqb_spec s "linear") as [->|N2]; [cbn; repeat split; eexists; repeat split|].
  revert N1 N2 M. generalize (MiniNN (snn_linear (e_data_init en "init_l1") d 10 true None) (snn_linear (e_data_init en "init_l2") 10 e true None)).
  intros mm N1 N2 M.
  repeat match goal with
  | |- context [match ?s with EmptyString => _ | String _ _ => _ end] => destruct s as [|? s]; try exact M
  | |- context [match ?c with Ascii.Ascii _ _ _ _ _ _ _ _ => _ end] => destruct c as [[] [] [] [] [] [] [] []]; try exact M
  end; contradiction.
Qed.

Lemma data_good en B x : of_shape B 1 d x -> exists s, model_data nl b en x = Ok s /\ has_states names "" B 1 s.
Proof.
  intros X. destruct (all_data_sizes nl d (b_inflation b) B 1 x (model_data_mode b en) X (mode_sizes en)) as ((s & E & S) & _ & S1 & _).
  unfold model_data, net_of. destruct (b_model b); [eexists; split; [reflexivity|exact S1]|exists s; split; assumption|exists s; split; assumption].
Qed.

(** A pass of points with the right number of features. *)
Lemma forward_good en hooked training B : (hooked = true -> b_model b <> Simple) -> d = 2 -> well_formed 1 (e_prog en) ->
  (training = true -> B <> 1) ->
  exists n', model_forward nl dnl pw b en hooked training B [] = (Ok (B, 1), n') /\ noting hooked (evaluation_times (e_prog en)) n'.
Proof.
  intros HK D2 W TB. unfold model_forward, block_forward, then_, lift.
  destruct (data_good en B (mkT3 B 1 2 (e_batch en))) as (s & -> & S); [rewrite D2; repeat split|].
  set (start := mkSystem (model_states b (e_state en)) (model_costates b en) s).
  assert (G0 : good B start) by (repeat split; [apply states_good|apply costates_good|exact S]).
  destruct (integrate_good en hooked B (fun H => conj (HK H) D2) (e_prog en) [start] None [] []) as (env' & k' & n' & E & G & K & T).
  - constructor; [exact G0|constructor].
  - exact I.
  - exact W.
  - unfold noting. destruct hooked; [apply empty_recording|reflexivity].
  - rewrite E. exists n'. split; [|exact T].
    assert (GL : good B (List.last ([start] ++ env') start)).
    { assert (F : Forall (good B) ([start] ++ env')) by (constructor; assumption).
      apply (proj1 (Forall_forall _ _) F). apply last_in. discriminate. }
    destruct GL as (_ & _ & GL).
    assert (Q : exists q, sd_item "q1" (sys_data (List.last ([start] ++ env') start)) = Ok q /\ of_shape B 1 2 q).
    { unfold net_of in GL. rewrite D2 in GL. destruct (b_model b); exact (first_state _ _ _ _ GL). }
    destruct Q as (q & -> & (Q0 & Q1 & Q2)). unfold classify_points. rewrite Q0, Q1, Q2. cbn [Nat.mul Nat.add].
    assert (T1 : training && Nat.eqb B 1 = false).
    { destruct training; [|reflexivity]. destruct (Nat.eqb_spec B 1); [destruct (TB eq_refl); assumption|reflexivity]. }
    rewrite T1. reflexivity.
Qed.

(** ** Points with another number of features than the block *)
Lemma forward_features l x : n2 x <> m1 (lin_weight l) -> forward l x = Raise RuntimeError.
Proof.
  intros H. unfold forward, f_linear, matmul32, tr. cbn [m0]. apply Nat.eqb_neq in H. rewrite H. reflexivity.
Qed.

Lemma forward_error l x ex : forward l x = Raise ex -> ex = RuntimeError.
Proof.
  unfold forward, f_linear, matmul32, zip3, bdim. repeat (match goal with
    | |- context [if ?c then _ else _] => destruct c
    | |- context [match ?o with Some _ => _ | None => _ end] => destruct o
    end; cbn [bind]; try congruence).
Qed.

Lemma data_mismatch en B x th : d <> 2 -> of_shape B 1 2 x -> pars_ok net_of th ->
  model_data nl b en x = Raise RuntimeError \/ exists s, model_data nl b en x = Ok s /\ model_rhs nl b s th = Raise RuntimeError.
Proof.
  intros D2 (X0 & X1 & X2) P. unfold model_data, model_rhs.
  assert (U : b_model b <> Simple -> exists l1 l2 rest, th = ("l1", l1) :: ("l2", l2) :: rest /\ m1 (lin_weight l1) = e /\ m1 (lin_weight l2) = d).
  { intros M. unfold net_of in P. revert P. destruct (b_model b); [contradiction| |]; intros P;
      (inversion P as [|? [o1 x1] ? p1 L1 P1]; subst; inversion P1 as [|? [o2 x2] ? p2 L2 P2]; subst;
       destruct L1 as (E1 & A1 & A2 & _); destruct L2 as (E2 & B1 & B2 & _);
       cbn in E1, A1, A2, E2, B1, B2; subst o1 o2; exists x1, x2, p2; repeat split; assumption). }
  assert (E2 : updown_data nl (b_inflation b) (model_data_mode b en) x = Raise RuntimeError \/
    exists q2, updown_data nl (b_inflation b) (model_data_mode b en) x = Ok [("q1", x); ("q2", q2)]).
  { unfold updown_data. assert (M := mode_sizes en). destruct (model_data_mode b en) as [|q20|l|l1 l2].
    - right. eexists. reflexivity.
    - right. eexists. reflexivity.
    - left. rewrite forward_features; [reflexivity|]. cbn in M. destruct M as (_ & M & _). congruence.
    - left. rewrite (forward_features l1); [reflexivity|]. cbn in M. destruct M as ((_ & M & _) & _). congruence. }
  unfold net_of in P. destruct (b_model b) eqn:EM.
  - right. exists (simple_data x). split; [reflexivity|].
    inversion P as [|? [o1 x1] ? p1 L1 P1]; subst. destruct L1 as (E1 & A1 & A2 & _). cbn in E1, A1, A2. subst o1.
    unfold simple_rhs, simple_data. cbn [sd_item sd_get String.eqb Ascii.eqb Bool.eqb bind]. 
    rewrite forward_features; [reflexivity|]. cbn [map3 n2]. congruence.
  - destruct (U ltac:(discriminate)) as (l1 & l2 & rest & -> & A1 & A2). destruct E2 as [E2|(q2 & E2)]; [left; exact E2|right].
    exists [("q1", x); ("q2", q2)]. split; [exact E2|].
    assert (FW : forall y, n2 y = 2 -> forward l2 y = Raise RuntimeError) by (intros y Y; apply forward_features; congruence).
    unfold updown_rhs. cbn. destruct (forward l1 (map3 nl q2)) as [r|ex] eqn:E1; cbn [bind]; [rewrite (FW x X2); reflexivity|].
    apply forward_error in E1. subst ex. reflexivity.
  - destruct (U ltac:(discriminate)) as (l1 & l2 & rest & -> & A1 & A2). destruct E2 as [E2|(q2 & E2)]; [left; exact E2|right].
    exists [("q1", x); ("q2", q2)]. split; [exact E2|].
    assert (FW : forall y, n2 y = 2 -> forward l2 y = Raise RuntimeError) by (intros y Y; apply forward_features; congruence).
    unfold universal_rhs. cbn. destruct (forward l1 (map3 nl q2)) as [r|ex] eqn:E1; cbn [bind]; [rewrite (FW x X2); reflexivity|].
    apply forward_error in E1. subst ex. reflexivity.
Qed.

Lemma forward_mismatch en hooked training B : d <> 2 -> solver (e_prog en) ->
  exists n', model_forward nl dnl pw b en hooked training B [] = (Raise RuntimeError, n').
Proof.
  intros D2 (_ & t & rest & EP). unfold model_forward, block_forward, then_ at 1, lift at 1.
  set (x := mkT3 B 1 2 (e_batch en)). assert (X : of_shape B 1 2 x) by (repeat split).
  destruct (parameters_good en _ _ (states_good (e_state en)) (costates_good en)) as (th & Et & P).
  set (cur := if b_free b then Ok (model_objects pw b en) else model_parameters nl pw b en (model_states b (e_state en)) (model_costates b en)).
  assert (CU : exists th, cur = Ok th /\ pars_ok net_of th).
  { unfold cur. destruct (b_free b); [eexists; split; [reflexivity|apply objects_ok]|exists th; split; assumption]. }
  clear th Et P. destruct CU as (th & Et & P).
  destruct (data_mismatch en B x th D2 X P) as [->|(s & -> & Es)]; [eexists; reflexivity|].
  rewrite EP. cbn [integrate instruct fetch nth_error]. unfold then_, lift at 1, evaluate. cbn [sys_state sys_costate sys_data].
  assert (CC : (if b_free b then Ok (model_objects pw b en)
     else if b_rnn b then model_parameters nl pw b en (model_states b (e_state en)) (model_costates b en)
     else model_parameters nl pw b en (model_states b (e_state en)) (model_costates b en)) = Ok th).
  { unfold cur in Et. destruct (b_free b); [exact Et|]. destruct (b_rnn b); exact Et. }
  rewrite CC. cbn [bind]. destruct (rhs_good _ _ _ _ (states_good (e_state en)) P) as (ds & -> & _). cbn [bind]. rewrite Es. cbn [bind].
  eexists. reflexivity.
Qed.

(** ** The hook needs a second layer *)
Lemma hook_simple t s th n : b_model b = Simple -> has_states names "" N 1 s -> pars_ok net_of th ->
  exists n', linear_transform_hook t s th n = (Raise KeyError, n').
Proof.
  intros M S P. unfold net_of in *. rewrite M in *. destruct (first_state _ _ _ _ S) as (q & Eq & _).
  inversion P as [|? [o1 x1] ? p1 L1 P1]; subst. inversion P1; subst. destruct L1 as (E1 & A1 & A2 & (b1 & A3 & _)). cbn in E1, A1, A2, A3. subst o1.
  unfold linear_transform_hook, then_, append_note, lift, bias_item. rewrite Eq. cbn. rewrite A3. eexists. reflexivity.
Qed.

Lemma forward_hook_simple en training B : b_model b = Simple -> d = 2 -> solver (e_prog en) ->
  exists n', model_forward nl dnl pw b en true training B [] = (Raise KeyError, n').
Proof.
  intros M D2 (_ & t & rest & EP). unfold model_forward, block_forward, then_, lift.
  destruct (data_good en B (mkT3 B 1 2 (e_batch en))) as (s & -> & S); [rewrite D2; repeat split|].
  set (start := mkSystem (model_states b (e_state en)) (model_costates b en) s).
  assert (G0 : good B start) by (repeat split; [apply states_good|apply costates_good|exact S]).
  rewrite EP. cbn [integrate instruct fetch nth_error]. unfold then_, lift.
  destruct (evaluate_good en true B t start None [] G0 I) as (th & y' & P & G' & E). rewrite E.
  destruct (hook_simple t (sys_state start) th [] M (proj1 G0) P) as (n' & ->). cbn [bind]. eexists. reflexivity.
Qed.
End Pass.

(** Proofs: the same times counted from another origin. *)
From Coq Require Import List String ZArith QArith Qcanon Qround Bool.
From Verif Require Import Base BaseFacts IntegratorModel FixedGridModel OffsetSpec.
Import ListNotations.
Open Scope string_scope.
Open Scope list_scope.

Lemma compare_later c a b : (a + c ?= b + c)%Qc = (a ?= b)%Qc.
Proof.
  destruct (a ?= b)%Qc eqn:E.
  - apply Qceq_alt in E as ->. apply Qceq_alt. reflexivity.
  - apply Qclt_alt in E. apply Qclt_alt. rewrite (Qcplus_comm a), (Qcplus_comm b).
    apply Qcnot_le_lt. intros H. apply (Qcplus_le_compat _ _ (-c)%Qc (-c)%Qc) in H; [|apply Qcle_refl].
    replace (c + b + - c)%Qc with b in H by ring. replace (c + a + - c)%Qc with a in H by ring. exact (Qclt_not_le _ _ E H).
  - apply Qcgt_alt in E. apply Qcgt_alt. rewrite (Qcplus_comm a), (Qcplus_comm b).
    apply Qcnot_le_lt. intros H. apply (Qcplus_le_compat _ _ (-c)%Qc (-c)%Qc) in H; [|apply Qcle_refl].
    replace (c + b + - c)%Qc with b in H by ring. replace (c + a + - c)%Qc with a in H by ring. exact (Qclt_not_le _ _ E H).
Qed.
Lemma qle_later c a b : qle (a + c)%Qc (b + c)%Qc = qle a b.
Proof. unfold qle. now rewrite compare_later. Qed.
Lemma qlt_later c a b : qlt (a + c)%Qc (b + c)%Qc = qlt a b.
Proof. unfold qlt. now rewrite compare_later. Qed.
Lemma eq_later c a b : Qc_eq_bool (a + c)%Qc (b + c)%Qc = Qc_eq_bool a b.
Proof.
  unfold Qc_eq_bool. destruct (Qc_eq_dec a b) as [->|N].
  - destruct (Qc_eq_dec (b + c) (b + c)); [reflexivity|congruence].
  - destruct (Qc_eq_dec (a + c) (b + c)) as [E|]; [|reflexivity]. exfalso. apply N.
    replace a with (a + c - c)%Qc by ring. rewrite E. ring.
Qed.
Lemma difference_later c a b : (a + c - (b + c))%Qc = (a - b)%Qc.
Proof. ring. Qed.

Lemma increasing_later c t : increasing (later c t) = increasing t.
Proof.
  induction t as [|a [|b r] IH]; [reflexivity..|]. change (qlt (a + c) (b + c) && increasing (later c (b :: r)) = increasing (a :: b :: r)).
  rewrite IH, qlt_later. reflexivity.
Qed.
Lemma turned_later c t : map Qcopp (later c t) = later (- c)%Qc (map Qcopp t).
Proof. unfold later. rewrite !map_map. apply map_ext. intros; ring. Qed.
Lemma last_later c t : last_item (later c t) = bind (last_item t) (fun s => Ok (s + c)%Qc).
Proof. unfold last_item, later. rewrite <- map_rev. destruct (rev t); reflexivity. Qed.
Lemma set_last_later c v t : set_last (v + c)%Qc (later c t) = bind (set_last v t) (fun r => Ok (later c r)).
Proof.
  destruct t as [|a r]; [reflexivity|]. cbn [set_last bind]. unfold set_last. change (later c (a :: r)) with ((a + c)%Qc :: later c r).
  cbn [bind]. change ((a + c)%Qc :: later c r) with (later c (a :: r)). f_equal. unfold later. rewrite map_app. f_equal.
  generalize (a :: r). intros l. induction l as [|x [|y l] IH]; [reflexivity..|].
  change (removelast (map (fun s => (s + c)%Qc) (x :: y :: l))) with ((x + c)%Qc :: removelast (map (fun s => (s + c)%Qc) (y :: l))).
  rewrite IH. reflexivity.
Qed.

Lemma step_grid_later c h t0 tl : step_grid h (t0 + c)%Qc (tl + c)%Qc = bind (step_grid h t0 tl) (fun g => Ok (later c g)).
Proof.
  unfold step_grid. destruct (Qc_eq_bool h 0); [reflexivity|]. rewrite difference_later. destruct (Z.ltb _ 0); [reflexivity|].
  set (l := seq 0 _). replace (map (fun i => (Q2Qc (inject_Z (Z.of_nat i)) * h + (t0 + c))%Qc) l)
    with (later c (map (fun i => (Q2Qc (inject_Z (Z.of_nat i)) * h + t0)%Qc) l)) by (unfold later; rewrite map_map; apply map_ext; intros; ring).
  rewrite last_later. destruct (last_item _); [|reflexivity]. cbn [bind]. rewrite qlt_later. destruct (qlt tl a); [apply set_last_later|reflexivity].
Qed.

Section Solver.
Context {X : Type}.
Variable add : X -> X -> X.
Variable mul : Qc -> X -> X.

Lemma interp_later c t0 t1 y0 y1 t : linear_interp add mul (t0 + c)%Qc (t1 + c)%Qc y0 y1 (t + c)%Qc = linear_interp add mul t0 t1 y0 y1 t.
Proof. unfold linear_interp. rewrite !eq_later, !difference_later. reflexivity. Qed.

Lemma emit_later c t0 t1 y0 y1 ts : emit add mul (t0 + c)%Qc (t1 + c)%Qc y0 y1 (later c ts)
  = let '(o, r) := emit add mul t0 t1 y0 y1 ts in (o, later c r).
Proof.
  induction ts as [|s r IH]; [reflexivity|]. change (later c (s :: r)) with ((s + c)%Qc :: later c r). cbn [emit]. rewrite qle_later.
  destruct (qle s t1); [|reflexivity]. rewrite IH, interp_later. destruct (emit add mul t0 t1 y0 y1 r). reflexivity.
Qed.

Definition delayed_step (c : Qc) (st st' : Qc -> Qc -> X -> X) : Prop := forall t dt y, st' (t + c)%Qc dt y = st t dt y.

Lemma march_later c st st' : delayed_step c st st' -> forall g t0 y ts,
  march add mul st' (t0 + c)%Qc (later c g) y (later c ts) = march add mul st t0 g y ts.
Proof.
  intros S. induction g as [|t1 g IH]; intros t0 y ts; [reflexivity|]. change (later c (t1 :: g)) with ((t1 + c)%Qc :: later c g).
  cbn [march]. rewrite difference_later, S, emit_later. destruct (emit add mul t0 t1 _ _ ts). rewrite IH. reflexivity.
Qed.

Lemma fixed_grid_later c st st' h y t : delayed_step c st st' ->
  fixed_grid add mul st' h y (later c t) = fixed_grid add mul st h y t.
Proof.
  intros S. unfold fixed_grid. rewrite increasing_later. destruct (negb _); [reflexivity|]. destruct t as [|t0 ts]; [reflexivity|].
  rewrite last_later. change (later c (t0 :: ts)) with ((t0 + c)%Qc :: later c ts). cbn [bind].
  destruct (last_item (t0 :: ts)) as [tl|]; [|reflexivity]. cbn [bind].
  assert (G : match h with Some h => step_grid h (t0 + c) (tl + c) | None => Ok ((t0 + c)%Qc :: later c ts) end
    = bind (match h with Some h => step_grid h t0 tl | None => Ok (t0 :: ts) end) (fun g => Ok (later c g))).
  { destruct h; [apply step_grid_later|reflexivity]. }
  rewrite G. clear G. destruct (match h with Some h => step_grid h t0 tl | None => Ok (t0 :: ts) end) as [g|]; [|reflexivity]. cbn [bind]. rewrite last_later.
  destruct (last_item g) as [gl|]; [|reflexivity]. cbn [bind]. destruct g as [|g0 gs]; [reflexivity|].
  change (later c (g0 :: gs)) with ((g0 + c)%Qc :: later c gs). cbv iota. rewrite !eq_later. destruct (_ && _); [|reflexivity].
  rewrite (march_later c st st' S). reflexivity.
Qed.

Lemma method_later c f f' name st : delayed c f f' -> method add mul f name = Some st ->
  exists st', method add mul f' name = Some st' /\ delayed_step c st st'.
Proof.
  intros D H. unfold method in *.
  destruct (String.eqb name "euler"); [injection H as <-; eexists; split; [reflexivity|]|
  destruct (String.eqb name "midpoint"); [injection H as <-; eexists; split; [reflexivity|]|
  destruct (String.eqb name "rk4"); [injection H as <-; eexists; split; [reflexivity|]|discriminate]]];
  intros t dt y; unfold euler_step, midpoint_step, rk4_step; cbv zeta;
  repeat match goal with |- context [(t + c + ?a)%Qc] => replace (t + c + a)%Qc with (t + a + c)%Qc by ring end;
  rewrite !D; reflexivity.
Qed.

Lemma odeint_later c f f' other adj name o y t : delayed c f f' -> In name ["euler"; "midpoint"; "rk4"] ->
  fixed_odeint add mul f' other adj name o y (later c t) = fixed_odeint add mul f other adj name o y t.
Proof.
  intros D I. unfold fixed_odeint. rewrite turned_later, increasing_later. destruct (increasing (map Qcopp t)).
  - assert (D' : delayed (- c)%Qc (fun s y => mul (Q2Qc (-1)) (f (- s)%Qc y)) (fun s y => mul (Q2Qc (-1)) (f' (- s)%Qc y))).
    { intros s z. replace (- (s + - c))%Qc with (- s + c)%Qc by ring. rewrite D. reflexivity. }
    assert (M : exists st, method add mul (fun s y => mul (Q2Qc (-1)) (f (- s)%Qc y)) name = Some st).
    { destruct I as [<-|[<-|[<-|[]]]]; eexists; reflexivity. }
    destruct M as (st & M). destruct (method_later _ _ _ _ _ D' M) as (st' & M' & S). rewrite M, M'. apply fixed_grid_later. exact S.
  - assert (M : exists st, method add mul f name = Some st).
    { destruct I as [<-|[<-|[<-|[]]]]; eexists; reflexivity. }
    destruct M as (st & M). destruct (method_later _ _ _ _ _ D M) as (st' & M' & S). rewrite M, M'. apply fixed_grid_later. exact S.
Qed.
End Solver.

(** ** Checkpoints *)
Lemma linspace_later c a b n : linspace (a + c)%Qc (b + c)%Qc n = bind (linspace a b n) (fun l => Ok (later c l)).
Proof.
  unfold linspace. destruct (Z.ltb n 0); [reflexivity|]. destruct (Z.eqb n 1); [reflexivity|]. cbn [bind]. f_equal.
  unfold later. rewrite map_map. apply map_ext. intros i. rewrite difference_later. ring.
Qed.
Lemma arange_later c a b s : arange (a + c)%Qc (b + c)%Qc s = bind (arange a b s) (fun l => Ok (later c l)).
Proof.
  unfold arange. destruct (Qc_eq_bool s 0); [reflexivity|]. rewrite compare_later, difference_later.
  destruct (match (s ?= 0)%Qc with Eq => _ | Lt => _ | Gt => _ end); [reflexivity|]. cbn [bind]. f_equal.
  unfold later. rewrite map_map. apply map_ext. intros i. ring.
Qed.
Lemma later_app c a b : later c (a ++ b) = later c a ++ later c b.
Proof. apply map_app. Qed.
Lemma checkpoint_times_later c nr iv a b : checkpoint_times nr iv (a + c)%Qc (b + c)%Qc = bind (checkpoint_times nr iv a b) (fun l => Ok (later c l)).
Proof.
  unfold checkpoint_times. destruct nr, iv; try reflexivity.
  - rewrite linspace_later. destruct (linspace a b _); [|reflexivity]. cbn [bind]. apply set_last_later.
  - rewrite arange_later. destruct (arange a b _) as [l|]; [|reflexivity]. cbn [bind]. rewrite last_later. destruct (last_item l) as [x|]; [|reflexivity].
    cbn [bind]. rewrite eq_later. destruct (Qc_eq_bool x b); [apply set_last_later|]. rewrite <- set_last_later, later_app. reflexivity.
Qed.

Lemma loop_later c : forall ts cps cur_t cur_o ints outs,
  interval_loop Qccompare (later c ts) (later c cps) (later c cur_t) cur_o (map (later c) ints) outs
  = let '(i, o) := interval_loop Qccompare ts cps cur_t cur_o ints outs in (map (later c) i, o).
Proof.
  induction ts as [|s ts IH]; intros cps cur_t cur_o ints outs.
  - destruct cps; reflexivity.
  - revert cur_t cur_o ints outs. induction cps as [|p cps IHc]; intros; [reflexivity|].
    change (later c (s :: ts)) with ((s + c)%Qc :: later c ts) in *. change (later c (p :: cps)) with ((p + c)%Qc :: later c cps).
    cbn [interval_loop]. rewrite compare_later. destruct (p ?= s)%Qc.
    + rewrite <- IH. change ([(p + c)%Qc]) with (later c [p]). rewrite <- later_app.
      change ([later c (cur_t ++ [p])]) with (map (later c) [cur_t ++ [p]]). rewrite <- map_app. reflexivity.
    + specialize (IHc [p] [false] (ints ++ [cur_t ++ [p]]) (outs ++ [cur_o ++ [false]])).
      rewrite map_app in IHc. cbn [map] in IHc. rewrite later_app in IHc. exact IHc.
    + rewrite <- IH. rewrite later_app. reflexivity.
Qed.

Lemma intervals_later c t cp : intervals_for Qccompare (later c t) (later c cp)
  = bind (intervals_for Qccompare t cp) (fun x => Ok (map (later c) (fst x), snd x)).
Proof.
  unfold intervals_for. destruct t as [|t0 ts], cp as [|p cps]; try reflexivity.
  change (later c (t0 :: ts)) with ((t0 + c)%Qc :: later c ts). change (later c (p :: cps)) with ((p + c)%Qc :: later c cps).
  cbv iota. rewrite compare_later. destruct (t0 ?= p)%Qc; try reflexivity. destruct ts as [|s ts]; [reflexivity|]. destruct cps as [|q cps]; [reflexivity|].
  change (later c (s :: ts)) with ((s + c)%Qc :: later c ts). change (later c (q :: cps)) with ((q + c)%Qc :: later c cps). cbv iota.
  change ((s + c)%Qc :: later c ts) with (later c (s :: ts)). change ((q + c)%Qc :: later c cps) with (later c (q :: cps)).
  change [(t0 + c)%Qc] with (later c [t0]). pose proof (loop_later c (s :: ts) (q :: cps) [t0] [true] [] []) as L. cbn [map] in L.
  rewrite L. clear L. cbn [bind]. destruct (interval_loop _ _ _ _ _ _ _). reflexivity.
Qed.

Lemma create_later c nr iv t : create_integration_time_intervals nr iv (later c t)
  = bind (create_integration_time_intervals nr iv t) (fun x => Ok (map (later c) (fst x), snd x)).
Proof.
  unfold create_integration_time_intervals. destruct t as [|t0 [|t1 ts]]; [reflexivity..|].
  change (later c (t0 :: t1 :: ts)) with ((t0 + c)%Qc :: (t1 + c)%Qc :: later c ts). cbv iota.
  change ((t0 + c)%Qc :: (t1 + c)%Qc :: later c ts) with (later c (t0 :: t1 :: ts)). rewrite last_later.
  destruct (last_item (t0 :: t1 :: ts)) as [tl|]; [|reflexivity]. cbn [bind]. rewrite checkpoint_times_later.
  destruct (checkpoint_times nr iv t0 tl) as [cp|]; [|reflexivity]. cbn [bind]. apply intervals_later.
Qed.

Section Integrate.
Context {X : Type}.
Variable c : Qc.
Variable od od' : bool -> string -> opts -> X -> list Qc -> result (list X).
Variable odesolver : opts -> X -> result X.
Variable i : integrator.
Hypothesis LIB : i_library i = "odeint".
Hypothesis SAME : forall a o y t, od' a (i_name i) o y (later c t) = od a (i_name i) o y t.

Lemma direct_later h y t : integrate_direct od' odesolver h i y (later c t) = integrate_direct od odesolver h i y t.
Proof. unfold integrate_direct. rewrite LIB. cbn [String.eqb Ascii.eqb Bool.eqb]. rewrite SAME. reflexivity. Qed.

Lemma chunks_later : forall ints outs h all y,
  checkpoint_loop od' odesolver h i all y (combine (map (later c) ints) outs) = checkpoint_loop od odesolver h i all y (combine ints outs).
Proof.
  induction ints as [|t ints IH]; intros [|o outs] h all y; try reflexivity. cbn [map combine checkpoint_loop]. unfold checkpoint_step. cbn [fst snd].
  rewrite direct_later. destruct (integrate_direct od odesolver h i y t) as [h' r].
  destruct (bind r _) as [[o' x']|]; [apply IH|reflexivity].
Qed.

Lemma integrate_later h y t : integrate od' odesolver h i y (later c t) = integrate od odesolver h i y t.
Proof.
  unfold integrate. rewrite direct_later. unfold integrate_checkpointed. rewrite create_later.
  destruct (i_nr_of_checkpoints i), (i_checkpointing_time_interval i); try reflexivity;
    destruct (create_integration_time_intervals _ _ t) as [[ints outs]|]; try reflexivity; cbn [bind fst snd]; apply chunks_later.
Qed.
End Integrate.

Lemma whole_later {X} (add : X -> X -> X) mul c f f' other odesolver h i y t :
  delayed c f f' -> i_library i = "odeint" -> In (i_name i) ["euler"; "midpoint"; "rk4"] ->
  integrate (fixed_odeint add mul f' other) odesolver h i y (later c t) = integrate (fixed_odeint add mul f other) odesolver h i y t.
Proof. intros D L I. apply integrate_later; [exact L|]. intros. apply odeint_later; assumption. Qed.

Lemma anode_later {X} (od : bool -> string -> opts -> X -> list Qc -> result (list X)) odesolver c h i y t :
  i_library i = "anode" -> i_nr_of_checkpoints i = None -> i_checkpointing_time_interval i = None -> List.length t <> 1%nat ->
  integrate od odesolver h i y (later c t) = integrate od odesolver h i y t.
Proof.
  intros L N I T. unfold integrate. rewrite N, I. unfold integrate_direct. rewrite L. cbn [String.eqb Ascii.eqb Bool.eqb]. unfold integrate_anode.
  destruct t as [|t0 [|t1 [|t2 ts]]]; try reflexivity; [contradiction T; reflexivity|].
  change (later c [t0; t1]) with [(t0 + c)%Qc; (t1 + c)%Qc]. cbv iota. rewrite difference_later. reflexivity.
Qed.

(** Euler's method at arbitrary times, and the solvers as called by an integrator. *)
From Coq Require Import List String Arith ZArith QArith Qcanon Qround Lia Lqa Bool Sorting.Sorted.
From Verif Require Import Base IntegratorModel IntegratorSpec IntervalProofs GridProofs IntegratorProofs FixedGridModel FixedGridSpec FixedGridProofs FixedGridProofs2.
Import ListNotations.
Open Scope string_scope.
Open Scope list_scope.
Open Scope nat_scope.

Section Euler.
Context {X : Type}.
Variable add : X -> X -> X.
Variable mul : Qc -> X -> X.
Hypothesis laws : vector_laws add mul.
Variable f : Qc -> X -> X.
Let step := euler_step mul f.
Let advance (t dt : Qc) (y : X) : X := add y (step t dt y).

(** Interpolating a step is a shorter step. *)
Lemma euler_interp c e y s : (c < s)%Qc -> (s <= e)%Qc ->
  linear_interp add mul c e y (advance c (e - c)%Qc y) s = advance c (s - c)%Qc y.
Proof.
  intros A B. destruct laws as (L1 & L2 & L3). unfold linear_interp. rewrite (proj2 (qc_eq_bool_false s c)) by (intros ->; qc).
  destruct (Qc_eq_bool s e) eqn:E; [apply Qc_eq_bool_correct in E as ->; reflexivity|].
  unfold advance, step, euler_step. rewrite L1, !L2. do 2 f_equal. field. intros Z.
  assert (Y : (0 < e - c)%Qc) by qc. rewrite Z in Y. qc.
Qed.

(** The value at any time: whole steps and one shorter step. *)
Lemma euler_out h a e n k x s : (0 < h)%Qc -> count h a e n -> (a + times k h < s)%Qc -> (s <= a + times (S k) h)%Qc -> (s <= e)%Qc ->
  out add mul step a (walk h a e n) x s = advance (a + times k h)%Qc (s - (a + times k h))%Qc (whole_steps advance h a k x).
Proof.
  intros H C A B E. destruct (out_from_grid add mul step h a e n k x s H C) as (m & Cm & ->); [qc|qc|].
  fold advance. set (c := (a + times k h)%Qc) in *. set (y := whole_steps advance h a k x).
  assert (B' : (s <= c + h)%Qc) by (unfold c; rewrite times_S in B; qc).
  destruct m as [|m].
  - apply count_0_inv in Cm. subst e. exfalso. qc.
  - destruct m as [|m].
    + cbn [walk out]. rewrite (proj2 (qle_spec s e) E). apply euler_interp; assumption.
    + change (walk h c e (S (S m))) with ((c + h)%Qc :: walk h (c + h)%Qc e (S m)). cbn [out].
      rewrite (proj2 (qle_spec s _) B'). apply euler_interp; assumption.
Qed.

Lemma find_step h a s : (0 < h)%Qc -> (a < s)%Qc -> exists k, count h a s (S k) /\ (a + times k h < s)%Qc /\ (s <= a + times (S k) h)%Qc.
Proof.
  intros H A. destruct (count_ceiling h a s H) as (n & C & _); [qc|]. destruct n as [|k].
  - apply count_0_inv in C. subst s. exfalso. qc.
  - exists k. split; [exact C|]. destruct C as (C1 & _ & C3). split; [apply C3; lia|exact C1].
Qed.

Lemma euler_values h t0 ts x : (0 < h)%Qc -> StronglySorted Qclt (t0 :: ts) ->
  exists values, fixed_grid add mul step (Some h) x (t0 :: ts) = Ok values /\ List.length values = S (List.length ts) /\
    nth_error values 0 = Some x /\
    forall i s, nth_error ts i = Some s -> exists v,
      nth_error values (S i) = Some v /\ fixed_grid add mul step (Some h) x [t0; s] = Ok [x; v].
Proof.
  intros H S. destruct (solver_values add mul step h t0 ts _ x H S eq_refl) as (n & C & E).
  eexists. split; [exact E|]. split; [rewrite map_length; reflexivity|]. split.
  - cbn [map nth_error]. f_equal. apply out_start. destruct (walk_sorted _ _ H _ _ C) as (W & _). exact W.
  - intros i s N. cbn [map nth_error]. rewrite (nth_error_map' _ _ _ _ N). eexists. split; [reflexivity|].
    assert (I := nth_error_In _ _ N).
    assert (TS : (t0 < s)%Qc) by (inversion S as [|? ? _ F]; subst; apply (proj1 (Forall_forall _ _) F _ I)).
    assert (SL := sorted_below t0 ts S s t0 I).
    destruct (solver_values add mul step h t0 [s] s x H (sorted_pair _ _ TS) eq_refl) as (m & C2 & E2).
    rewrite E2. cbn [map]. f_equal. f_equal; [|f_equal].
    + apply out_start. destruct (walk_sorted _ _ H _ _ C2) as (W & _). exact W.
    + destruct (find_step h t0 s H TS) as (k & _ & A & B). rewrite (euler_out h t0 s m k), (euler_out h t0 _ n k); auto. qc.
Qed.
End Euler.

(** ** The solvers by name *)
Section Named.
Context {X : Type}.
Variable add : X -> X -> X.
Variable mul : Qc -> X -> X.
Variable f : Qc -> X -> X.
Variable other : bool -> string -> opts -> X -> list Qc -> result (list X).

Lemma forward_times t0 s ts : StronglySorted Qclt (t0 :: s :: ts) -> increasing (map Qcopp (t0 :: s :: ts)) = false.
Proof.
  intros S. cbn [map increasing]. assert (L : (t0 < s)%Qc) by (inversion S as [|? ? _ F]; subst; inversion F; assumption).
  destruct (qlt (- t0) (- s)) eqn:Q; [|reflexivity]. apply qlt_spec in Q. exfalso. unfold Qclt in Q. rewrite !this_opp in Q. qc.
Qed.

Lemma named_solver step a name o h : method add mul f name = Some step -> option_step_size o = Some h ->
  forall x t0 s ts, StronglySorted Qclt (t0 :: s :: ts) ->
  fixed_odeint add mul f other a name o x (t0 :: s :: ts) = fixed_grid add mul step (Some h) x (t0 :: s :: ts).
Proof.
  intros M O x t0 s ts S. unfold fixed_odeint. rewrite (forward_times _ _ _ S), M, O. reflexivity.
Qed.

Lemma named_method name : In name ["euler"; "midpoint"; "rk4"] -> exists step, method add mul f name = Some step.
Proof. intros [<-|[<-|[<-|[]]]]; eexists; reflexivity. Qed.

(** Checkpoints on the grid change nothing. *)
Lemma fixed_checkpoints odesolver hp i j x0 h t0 ts tl :
  In (i_name i) ["euler"; "midpoint"; "rk4"] -> option_step_size (heap_get hp (i_options i)) = Some h -> (0 < h)%Qc ->
  i_library i = "odeint" -> i_library j = "odeint" ->
  i_adjoint j = i_adjoint i -> i_name j = i_name i -> i_options j = i_options i ->
  i_nr_of_checkpoints i = None -> i_checkpointing_time_interval i = None ->
  aligned h t0 tl (i_nr_of_checkpoints j) (i_checkpointing_time_interval j) ->
  StronglySorted Qclt (t0 :: ts ++ [tl]) ->
  integrate (fixed_odeint add mul f other) odesolver hp j x0 (t0 :: ts ++ [tl])
  = integrate (fixed_odeint add mul f other) odesolver hp i x0 (t0 :: ts ++ [tl]) /\
  exists values, integrate (fixed_odeint add mul f other) odesolver hp i x0 (t0 :: ts ++ [tl]) = (hp, Ok (Some values)).
Proof.
  intros N O H Li Lj Ea En Eo N1 N2 AL S. destruct (named_method _ N) as (step & M).
  apply (checkpoints_aligned add mul step _ _ _ _ _ _ h); auto.
  intros x s0 s ss. apply named_solver; assumption.
Qed.

Lemma direct_integrate odesolver hp i step h x t0 s ts :
  method add mul f (i_name i) = Some step -> option_step_size (heap_get hp (i_options i)) = Some h ->
  i_library i = "odeint" -> i_nr_of_checkpoints i = None -> i_checkpointing_time_interval i = None ->
  StronglySorted Qclt (t0 :: s :: ts) ->
  forall values, fixed_grid add mul step (Some h) x (t0 :: s :: ts) = Ok values ->
  integrate (fixed_odeint add mul f other) odesolver hp i x (t0 :: s :: ts) = (hp, Ok (Some values)).
Proof.
  intros M O L N1 N2 S values E. unfold integrate. rewrite N1, N2. unfold integrate_direct. rewrite L.
  replace (String.eqb "odeint" "odeint") with true by reflexivity. rewrite (named_solver step _ _ _ h M O) by exact S.
  rewrite E. reflexivity.
Qed.

(** Requested times on the grid do not depend on the others. *)
Lemma fixed_times odesolver hp i h x t0 t1 ts :
  In (i_name i) ["euler"; "midpoint"; "rk4"] -> option_step_size (heap_get hp (i_options i)) = Some h -> (0 < h)%Qc ->
  i_library i = "odeint" -> i_nr_of_checkpoints i = None -> i_checkpointing_time_interval i = None ->
  StronglySorted Qclt (t0 :: t1 :: ts) ->
  let run t := snd (integrate (fixed_odeint add mul f other) odesolver hp i x t) in
  exists values, run (t0 :: t1 :: ts) = Ok (Some values) /\ List.length values = S (S (List.length ts)) /\
    nth_error values 0 = Some x /\
    forall k s, nth_error (t1 :: ts) k = Some s -> on_grid h t0 s -> exists v,
      nth_error values (S k) = Some v /\ run [t0; s] = Ok (Some [x; v]).
Proof.
  intros N O H Li N1 N2 SS run. destruct (named_method _ N) as (step & M).
  destruct (values_on_grid add mul step h t0 (t1 :: ts) x H SS) as (values & E & L & V).
  exists values. split; [unfold run; rewrite (direct_integrate _ _ _ step h _ _ _ _ M O Li N1 N2 SS values E); reflexivity|].
  split; [exact L|]. split.
  - destruct (V 0 0) as (V0 & _); [rewrite times_0; cbn [nth_error]; f_equal; ring|]. exact V0.
  - intros k s K (m & ->). destruct (V (S k) m K) as (V1 & V2). exists (whole_steps (fun t dt y => add y (step t dt y)) h t0 m x).
    split; [exact V1|].
    assert (TS : (t0 < t0 + times m h)%Qc).
    { inversion SS as [|? ? _ F]; subst. apply (proj1 (Forall_forall _ _) F), (nth_error_In _ _ K). }
    unfold run. rewrite (direct_integrate _ _ _ step h _ _ _ _ M O Li N1 N2 (sorted_pair _ _ TS) [x; whole_steps (fun t dt y => add y (step t dt y)) h t0 m x]);
      [reflexivity|]. apply V2. destruct m; [|lia]. exfalso. rewrite times_0 in TS. qc.
Qed.

(** With Euler's method at no time. *)
Lemma euler_times odesolver hp i h x t0 t1 ts : vector_laws add mul ->
  i_name i = "euler" -> option_step_size (heap_get hp (i_options i)) = Some h -> (0 < h)%Qc ->
  i_library i = "odeint" -> i_nr_of_checkpoints i = None -> i_checkpointing_time_interval i = None ->
  StronglySorted Qclt (t0 :: t1 :: ts) ->
  let run t := snd (integrate (fixed_odeint add mul f other) odesolver hp i x t) in
  exists values, run (t0 :: t1 :: ts) = Ok (Some values) /\ List.length values = S (S (List.length ts)) /\
    nth_error values 0 = Some x /\
    forall k s, nth_error (t1 :: ts) k = Some s -> exists v,
      nth_error values (S k) = Some v /\ run [t0; s] = Ok (Some [x; v]).
Proof.
  intros LW N O H Li N1 N2 SS run.
  assert (M : method add mul f (i_name i) = Some (euler_step mul f)) by (rewrite N; reflexivity).
  destruct (euler_values add mul LW f h t0 (t1 :: ts) x H SS) as (values & E & L & V0 & V).
  exists values. split; [unfold run; rewrite (direct_integrate _ _ _ _ h _ _ _ _ M O Li N1 N2 SS values E); reflexivity|].
  split; [exact L|]. split; [exact V0|]. intros k s K. destruct (V k s K) as (v & V1 & V2). exists v. split; [exact V1|].
  assert (TS : (t0 < s)%Qc).
  { inversion SS as [|? ? _ F]; subst. apply (proj1 (Forall_forall _ _) F), (nth_error_In _ _ K). }
  unfold run. rewrite (direct_integrate _ _ _ _ h _ _ _ _ M O Li N1 N2 (sorted_pair _ _ TS) _ V2). reflexivity.
Qed.
End Named.

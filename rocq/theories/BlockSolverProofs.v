(** Proofs for BlockSolverModel. *)
From Coq Require Import List String Arith ZArith QArith Qcanon Bool Lia Sorting.Sorted.
From Verif Require Import Base BaseFacts Tensor TensorFacts ScdModel ScdSpec ScdProofs BlockModel BlockSpec IntegratorModel
  FixedGridModel FixedGridSpec BlockSolverModel BlockSolverSpec
  BlockProofs BlockProofs2 BlockProofs3 BlockProofs4 FixedGridProofs FixedGridProofs2 FixedGridProofs3 FixedGridProofs4.
Import ListNotations.
Open Scope string_scope.
Open Scope list_scope.
Open Scope nat_scope.

(** ** Rows *)
Lemma stack_ok {A} (vs : list (list A)) all : stack_rows vs = Ok all ->
  exists n, Forall (fun w => List.length w = n) vs /\ vs <> [] /\ all = mkT [List.length vs; n] (List.concat vs).
Proof.
  destruct vs as [|v vs]; [discriminate|]. unfold stack_rows.
  destruct (forallb _ _) eqn:F; [|discriminate]. intros E. injection E as <-. exists (List.length v).
  split; [|split; [discriminate|reflexivity]]. apply Forall_forall. intros w I.
  apply (proj1 (forallb_forall _ _) F) in I. apply Nat.eqb_eq. exact I.
Qed.

Lemma stack_intro {A} (vs : list (list A)) n : vs <> [] -> Forall (fun w => List.length w = n) vs ->
  stack_rows vs = Ok (mkT [List.length vs; n] (List.concat vs)).
Proof.
  destruct vs as [|v vs]; [congruence|]. intros _ F. unfold stack_rows.
  assert (L := Forall_inv F). cbv beta in L.
  replace (forallb _ _) with true; [rewrite L; reflexivity|]. symmetry. apply forallb_forall. intros w I.
  apply Nat.eqb_eq. rewrite (proj1 (Forall_forall _ _) F w I). symmetry. exact L.
Qed.

Lemma concat_rows {A} (vs : list (list A)) n : Forall (fun w => List.length w = n) vs ->
  List.length (List.concat vs) = List.length vs * n.
Proof.
  induction 1 as [|v vs H F IH]; [reflexivity|]. cbn [List.concat List.length]. rewrite app_length, IH, H. lia.
Qed.

Lemma rows_wf {A} (vs : list (list A)) n : Forall (fun w => List.length w = n) vs ->
  twf (mkT [List.length vs; n] (List.concat vs)).
Proof. intros F. unfold twf. cbn [tdata tshape]. rewrite (concat_rows vs n F). cbn. lia. Qed.

Lemma concat_nth {A} n (vs : list (list A)) : Forall (fun w => List.length w = n) vs ->
  forall i v j, nth_error vs i = Some v -> j < n -> nth_error (List.concat vs) (i * n + j) = nth_error v j.
Proof.
  induction 1 as [|w vs H F IH]; intros [|i] v j N J; try discriminate N.
  - injection N as ->. cbn [List.concat]. rewrite nth_error_app1 by lia. reflexivity.
  - cbn [List.concat]. rewrite nth_error_app2 by lia.
    replace (S i * n + j - List.length w) with (i * n + j) by lia. apply (IH i v j N J).
Qed.

Lemma select_row {A} (vs : list (list A)) n k v : Forall (fun w => List.length w = n) vs ->
  nth_error vs k = Some v -> tselect k (mkT [List.length vs; n] (List.concat vs)) = Ok (mkT [n] v).
Proof.
  intros F N. assert (K : k < List.length vs) by (apply nth_error_Some; rewrite N; discriminate).
  destruct (tselect_ok k _ _ [n] (rows_wf vs n F) eq_refl K) as (r & E & W & SH & G).
  rewrite E. f_equal. assert (LV : List.length v = n) by (apply (proj1 (Forall_forall _ _) F), (nth_error_In _ _ N)).
  apply tensor_ext; [exact W|unfold twf; cbn; lia|exact SH|].
  intros idx V. rewrite SH in V. rewrite G by exact V. destruct idx as [|j [|]]; cbn in V; try (exfalso; tauto).
  assert (J : j < n) by tauto.
  unfold tget. cbn [tshape ravel tdata].
  rewrite (proj2 (Nat.ltb_lt _ _) K), (proj2 (Nat.ltb_lt _ _) J). cbn [option_map prod fold_right].
  rewrite !Nat.mul_1_r, Nat.add_0_r. apply concat_nth; assumption.
Qed.

(** ** A block whose solver returns rows *)
Section Block.
Context {A : Type}.
Variable zero : A.
Variable ig : integrand (A := A).
Variable has_attr : string -> bool.
Variable rnd : nat -> nat -> A.
Variable run : option plans -> list A -> list Qc -> result (option (list (list A))).

Definition run_solve (b : block (A := A)) (x0 : list A) (ts : list Qc) : result (tensor A) :=
  vs <- run (b_plans b) x0 ts ;;
  match vs with
  | Some vs => stack_rows vs
  | None => Raise TypeError
  end.

Notation fwd := (BlockModel.forward zero ig has_attr rnd).

Lemma run_times x st co data (b b' : block) ts i t s c d o :
  b_time_vec b = Some ts -> b_time b = None -> i < List.length ts ->
  ig_concatenate ig = false \/ (st = None /\ data = None) ->
  (forall ps x0 values, run ps x0 ts = Ok (Some values) ->
     List.length values = List.length ts /\ nth_error values 0 = Some x0 /\
     exists v, nth_error values i = Some v /\ run ps x0 [Q2Qc 0; t] = Ok (Some [x0; v])) ->
  fwd run_solve x st co data b = (b', Ok (o, s, c, d)) ->
  exists o1 s1 c1 d1,
    snd (fwd run_solve x st co data (set_times (Some t) None b)) = Ok (o1, s1, c1, d1) /\
    output_at i o o1 /\ at_time i s s1 /\ at_time i c c1 /\ at_time i d d1.
Proof.
  intros TV TN Hi HC HR E.
  assert (HS : forall b x0 all, run_solve b x0 ts = Ok all -> twf all /\ exists n, tshape all = [List.length ts; n]).
  { intros b0 x0 all ER. unfold run_solve in ER. apply bind_ok in ER as ([vs|] & ER & EV); [|discriminate].
    destruct (HR _ _ _ ER) as (L & _). destruct (stack_ok vs all EV) as (n & F & _ & ->).
    split; [apply rows_wf; exact F|]. exists n. cbn [tshape]. rewrite L. reflexivity. }
  destruct (time_vector_slices zero ig has_attr rnd run_solve x st co data b b' ts t i s c d o TV Hi HS HC E TN)
    as (o1 & s1 & c1 & d1 & E1 & R).
  exists o1, s1, c1, d1. split; [|exact R].
  destruct (fwd (at_index i ts run_solve) x st co data (set_times (Some t) None b)) as [b9 r9] eqn:E9.
  cbn [snd] in E1. subst r9.
  destruct (forward_ok_inv _ _ _ _ _ _ _ _ _ _ _ _ E9)
    as (C1 & C2 & b1 & st' & co' & dd & z & b2 & x0 & ps & r & F1 & F2 & F3 & F4 & F5 & _).
  pose proof (effective_pass_through_static zero ig has_attr rnd st co (set_times (Some t) None b)) as S1. rewrite F1 in S1.
  pose proof (initial_conditions_static zero ig dd st' co' z b1) as S2. rewrite F3 in S2. cbn [fst] in S1, S2.
  assert (SS : same_static (set_times (Some t) None b) b2) by (eapply (proj2 same_static_preorder); eauto).
  destruct SS as (_ & _ & _ & _ & _ & _ & ST & SV). cbn in ST, SV.
  rewrite (forward_ok_intro _ _ _ _ run_solve _ _ _ _ _ (o1, s1, c1, d1) _ _ _ _ _ _ _ _ r C1 C2 F1 F2 F3); [reflexivity| |exact F5].
  rewrite (integrate_scalar _ _ _ t) in F4 by (cbn; congruence).
  rewrite (integrate_scalar _ _ _ t) by (cbn; congruence).
  apply bind_ok in F4 as (all & EA & F4). unfold at_index in EA.
  apply bind_ok in EA as (rows & ER & EA). apply bind_ok in EA as (row & ES & EA). injection EA as <-.
  unfold run_solve in ER. cbn [b_plans set_times set_plans] in ER.
  apply bind_ok in ER as ([vs|] & ER & EV); [|discriminate].
  destruct (HR _ _ _ ER) as (LV & V0 & v & VI & RN).
  destruct (stack_ok vs rows EV) as (n & FV & NV & ->).
  rewrite (select_row vs n i v FV VI) in ES. injection ES as <-.
  assert (L0 : List.length x0 = n) by (apply (proj1 (Forall_forall _ _) FV), (nth_error_In _ _ V0)).
  assert (L1 : List.length v = n) by (apply (proj1 (Forall_forall _ _) FV), (nth_error_In _ _ VI)).
  assert (W : twf (mkT [n] v)) by (unfold twf; cbn; lia).
  unfold run_solve at 1. cbn [b_plans set_plans]. rewrite RN. cbn [bind].
  assert (F2' : Forall (fun w => List.length w = n) [x0; v]) by (repeat constructor; assumption).
  rewrite (stack_intro [x0; v] n) by (try discriminate; exact F2').
  cbn [bind tshape] in F4 |- *. unfold list_item in F4 |- *. cbn [nth_error bind List.length] in F4 |- *.
  cbn [Nat.eqb Nat.sub] in F4 |- *.
  pose proof (tselect_single (mkT [n] v) W) as TS. cbn [tshape tdata] in TS. cbn [tshape tdata] in F4. rewrite TS in F4.
  rewrite (select_row [x0; v] n 1 v F2' eq_refl : tselect 1 (mkT [2; n] (List.concat [x0; v])) = Ok (mkT [n] v)).
  exact F4.
Qed.
End Block.

(** ** The solver *)
Section Steps.
Context {X : Type}.
Variable add : X -> X -> X.
Variable mul : Qc -> X -> X.
Variable f : Qc -> X -> X.
Variable other : bool -> string -> opts -> X -> list Qc -> result (list X).
Variable odesolver : opts -> X -> result X.

Notation run hp i x t := (snd (integrate (fixed_odeint add mul f other) odesolver hp i x t)).

(** The integrator without its checkpoints. *)
Definition unchecked (i : integrator) : integrator :=
  mkIntegrator (i_library i) (i_name i) (i_adjoint i) (i_options i) (i_step_size i) None None.

Lemma checked_run h hp i x t0 t1 ts : steps_of h hp i -> StronglySorted Qclt (t0 :: t1 :: ts) ->
  run hp i x (t0 :: t1 :: ts) = run hp (unchecked i) x (t0 :: t1 :: ts).
Proof.
  intros (N & L & O & H & CN & CI) SS.
  destruct (i_checkpointing_time_interval i) as [dt|] eqn:D.
  - destruct CI as (DP & j & DJ).
    assert (G : forall l : list Qc, l <> [] -> exists m z, l = m ++ [z]).
    { intros l NL. destruct (exists_last NL) as (m & z & E). eauto. }
    destruct (G (t1 :: ts)) as (m & z & E); [discriminate|]. rewrite E in SS |- *.
    rewrite (proj1 (fixed_checkpoints add mul f other odesolver hp (unchecked i) i x h t0 m z N (step_option_size _ _ O) H L L eq_refl eq_refl eq_refl
      eq_refl eq_refl ltac:(unfold aligned; rewrite CN, D; split; [exact DP|exists j; exact DJ]) SS)). reflexivity.
  - unfold integrate. rewrite CN, D. reflexivity.
Qed.

Lemma steady_method name step : (forall t t' y, f t y = f t' y) -> method add mul f name = Some step ->
  forall t t' dt y, step t dt y = step t' dt y.
Proof.
  intros AU M t t' dt y. unfold method in M.
  destruct (String.eqb name "euler"); [injection M as <-; unfold euler_step; rewrite (AU t t'); reflexivity|].
  destruct (String.eqb name "midpoint").
  { injection M as <-. unfold midpoint_step. rewrite (AU t t'), (AU (t + dt / Q2Qc 2)%Qc (t' + dt / Q2Qc 2)%Qc). reflexivity. }
  destruct (String.eqb name "rk4"); [|discriminate]. injection M as <-. unfold rk4_step.
  rewrite (AU t t'), (AU (t + dt * (1 / Q2Qc 3))%Qc (t' + dt * (1 / Q2Qc 3))%Qc),
    (AU (t + dt * (Q2Qc 2 * (1 / Q2Qc 3)))%Qc (t' + dt * (Q2Qc 2 * (1 / Q2Qc 3)))%Qc), (AU (t + dt)%Qc (t' + dt)%Qc).
  reflexivity.
Qed.

Lemma steady_steps (adv : Qc -> Qc -> X -> X) h : (forall t t' y, adv t h y = adv t' h y) ->
  forall k t t' x, whole_steps adv h t k x = whole_steps adv h t' k x.
Proof.
  intros AU. induction k as [|k IH]; intros t t' x; [reflexivity|]. cbn [whole_steps].
  rewrite (AU t t'). apply IH.
Qed.

Lemma step_run h hp i x t0 t1 ts : steps_of h hp i -> StronglySorted Qclt (t0 :: t1 :: ts) ->
  exists values, run hp i x (t0 :: t1 :: ts) = Ok (Some values) /\ List.length values = S (S (List.length ts)) /\
    nth_error values 0 = Some x /\
    forall k s, nth_error (t1 :: ts) k = Some s -> on_grid h t0 s -> exists v,
      nth_error values (S k) = Some v /\ run hp i x [t0; s] = Ok (Some [x; v]) /\
      ((forall t t' y, f t y = f t' y) -> run hp i x [0%Qc; (s - t0)%Qc] = Ok (Some [x; v])).
Proof.
  intros SO SS. pose proof SO as (N & L & O & H & _). apply step_option_size in O.
  destruct (fixed_times add mul f other odesolver hp (unchecked i) h x t0 t1 ts N O H L eq_refl eq_refl SS)
    as (values & E & LV & V0 & V).
  exists values. rewrite (checked_run h) by assumption. split; [exact E|]. split; [exact LV|]. split; [exact V0|].
  intros k s K G. destruct (V k s K G) as (v & V1 & V2). exists v. split; [exact V1|].
  assert (TS : (t0 < s)%Qc).
  { inversion SS as [|? ? _ F]; subst. apply (proj1 (Forall_forall _ _) F), (nth_error_In _ _ K). }
  split; [rewrite (checked_run h); [exact V2|exact SO|apply sorted_pair; exact TS]|].
  intros AU. destruct G as (m & ->).
  destruct (named_method add mul f _ N) as (step & M).
  assert (P : (0 < t0 + times m h - t0)%Qc).
  { replace (t0 + times m h - t0)%Qc with (times m h) by ring. destruct m; [|rewrite <- (times_0 h); apply times_lt; [exact H|lia]].
    exfalso. rewrite times_0, Qcplus_0_r in TS. exact (Qclt_not_eq _ _ TS eq_refl). }
  rewrite (checked_run h) by (try exact SO; apply sorted_pair; exact P).
  assert (MP : 0 < m).
  { destruct m; [|lia]. exfalso. rewrite times_0, Qcplus_0_r in TS. exact (Qclt_not_eq _ _ TS eq_refl). }
  destruct (values_on_grid add mul step h t0 [(t0 + times m h)%Qc] x H (sorted_pair _ _ TS)) as (w & _ & _ & W).
  destruct (W 1 m eq_refl) as (_ & W2). specialize (W2 MP).
  assert (P' : (0 < 0 + times m h)%Qc) by (replace (0 + times m h)%Qc with (t0 + times m h - t0)%Qc by ring; exact P).
  destruct (values_on_grid add mul step h 0 [(0 + times m h)%Qc] x H (sorted_pair _ _ P')) as (w' & _ & _ & W').
  destruct (W' 1 m eq_refl) as (_ & W3). specialize (W3 MP).
  replace (t0 + times m h - t0)%Qc with (0 + times m h)%Qc by ring.
  rewrite (direct_integrate add mul f other odesolver hp (unchecked i) step h x 0 _ [] M O L eq_refl eq_refl (sorted_pair _ _ P') _ W3).
  rewrite (direct_integrate add mul f other odesolver hp (unchecked i) step h x t0 _ [] M O L eq_refl eq_refl (sorted_pair _ _ TS) _ W2) in V2.
  cbn [snd] in V2 |- *. injection V2 as <-. do 3 f_equal. f_equal. apply steady_steps.
  intros t t' y. f_equal. apply (steady_method _ _ AU M).
Qed.
End Steps.

(** ** C141 *)
Section Times.
Context {A : Type}.
Variable zero : A.
Variable ig : integrand (A := A).
Variable has_attr : string -> bool.
Variable rnd : nat -> nat -> A.
Variable add : list A -> list A -> list A.
Variable mul : Qc -> list A -> list A.
Variable rhs : option plans -> Qc -> list A -> list A.
Variable other : bool -> string -> opts -> list A -> list Qc -> result (list (list A)).
Variable odesolver : opts -> list A -> result (list A).

Notation fwd hp i := (BlockModel.forward zero ig has_attr rnd (integrator_solve add mul rhs other odesolver hp i)).

Lemma block_times h hp i x st co data (b b' : block) t1 ts k s o s' c d :
  steps_of h hp i -> StronglySorted Qclt (0%Qc :: t1 :: ts) ->
  b_time_vec b = Some (0%Qc :: t1 :: ts) -> b_time b = None ->
  nth_error (t1 :: ts) k = Some s -> on_grid h 0%Qc s ->
  ig_concatenate ig = false \/ (st = None /\ data = None) ->
  fwd hp i x st co data b = (b', Ok (o, s', c, d)) ->
  exists o1 s1 c1 d1,
    snd (fwd hp i x st co data (set_times (Some s) None b)) = Ok (o1, s1, c1, d1) /\
    output_at (S k) o o1 /\ at_time (S k) s' s1 /\ at_time (S k) c c1 /\ at_time (S k) d d1.
Proof.
  intros SO SS TV TN K G HC E.
  refine (run_times zero ig has_attr rnd
    (fun p x0 t => snd (integrate (fixed_odeint add mul (rhs p) other) odesolver hp i x0 t))
    x st co data b b' _ (S k) s s' c d o TV TN _ HC _ E).
  - assert (KL : k < List.length (t1 :: ts)) by (apply nth_error_Some; rewrite K; discriminate). cbn [List.length] in *. lia.
  - intros ps x0 values ER.
    destruct (step_run add mul (rhs ps) other odesolver h hp i x0 0%Qc t1 ts SO SS) as (vs & E1 & L & V0 & V).
    rewrite ER in E1. injection E1 as <-. split; [exact L|]. split; [exact V0|].
    destruct (V k s K G) as (v & V1 & V2 & _). exists v. split; [exact V1|exact V2].
Qed.

Lemma block_shifted h hp i x st co data (b b' : block) t0 t1 ts k s o s' c d :
  autonomous rhs ->
  steps_of h hp i -> StronglySorted Qclt (t0 :: t1 :: ts) ->
  b_time_vec b = Some (t0 :: t1 :: ts) -> b_time b = None ->
  nth_error (t1 :: ts) k = Some s -> on_grid h t0 s ->
  ig_concatenate ig = false \/ (st = None /\ data = None) ->
  fwd hp i x st co data b = (b', Ok (o, s', c, d)) ->
  exists o1 s1 c1 d1,
    snd (fwd hp i x st co data (set_times (Some (s - t0)%Qc) None b)) = Ok (o1, s1, c1, d1) /\
    output_at (S k) o o1 /\ at_time (S k) s' s1 /\ at_time (S k) c c1 /\ at_time (S k) d d1.
Proof.
  intros AU SO SS TV TN K G HC E.
  refine (run_times zero ig has_attr rnd
    (fun p x0 t => snd (integrate (fixed_odeint add mul (rhs p) other) odesolver hp i x0 t))
    x st co data b b' _ (S k) (s - t0)%Qc s' c d o TV TN _ HC _ E).
  - assert (KL : k < List.length (t1 :: ts)) by (apply nth_error_Some; rewrite K; discriminate). cbn [List.length] in *. lia.
  - intros ps x0 values ER.
    destruct (step_run add mul (rhs ps) other odesolver h hp i x0 t0 t1 ts SO SS) as (vs & E1 & L & V0 & V).
    rewrite ER in E1. injection E1 as <-. split; [exact L|]. split; [exact V0|].
    destruct (V k s K G) as (v & V1 & _ & V2). exists v. split; [exact V1|]. apply V2. exact (AU ps).
Qed.
End Times.

(** A block asked for time 0 alone. *)
Section Zero.
Context {A : Type}.
Variable zero : A.
Variable ig : integrand (A := A).
Variable has_attr : string -> bool.
Variable rnd : nat -> nat -> A.
Variable add : list A -> list A -> list A.
Variable mul : Qc -> list A -> list A.
Variable rhs : option plans -> Qc -> list A -> list A.
Variable other : bool -> string -> opts -> list A -> list Qc -> result (list (list A)).
Variable odesolver : opts -> list A -> result (list A).

Lemma block_zero h hp i x st co data (b : block) r :
  steps_of h hp i -> i_checkpointing_time_interval i = None ->
  snd (BlockModel.forward zero ig has_attr rnd (integrator_solve add mul rhs other odesolver hp i) x st co data
         (set_times (Some 0%Qc) None b)) <> Ok r.
Proof.
  intros (N & L & _ & _ & CN & _) CI E.
  destruct (BlockModel.forward zero ig has_attr rnd (integrator_solve add mul rhs other odesolver hp i) x st co data
              (set_times (Some 0%Qc) None b)) as [b9 r9] eqn:E9. cbn [snd] in E. subst r9.
  destruct (forward_ok_inv _ _ _ _ _ _ _ _ _ _ _ _ E9)
    as (C1 & C2 & b1 & st' & co' & dd & z & b2 & x0 & ps & r9 & F1 & F2 & F3 & F4 & F5 & _).
  pose proof (effective_pass_through_static zero ig has_attr rnd st co (set_times (Some 0%Qc) None b)) as S1. rewrite F1 in S1.
  pose proof (initial_conditions_static zero ig dd st' co' z b1) as S2. rewrite F3 in S2. cbn [fst] in S1, S2.
  assert (SS : same_static (set_times (Some 0%Qc) None b) b2) by (eapply (proj2 same_static_preorder); eauto).
  destruct SS as (_ & _ & _ & _ & _ & _ & ST & SV). cbn in ST, SV.
  rewrite (integrate_scalar _ _ _ 0%Qc) in F4 by (cbn; congruence).
  apply bind_ok in F4 as (all & EA & _). unfold integrator_solve in EA. apply bind_ok in EA as (vs & EA & _).
  unfold integrate in EA. rewrite CN, CI in EA. unfold integrate_direct in EA. rewrite L in EA.
  replace (String.eqb "odeint" "odeint") with true in EA by reflexivity. cbn [snd] in EA.
  apply bind_ok in EA as (res & EA & _).
  destruct (named_method add mul (rhs (b_plans (set_plans (Some ps) b2))) _ N) as (step & M).
  unfold fixed_odeint in EA. replace (increasing (map Qcopp [Q2Qc 0; 0%Qc])) with false in EA by reflexivity.
  rewrite M in EA. discriminate EA.
Qed.
End Zero.

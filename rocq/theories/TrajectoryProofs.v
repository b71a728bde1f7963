(** Proofs for TrajectoryModel. *)
From Coq Require Import List String Arith ZArith QArith Qcanon Bool Lia Sorting.Sorted.
From Verif Require Import Base BaseFacts Tensor TensorFacts ScdModel ScdSpec ScdProofs BlockModel BlockSpec IntegratorModel
  FixedGridModel FixedGridSpec BlockSolverModel BlockSolverSpec BlockSolverProofs
  BlockProofs BlockProofs2 BlockProofs3 BlockProofs4 BlockProofs5 GridProofs UtilsModel TrajectoryModel TrajectorySpec.
Import ListNotations.
Open Scope string_scope.
Open Scope list_scope.
Open Scope nat_scope.

(** ** The times *)
Lemma moments_ok N : (2 <= N)%Z ->
  linspace 0%Qc 1%Qc N = Ok (map (moment N) (seq 0 (Z.to_nat N))).
Proof.
  intros H. unfold linspace. destruct (Z.ltb_spec N 0); [lia|]. destruct (Z.eqb_spec N 1); [lia|].
  f_equal. apply map_ext. intros k. unfold moment, Qcdiv. ring.
Qed.

Lemma moment_first N : moment N 0 = 0%Qc.
Proof. unfold moment. change (Q2Qc (inject_Z (Z.of_nat 0))) with 0%Qc. unfold Qcdiv. ring. Qed.

Lemma moment_last N : (2 <= N)%Z -> moment N (Z.to_nat (N - 1)) = 1%Qc.
Proof.
  intros H. unfold moment. rewrite Z2Nat.id by lia. field. intros E.
  assert (P : (0 < qn (Z.to_nat (N - 1)))%Qc) by (apply qn_pos; lia).
  unfold qn in P. rewrite Z2Nat.id in P by lia. rewrite E in P. apply (Qclt_not_eq _ _ P). reflexivity.
Qed.

Lemma moments_sorted N : (2 <= N)%Z -> StronglySorted Qclt (map (moment N) (seq 0 (Z.to_nat N))).
Proof.
  intros H. assert (D : (0 < 1 / qn (Z.to_nat (N - 1)))%Qc).
  { apply qc_div_pos; [reflexivity|apply qn_pos; lia]. }
  pose proof (sorted_affine 0 (1 / qn (Z.to_nat (N - 1))) 0 (Z.to_nat N) D) as S0.
  erewrite map_ext; [exact S0|]. intros k. cbv beta. unfold moment, qn. rewrite Z2Nat.id by lia. unfold Qcdiv. ring.
Qed.

Lemma moments_split N : (2 <= N)%Z -> exists t1 ts, map (moment N) (seq 0 (Z.to_nat N)) = 0%Qc :: t1 :: ts.
Proof.
  intros H. destruct (Z.to_nat N) as [|[|n]] eqn:E; [lia|lia|]. cbn [seq map]. rewrite moment_first. eauto.
Qed.

Section Trajectory.
Context {A : Type}.
Variable zero : A.
Variable ig : integrand (A := A).
Variable has_attr : string -> bool.
Variable rnd : nat -> nat -> A.

Section Any.
Variable solve : block (A := A) -> list A -> list Qc -> result (tensor A).

Lemma trajectory_ok x N b b' out : trajectory zero ig has_attr rnd solve x N b = (b', Ok out) ->
  exists t b1, linspace 0%Qc 1%Qc N = Ok t /\
    apply_block zero ig has_attr rnd solve x (set_times None (Some t) b) = (b1, Ok out) /\
    b' = set_times (Some 1%Qc) None b1.
Proof.
  intros E. unfold trajectory, mbind, BlockModel.lift, set_integration_time_vector, set_integration_time, modify, ret in E.
  destruct (linspace 0%Qc 1%Qc N) as [t|e]; [|discriminate]. exists t.
  destruct (apply_block zero ig has_attr rnd solve x (set_times None (Some t) b)) as [b1 [o|e]] eqn:F; [|discriminate].
  exists b1. injection E as <- <-. repeat split.
Qed.

Lemma apply_after x b b' out : apply_block zero ig has_attr rnd solve x b = (b', Ok out) ->
  exists d x0 ps, ig_initial_data ig x = Ok d /\
    initial_conditions zero ig (sd_set (b_name b) d []) None None false b = (b, Ok (x0, ps)) /\
    b' = set_fresh false (set_plans (Some ps) b).
Proof.
  intros E. destruct (forward_ok_inv _ _ _ _ _ _ _ _ _ _ _ _ E)
    as (_ & _ & b1 & st' & co' & dd & z & b2 & x0 & ps & r & F1 & F2 & F3 & _ & _ & ->).
  cbn in F1. injection F1 as <- <- <-. unfold effective_data in F2.
  destruct (ig_initial_data ig x) as [d|e]; [|discriminate]. cbn in F2. injection F2 as <- <-.
  assert (b2 = b).
  { unfold initial_conditions, mbind, BlockModel.lift, ret in F3.
    destruct (merge_dict (b_state b) None (b_name b)); [|discriminate].
    destruct (merge_dict (b_costate b) None (b_name b)); [|discriminate].
    destruct (assemble_tensor _ _ _) in F3; [|discriminate]. injection F3 as <- _. reflexivity. }
  subst b2. exists d, x0, ps. split; [reflexivity|]. split; [exact F3|reflexivity].
Qed.

(** The block afterwards. *)
Lemma trajectory_leaves x N b b' out b1 out1 :
  b_time b = Some 1%Qc -> b_time_vec b = None ->
  trajectory zero ig has_attr rnd solve x N b = (b', Ok out) ->
  apply_block zero ig has_attr rnd solve x b = (b1, Ok out1) -> b' = b1.
Proof.
  intros T V E F. destruct (trajectory_ok _ _ _ _ _ E) as (t & b2 & _ & E2 & ->).
  destruct (apply_after _ _ _ _ E2) as (d & x0 & ps & D & I & ->).
  destruct (apply_after _ _ _ _ F) as (d' & x0' & ps' & D' & I' & ->).
  rewrite D in D'. injection D' as <-.
  pose proof (initial_conditions_static zero ig (sd_set (b_name b) d []) None None false b) as _.
  assert (K : snd (initial_conditions zero ig (sd_set (b_name b) d []) None None false (set_times None (Some t) b))
            = snd (initial_conditions zero ig (sd_set (b_name b) d []) None None false b)).
  { unfold initial_conditions, mbind, BlockModel.lift, ret. cbn [b_state b_costate b_name set_times].
    destruct (merge_dict (b_state b) None (b_name b)); [|reflexivity].
    destruct (merge_dict (b_costate b) None (b_name b)); [|reflexivity].
    destruct (assemble_tensor _ _ _); reflexivity. }
  cbn [b_name set_times] in I. rewrite I, I' in K. cbn [snd] in K. injection K as <- <-.
  destruct b; cbn in T, V. subst. reflexivity.
Qed.

(** A number of times which linspace refuses. *)
Lemma trajectory_refused x N b e : linspace 0%Qc 1%Qc N = Raise e ->
  trajectory zero ig has_attr rnd solve x N b = (b, Raise e).
Proof. intros E. unfold trajectory, mbind, BlockModel.lift. rewrite E. reflexivity. Qed.
End Any.

Variable add : list A -> list A -> list A.
Variable mul : Qc -> list A -> list A.
Variable rhs : option plans -> Qc -> list A -> list A.
Variable other : bool -> string -> opts -> list A -> list Qc -> result (list (list A)).
Variable odesolver : opts -> list A -> result (list A).

Notation sol hp i := (integrator_solve add mul rhs other odesolver hp i).

Lemma trajectory_rows h hp i x N (b b' : block) k o s c d :
  steps_of h hp i -> 0 < k -> (Z.of_nat k < N)%Z -> on_grid h 0%Qc (moment N k) ->
  trajectory zero ig has_attr rnd (sol hp i) x N b = (b', Ok (o, s, c, d)) ->
  exists o1 s1 c1 d1,
    snd (apply_block zero ig has_attr rnd (sol hp i) x (set_times (Some (moment N k)) None b)) = Ok (o1, s1, c1, d1) /\
    output_at k o o1 /\ at_time k s s1 /\ at_time k c c1 /\ at_time k d d1.
Proof.
  intros SO K KN G E. assert (N2 : (2 <= N)%Z) by lia.
  destruct (trajectory_ok _ _ _ _ _ _ E) as (t & b1 & L & F & _). rewrite (moments_ok N N2) in L. injection L as <-.
  destruct (moments_split N N2) as (t1 & ts & M). pose proof (moments_sorted N N2) as SS.
  destruct k as [|k]; [lia|].
  assert (NK : nth_error (t1 :: ts) k = Some (moment N (S k))).
  { change (nth_error (t1 :: ts) k) with (nth_error (0%Qc :: t1 :: ts) (S k)). rewrite <- M.
    rewrite nth_error_map, (nth_error_nth' _ 0) by (rewrite seq_length; lia). rewrite seq_nth by lia. reflexivity. }
  rewrite M in F, SS.
  destruct (block_times zero ig has_attr rnd add mul rhs other odesolver h hp i (Some x) None None None
    (set_times None (Some (0%Qc :: t1 :: ts)) b) b1 t1 ts k (moment N (S k)) o s c d SO SS eq_refl eq_refl NK G
    (or_intror (conj eq_refl eq_refl)) F) as (o1 & s1 & c1 & d1 & R & Q).
  exists o1, s1, c1, d1. split; [exact R|exact Q].
Qed.

Lemma trajectory_end h hp i x N (b b' : block) o s c d :
  steps_of h hp i -> (2 <= N)%Z -> on_grid h 0%Qc 1%Qc -> b_time b = Some 1%Qc -> b_time_vec b = None ->
  trajectory zero ig has_attr rnd (sol hp i) x N b = (b', Ok (o, s, c, d)) ->
  exists o1 s1 c1 d1,
    apply_block zero ig has_attr rnd (sol hp i) x b = (b', Ok (o1, s1, c1, d1)) /\
    let k := Z.to_nat (N - 1) in output_at k o o1 /\ at_time k s s1 /\ at_time k c c1 /\ at_time k d d1.
Proof.
  intros SO N2 G T V E.
  destruct (trajectory_rows h hp i x N b b' (Z.to_nat (N - 1)) o s c d SO) as (o1 & s1 & c1 & d1 & R & Q);
    [lia|lia|rewrite moment_last by lia; exact G|exact E|].
  rewrite moment_last in R by lia.
  assert (EB : set_times (Some 1%Qc) None b = b) by (destruct b; cbn in T, V |- *; subst; reflexivity).
  rewrite EB in R. exists o1, s1, c1, d1.
  destruct (apply_block zero ig has_attr rnd (sol hp i) x b) as [b9 r9] eqn:E9. cbn [snd] in R. subst r9.
  rewrite (trajectory_leaves _ _ _ _ _ _ _ _ T V E E9). split; [reflexivity|exact Q].
Qed.

(** The first entry. *)
Lemma vector_start h hp i x t0 t1 ts (b b1 : block) o s c d s0 c0 d0 q :
  steps_of h hp i -> StronglySorted Qclt (t0 :: t1 :: ts) ->
  b_state b = Some s0 -> good_dict s0 -> b_costate b = Some c0 -> good_dict c0 ->
  ig_initial_data ig x = Ok d0 -> good_dict d0 -> sd_get (ig_output_key ig) d0 = Some q ->
  apply_block zero ig has_attr rnd (sol hp i) x (set_times None (Some (t0 :: t1 :: ts)) b) = (b1, Ok (o, s, c, d)) ->
  output_at 0 o (RTensor q) /\ at_time 0 s [(b_name b, s0)] /\ at_time 0 c [(b_name b, c0)] /\
  at_time 0 d [(b_name b, d0)].
Proof.
  intros SO SS ES GS EC GC ED GD EQ F.
  set (bt := set_times None (Some (t0 :: t1 :: ts)) b) in *.
  assert (RV : forall ps x0 vs, snd (integrate (fixed_odeint add mul (rhs ps) other) odesolver hp i x0 (t0 :: t1 :: ts)) = Ok (Some vs) ->
    List.length vs = List.length (t0 :: t1 :: ts) /\ nth_error vs 0 = Some x0).
  { intros ps x0 vs EV.
    destruct (step_run add mul (rhs ps) other odesolver h hp i x0 t0 t1 ts SO SS) as (vs' & E1 & LV & V0 & _).
    rewrite EV in E1. injection E1 as <-. split; [exact LV|exact V0]. }
  assert (HS : forall b x0 all, sol hp i b x0 (t0 :: t1 :: ts) = Ok all ->
    twf all /\ exists n, tshape all = [List.length (t0 :: t1 :: ts); n]).
  { intros b0 x0 all ER. unfold integrator_solve in ER. apply bind_ok in ER as ([vs|] & ER & EV); [|discriminate].
    destruct (RV _ _ _ ER) as (LV & _). destruct (stack_ok vs all EV) as (n & FV & _ & ->).
    split; [apply rows_wf; exact FV|]. exists n. cbn [tshape]. rewrite LV. reflexivity. }
  destruct (time_vector_slices zero ig has_attr rnd (sol hp i) (Some x) None None None bt b1 (t0 :: t1 :: ts) 1%Qc 0 s c d o
    eq_refl ltac:(cbn; lia) HS (or_intror (conj eq_refl eq_refl)) F eq_refl) as (o1 & s1 & c1 & d1 & R & Q1 & Q2 & Q3 & Q4).
  assert (CF : exists b9, BlockModel.forward zero ig has_attr rnd constant_solution (Some x) None None None
            (set_times (Some 1%Qc) None bt) = (b9, Ok (o1, s1, c1, d1))).
  { destruct (BlockModel.forward zero ig has_attr rnd (at_index 0 (t0 :: t1 :: ts) (sol hp i)) (Some x) None None None
      (set_times (Some 1%Qc) None bt)) as [b9 r9] eqn:E9. cbn [snd] in R. subst r9.
    destruct (forward_ok_inv _ _ _ _ _ _ _ _ _ _ _ _ E9)
      as (C1 & C2 & b2 & st' & co' & dd & z & b3 & x0 & ps & r & F1 & F2 & F3 & F4 & F5 & _).
    eexists. eapply (forward_ok_intro _ _ _ _ constant_solution _ _ _ _ _ (o1, s1, c1, d1) _ _ _ _ _ _ _ _ r C1 C2 F1 F2 F3); [|exact F5].
    pose proof (effective_pass_through_static zero ig has_attr rnd None None (set_times (Some 1%Qc) None bt)) as S1. rewrite F1 in S1.
    pose proof (initial_conditions_static zero ig dd st' co' z b2) as S2. rewrite F3 in S2. cbn [fst] in S1, S2.
    assert (SA : same_static (set_times (Some 1%Qc) None bt) b3) by (eapply (proj2 same_static_preorder); eauto).
    destruct SA as (_ & _ & _ & _ & _ & _ & ST & SV). cbn in ST, SV.
    rewrite (integrate_scalar _ _ _ 1%Qc) in F4 by (cbn; congruence).
    rewrite (integrate_scalar _ _ _ 1%Qc) by (cbn; congruence).
    apply bind_ok in F4 as (all & EA & F4). unfold at_index in EA.
    apply bind_ok in EA as (rows & ER & EA). apply bind_ok in EA as (row & EW & EA). injection EA as <-.
    unfold integrator_solve in ER. apply bind_ok in ER as ([vs|] & ER & EV); [|discriminate].
    destruct (RV _ _ _ ER) as (LV & V0).
    destruct (stack_ok vs rows EV) as (n & FV & NV & ->).
    rewrite (select_row vs n 0 x0 FV V0) in EW. injection EW as <-.
    assert (L0 : List.length x0 = n) by (apply (proj1 (Forall_forall _ _) FV), (nth_error_In _ _ V0)).
    unfold constant_solution at 1. cbn [bind List.length repeat].
    assert (F2' : Forall (fun w => List.length w = n) [x0; x0]) by (repeat constructor; assumption).
    assert (W : twf (mkT [n] x0)) by (unfold twf; cbn; lia).
    cbn [bind tshape] in F4 |- *. unfold list_item in F4 |- *. cbn [nth_error bind List.length] in F4 |- *.
    cbn [Nat.eqb Nat.sub] in F4 |- *.
    pose proof (tselect_single (mkT [n] x0) W) as TS. cbn [tshape tdata] in TS. cbn [tshape tdata] in F4. rewrite TS in F4.
    rewrite L0.
    rewrite (select_row [x0; x0] n 1 x0 F2' eq_refl : tselect 1 (mkT [2; n] (List.concat [x0; x0])) = Ok (mkT [n] x0)).
    exact F4. }
  destruct CF as (b9 & CF).
  assert (CW : exists b8 s8 c8, BlockModel.forward zero ig has_attr rnd constant_solution (Some x) None None None
            (set_times (Some 1%Qc) None bt) = (b8, Ok (RTensor q, s8, c8, [(b_name b, d0)])) /\
            joined (b_name b) s0 None s8 /\ joined (b_name b) c0 None c8).
  { apply (constant_forward zero ig has_attr rnd constant_solution x None None (set_times (Some 1%Qc) None bt) 1%Qc);
      try assumption; try (right; reflexivity); try exact I; try (split; reflexivity);
    try reflexivity; try (intros; reflexivity). all: unfold family_ok; intros; try discriminate; exact I. }
  destruct CW as (b8 & s8 & c8 & E8 & J1 & J2).
  rewrite CF in E8. injection E8 as _ -> -> -> ->.
  assert (JN : forall (g : sdict (tensor A)) r, joined (b_name b) g None r -> r = [(b_name b, g)]).
  { intros g r (W & G & O). destruct r as [|[k v] r]; [discriminate G|].
    assert (KK : forall k' v', In (k', v') ((k, v) :: r) -> k' = b_name b).
    { intros k' v' I'. destruct (string_dec k' (b_name b)) as [e|e]; [exact e|]. exfalso.
      specialize (O _ e). apply (proj1 (sd_get_none _ _) O). change k' with (fst (k', v')). unfold keys. apply in_map. exact I'. }
    pose proof (KK k v (or_introl eq_refl)) as ->.
    destruct r as [|[k2 v2] r].
    - cbn in G. rewrite String.eqb_refl in G. injection G as ->. reflexivity.
    - exfalso. pose proof (KK k2 v2 (or_intror (or_introl eq_refl))) as ->.
      unfold sd_wf in W. cbn [keys map fst] in W. apply StronglySorted_inv in W as (_ & W). apply Forall_inv in W. exact (str_lt_irrefl _ W). }
  cbn [b_name set_times] in J1, J2. subst bt. cbn [b_name set_times] in *.
  rewrite (JN _ _ J1) in Q2. rewrite (JN _ _ J2) in Q3. repeat split; assumption.
Qed.

Lemma trajectory_start h hp i x N (b b' : block) o s c d s0 c0 d0 q :
  steps_of h hp i -> (2 <= N)%Z ->
  b_state b = Some s0 -> good_dict s0 -> b_costate b = Some c0 -> good_dict c0 ->
  ig_initial_data ig x = Ok d0 -> good_dict d0 -> sd_get (ig_output_key ig) d0 = Some q ->
  trajectory zero ig has_attr rnd (sol hp i) x N b = (b', Ok (o, s, c, d)) ->
  output_at 0 o (RTensor q) /\ at_time 0 s [(b_name b, s0)] /\ at_time 0 c [(b_name b, c0)] /\
  at_time 0 d [(b_name b, d0)].
Proof.
  intros SO N2 ES GS EC GC ED GD EQ E.
  destruct (trajectory_ok _ _ _ _ _ _ E) as (t & b1 & L & F & _). rewrite (moments_ok N N2) in L. injection L as <-.
  destruct (moments_split N N2) as (t1 & ts & M). pose proof (moments_sorted N N2) as SS. rewrite M in F, SS.
  exact (vector_start h hp i x 0%Qc t1 ts b b1 o s c d s0 c0 d0 q SO SS ES GS EC GC ED GD EQ F).
Qed.
End Trajectory.

(** ** Freezing *)
Lemma freeze_detached_same names : forall det model, snd (freeze_detached names det model) = model.
Proof.
  induction names as [|n names IH]; intros det model; [reflexivity|]. cbn [freeze_detached].
  destruct (pd_get n det); [apply IH|reflexivity].
Qed.

Lemma detached_keys v n (d : params) k : pd_get k (set_grad v n d) = None <-> pd_get k d = None.
Proof.
  induction d as [|[k0 p] d IH]; [reflexivity|]. unfold set_grad in *. cbn [map fst snd].
  destruct (String.eqb k0 n); cbn; destruct (String.eqb k k0); try exact IH; split; intros X; discriminate X.
Qed.

Lemma detached_none (m : params) k : pd_get k (map (fun kv => (fst kv, mkPar (p_size (snd kv)) false)) m) = None <-> ~ In k (map fst m).
Proof.
  induction m as [|[k0 p] m IH]; [cbn; tauto|]. cbn.
  destruct (String.eqb_spec k k0) as [->|N]; [split; [discriminate|intros F; destruct F; left; reflexivity]|].
  rewrite IH. cbn [In]. split; intros F; [intros [E|E]; [congruence|tauto]|tauto].
Qed.

Lemma freeze_detached_outcome model names : forall det,
  (forall k, pd_get k det = None <-> ~ In k (map fst model)) ->
  fst (freeze_detached names det model) = (if forallb (fun n => existsb (String.eqb n) (map fst model)) names then Ok tt else Raise KeyError).
Proof.
  induction names as [|n names IH]; intros det D; [reflexivity|]. cbn [freeze_detached forallb].
  destruct (existsb (String.eqb n) (map fst model)) eqn:E; cbn [andb].
  - destruct (pd_get n det) eqn:P.
    + apply IH. intros k. rewrite detached_keys. apply D.
    + apply D in P. exfalso. apply P. apply existsb_exists in E as (k & I & K). apply String.eqb_eq in K as ->. exact I.
  - destruct (pd_get n det) eqn:P; [|reflexivity]. exfalso.
    assert (~ In n (map fst model)) as NI.
    { intros I. rewrite (proj2 (existsb_exists _ _)) in E; [discriminate|]. exists n. split; [exact I|apply String.eqb_refl]. }
    apply D in NI. congruence.
Qed.

Lemma cc_freeze names model : cc_freeze_parameters names model =
  (if forallb (fun n => existsb (String.eqb n) (map fst model)) names then Ok tt else Raise KeyError, model).
Proof.
  rewrite (surjective_pairing (cc_freeze_parameters names model)). f_equal; [|apply freeze_detached_same].
  apply freeze_detached_outcome. intros k. apply detached_none.
Qed.

(** Proofs: parameters and whole runs with particles without costates. *)
From Coq Require Import List String Bool Reals Arith Lia Lra QArith Qcanon Qreals FunctionalExtensionality.
From Verif Require Import Base BaseFacts RealSum IntegratorModel FixedGridModel VecModel ParticlesModel ParticlesSpec
  ParticlesProofs ParticlesProofs2 ScalingSpec ScalingProofs ScalingProofs2 SilentSpec SilentProofs.
Import ListNotations.
Open Scope string_scope.
Open Scope list_scope.
Open Scope R_scope.

Section Silent.
Variable A B : nat.
Hypothesis A0 : (0 < A)%nat.
Hypothesis AB : (A <= B)%nat.
Notation l := (INR B / INR A).
Notation g := (fun n : nat => n).
Notation part x x' := (chosen g B A x x').

Lemma INR_A : INR A <> 0.
Proof. apply not_0_INR. lia. Qed.
Lemma INR_B : INR B <> 0.
Proof. apply not_0_INR. lia. Qed.
Lemma factor : l <> 0.
Proof. unfold Rdiv. apply Rmult_integral_contrapositive. split; [exact INR_B|apply Rinv_neq_0_compat; exact INR_A]. Qed.

Lemma rsum_quiet F : (forall n, (A <= n < B)%nat -> F n = 0) -> rsum B F = rsum A F.
Proof.
  intros Z. clear A0. revert Z. induction AB as [|b M IH]; [reflexivity|]. intros Z. cbn [rsum].
  rewrite (IH M) by (intros; apply Z; lia). rewrite Z by lia. ring.
Qed.

Lemma mean_quiet x x' : part x x' -> quiet A B x -> mean0 x' = map2 (Rmult l) (mean0 x).
Proof.
  intros (S & S' & E1 & E2 & V) [_ Z]. unfold mean0, sum0, map2. cbn [m0 m1 v2]. rewrite S, S', E1, E2. f_equal. ext.
  rewrite (rsum_quiet (fun n => v3 x n _ _)) by (intros; apply Z; assumption).
  rewrite (rsum_ext A _ (fun n => v3 x n x0 x1)) by (intros; apply V; assumption). field.
  repeat split; first [exact INR_A|exact INR_B].
Qed.

Lemma bias_quiet p p' : part p p' -> quiet A B p -> bias_of A p' = map2 (Rmult l) (bias_of B p).
Proof.
  intros (S & S' & E1 & E2 & V) [_ Z]. unfold bias_of, sum0, map2. cbn [m0 m1 v2]. rewrite S, S', E1, E2. f_equal. ext.
  rewrite (rsum_quiet (fun n => v3 p n _ _)) by (intros; apply Z; assumption).
  rewrite (rsum_ext A _ (fun n => v3 p n x x0)) by (intros; apply V; assumption). field.
  repeat split; first [exact INR_A|exact INR_B].
Qed.

Lemma term_zero nl q0 q1 p0 p1 X r : term nl q0 q1 p0 p1 X (fun _ _ => 0) = Ok r -> forall i k, v2 r i k = 0.
Proof.
  unfold term, zip2, tr. cbn [m0 m1 v2 map2].
  intros H. apply bind_ok in H as (a & _ & H). apply bind_ok in H as (b & _ & H). injection H as <-. intros i k. cbn [v2]. ring.
Qed.

Lemma weight_loop_quiet nl d q q' p p' z : part q q' -> part p p' -> quiet A B p ->
  weight_loop nl d B q p = Ok z -> weight_loop nl d A q' p' = Ok (map2 (Rmult l) z).
Proof.
  intros (Q0 & Q0' & Q1 & Q2 & Q) (P0 & P0' & P1 & P2 & P) [_ PZ] H.
  assert (first : exists r acc, term nl (n1 q) (n2 q) (n1 p) (n2 p) (v3 q 0%nat) (v3 p 0%nat) = Ok r
            /\ zip2 Rplus (mkT2 d d (fun _ _ => 0)) (tr r) = Ok acc).
  { unfold weight_loop in H. destruct B as [|m]; [lia|]. cbn [seq foldM] in H.
    apply bind_ok in H as (s & H & _).
    apply bind_ok in H as (acc & H & _). unfold row in H. rewrite Q0, P0 in H. cbn [Nat.ltb Nat.leb bind] in H.
    apply bind_ok in H as (y & E & H). exists y, acc. split; [exact E|exact H]. }
  destruct first as (r & acc & O & S0).
  destruct (term_uniform nl (n1 q) (n2 q) (n1 p) (n2 p)) as [(e & U)|(u & w & F & U)];
    [rewrite U in O; discriminate|]. rewrite U in O. injection O as <-.
  unfold zip2 in S0. cbn [m0 m1 tr] in S0. apply bind_ok in S0 as (a & BA & S0). apply bind_ok in S0 as (b & BB & _).
  rewrite (weight_loop_sum nl d B q p F u w a b) in H by (auto; lia). injection H as <-.
  rewrite (weight_loop_sum nl d A q' p' F u w a b); auto; [|lia|rewrite Q1, Q2, P1, P2; exact U].
  unfold map2. cbn [m0 m1 v2]. f_equal. f_equal. apply functional_extensionality; intros i. apply functional_extensionality; intros k.
  set (G := fun m => F (v3 q m) (v3 p m) (bidx u b k) (bidx w a i)).
  rewrite (rsum_ext A _ G).
  - rewrite (rsum_quiet G); [field; repeat split; first [exact INR_A|exact INR_B]|]. intros n K. unfold G.
    assert (PN : v3 p n = fun _ _ => 0) by (ext; apply PZ; exact K). rewrite PN.
    exact (term_zero nl _ _ _ _ _ _ (U (v3 q n) (fun _ _ => 0)) _ _).
  - intros m K. unfold G.
    assert (X1 : v3 q' m = v3 q m) by (ext; apply Q; exact K).
    assert (X2 : v3 p' m = v3 p m) by (ext; apply P; exact K). rewrite X1, X2. reflexivity.
Qed.

(** ** Parameters *)
Variable nl dnl : R -> R.
Variable init : string -> (nat -> nat -> R) * (nat -> R).
Variable d e : nat.
Variable W W' : option R.
Variable ow ow' : R.
Hypothesis WN : number W <> 0.
Hypothesis WW : number W' = l * number W.
Hypothesis ON : ow <> 0.
Hypothesis OO : ow' = l * ow.

Ltac hush := repeat first [simple apply quiet_opp | simple apply quiet_times | simple apply quiet_transpose | eassumption].
Ltac pstep :=
  match goal with
  | H : bind _ _ = Ok _ |- _ =>
      let x := fresh "x" in let E := fresh "E" in let K := fresh "K" in
      let x' := fresh "x" in let E' := fresh "E" in let Z := fresh "Z" in
      apply bind_ok in H as (x & E & H); cbv beta zeta in H;
      lazymatch type of E with
      | sd_item _ ?c = Ok _ =>
          try (match goal with F : all_quiet A B c |- _ => pose proof (quiet_item A B _ _ _ F E) as K end);
          match goal with F : all_chosen g B A c _ |- _ =>
            destruct (chosen_item g B A _ _ _ _ F E) as (x' & E' & Z) end
      | matmul33 _ _ = Ok _ =>
          first [eapply (quiet_matmul33_r A B) in E as K; [|solve [eapply chosen_sized; choose]|solve [hush]]
                |eapply (quiet_matmul33_l A B) in E as K; [|solve [hush]|solve [eapply chosen_sized; choose]]];
          edestruct (fun a b c e f => chosen_matmul33 g B A a b c e f) as (x' & E' & Z); [| |exact E|];
            [solve [choose]|solve [choose]|]
      end; rewrite E'; cbn [bind]; clear E E'
  end.

Ltac parameters_end H :=
  repeat match goal with
  | |- context [mean0 ?y] => erewrite (mean_quiet _ y) by (first [solve [choose] | solve [hush]])
  | |- context [bias_of A ?y] => erewrite (bias_quiet _ y) by (first [solve [choose] | solve [hush]])
  end;
  rewrite ?tr_sc;
  unfold store_weight, store_bias, updown_objects, universal_objects, general_objects, simple_objects, debug_objects,
    symmetrized_objects, periodic_objects in H |- *;
  cbn -[divide_by_if_not_none map2 mean0 tr bias_of layers] in H |- *;
  injection H as <-; eexists; split; [reflexivity|]; unfold layers;
  cbn -[divide_by_if_not_none map2 mean0 tr bias_of];
  rewrite ?(divide_sc l factor W W' WN WW), ?(divide_optional l factor ow ow' ON OO); reflexivity.

Lemma updown_parameters_quiet s s' c c' th : all_chosen g B A s s' -> all_chosen g B A c c' -> all_quiet A B c ->
  updown_parameters nl init d e W s c = Ok th ->
  exists th', updown_parameters nl init d e W' s' c' = Ok th' /\ layers th' = layers th.
Proof. intros S C Z H. unfold updown_parameters in *. repeat pstep. parameters_end H. Qed.
Lemma universal_parameters_quiet s s' c c' th : all_chosen g B A s s' -> all_chosen g B A c c' -> all_quiet A B c ->
  universal_parameters nl init d e W ow s c = Ok th ->
  exists th', universal_parameters nl init d e W' ow' s' c' = Ok th' /\ layers th' = layers th.
Proof. intros S C Z H. unfold universal_parameters in *. repeat pstep. parameters_end H. Qed.
Lemma general_parameters_quiet s s' c c' th : all_chosen g B A s s' -> all_chosen g B A c c' -> all_quiet A B c ->
  general_parameters nl init d e W s c = Ok th ->
  exists th', general_parameters nl init d e W' s' c' = Ok th' /\ layers th' = layers th.
Proof. intros S C Z H. unfold general_parameters in *. repeat pstep. parameters_end H. Qed.
Lemma symmetrized_parameters_quiet s s' c c' th : all_chosen g B A s s' -> all_chosen g B A c c' -> all_quiet A B c ->
  symmetrized_parameters nl init d e W s c = Ok th ->
  exists th', symmetrized_parameters nl init d e W' s' c' = Ok th' /\ layers th' = layers th.
Proof. intros S C Z H. unfold symmetrized_parameters in *. repeat pstep. parameters_end H. Qed.
Lemma periodic_parameters_quiet s s' c c' th : all_chosen g B A s s' -> all_chosen g B A c c' -> all_quiet A B c ->
  periodic_parameters nl init d e W s c = Ok th ->
  exists th', periodic_parameters nl init d e W' s' c' = Ok th' /\ layers th' = layers th.
Proof. intros S C Z H. unfold periodic_parameters in *. repeat pstep. parameters_end H. Qed.

Lemma simple_parameters_quiet s s' c c' th : all_chosen g B A s s' -> all_chosen g B A c c' -> all_quiet A B c ->
  simple_parameters nl init d W B s c = Ok th ->
  exists th', simple_parameters nl init d W' A s' c' = Ok th' /\ layers th' = layers th.
Proof.
  intros S C Z H. unfold simple_parameters in *. repeat pstep.
  apply bind_ok in H as (t & T & H). eapply weight_loop_quiet in T; [|eassumption..]. rewrite T. cbn [bind]. clear T.
  parameters_end H.
Qed.
Ltac evaluate H :=
  lazymatch type of H with bind ?x _ = _ =>
    let r := eval cbn -[divide_by_if_not_none map2 tr bias_of] in x in change x with r in H end;
  lazymatch goal with |- exists th', bind ?x _ = _ /\ _ =>
    let r := eval cbn -[divide_by_if_not_none map2 tr bias_of] in x in change x with r end;
  cbn [bind] in H |- *.

Lemma debug_parameters_quiet s s' c c' th : all_chosen g B A s s' -> all_chosen g B A c c' -> all_quiet A B c ->
  debug_parameters nl init d W B s c = Ok th ->
  exists th', debug_parameters nl init d W' A s' c' = Ok th' /\ layers th' = layers th.
Proof.
  intros S C Z H. unfold debug_parameters in *. repeat pstep.
  apply bind_ok in H as (t & T & H). eapply weight_loop_quiet in T; [|eassumption..]. rewrite T. cbn [bind]. clear T.
  evaluate H. evaluate H.
  repeat pstep.
  apply bind_ok in H as (t2 & T2 & H). eapply weight_loop_quiet in T2; [|eassumption..]. rewrite T2. cbn [bind]. clear T2.
  parameters_end H.
Qed.

(** ** Whole runs *)
Notation family := (combine (vector_equations nl dnl init d e W ow B) (vector_equations nl dnl init d e W' ow' A)).
Ltac families I := cbn [combine vector_equations] in I;
  repeat (destruct I as [I|I]; [injection I as <- <-; cbn [eq_parameters eq_rhs eq_costate]|]); [..|contradiction].

Lemma parameters_without m m' s s' c c' th : In (m, m') family ->
  all_chosen g B A s s' -> all_chosen g B A c c' -> all_quiet A B c -> eq_parameters m s c = Ok th ->
  exists th', eq_parameters m' s' c' = Ok th' /\ layers th' = layers th.
Proof.
  intros I S C Z. families I; intros H.
  - eapply updown_parameters_quiet; eassumption.
  - eapply universal_parameters_quiet; eassumption.
  - eapply general_parameters_quiet; eassumption.
  - eapply debug_parameters_quiet; eassumption.
  - eapply simple_parameters_quiet; eassumption.
  - eapply updown_parameters_quiet; eassumption.
  - eapply symmetrized_parameters_quiet; eassumption.
  - eapply periodic_parameters_quiet; eassumption.
Qed.

Lemma sized_of s s' : all_chosen g B A s s' -> all_sized B s.
Proof. induction 1 as [|x y s s' [_ H] F IH]; constructor; [exact (proj1 H)|exact IH]. Qed.

Lemma costate_quiet m m' s s' c th r : In (m, m') family -> all_chosen g B A s s' -> all_quiet A B c ->
  eq_costate m s c th = Ok r -> all_quiet A B r.
Proof.
  intros I S C. apply sized_of in S. families I; intros H.
  - eapply updown_quiet; eassumption.
  - eapply universal_quiet; eassumption.
  - eapply general_quiet; eassumption.
  - eapply debug_quiet; eassumption.
  - eapply simple_quiet; eassumption.
  - eapply updown_quiet; eassumption.
  - eapply symmetrized_quiet; eassumption.
  - eapply periodic_quiet; eassumption.
Qed.

Lemma rhs_same_layers m m' s th th' : In (m, m') family -> layers th' = layers th -> eq_rhs m' s th' = eq_rhs m s th.
Proof.
  intros I E. apply plains_layers in E. families I.
  - rewrite <- (updown_rhs_plain nl s th'), E. apply updown_rhs_plain.
  - rewrite <- (universal_rhs_plain nl s th'), E. apply universal_rhs_plain.
  - rewrite <- (general_rhs_plain nl s th'), E. apply general_rhs_plain.
  - rewrite <- (debug_rhs_plain nl s th'), E. apply debug_rhs_plain.
  - rewrite <- (simple_rhs_plain nl s th'), E. apply simple_rhs_plain.
  - rewrite <- (dampened_q2_rhs_plain nl s th'), E. apply dampened_q2_rhs_plain.
  - rewrite <- (symmetrized_rhs_plain nl s th'), E. apply symmetrized_rhs_plain.
  - rewrite <- (periodic_rhs_plain nl s th'), E. apply periodic_rhs_plain.
Qed.

Lemma rhs_part m m' s s' th r : In (m, m') family -> all_chosen g B A s s' -> eq_rhs m s th = Ok r ->
  exists r', eq_rhs m s' th = Ok r' /\ all_chosen g B A r r'.
Proof.
  intros I S. families I; intros H.
  - eapply updown_rhs_chosen; eassumption.
  - eapply universal_rhs_chosen; eassumption.
  - eapply general_rhs_chosen; eassumption.
  - eapply debug_rhs_chosen; eassumption.
  - eapply simple_rhs_chosen; eassumption.
  - eapply dampened_q2_rhs_chosen; eassumption.
  - eapply symmetrized_rhs_chosen; eassumption.
  - eapply periodic_rhs_chosen; eassumption.
Qed.

Lemma costate_part m m' s s' c c' th th' r : In (m, m') family -> all_chosen g B A s s' -> all_chosen g B A c c' ->
  layers th' = layers th -> eq_costate m s c th = Ok r ->
  exists r', eq_costate m' s' c' th' = Ok r' /\ all_chosen g B A r r'.
Proof.
  intros I S C E. apply plains_layers in E. assert (RG : forall n, (n < A)%nat -> (n < B)%nat) by (intros; lia).
  families I; intros H.
  - rewrite <- updown_costate_plain, E, updown_costate_plain. eapply updown_costate_chosen; eassumption.
  - rewrite <- universal_costate_plain, E, universal_costate_plain. eapply universal_costate_chosen; eassumption.
  - rewrite <- general_costate_plain, E, general_costate_plain. eapply general_costate_chosen; eassumption.
  - rewrite <- debug_costate_plain, E, debug_costate_plain. eapply debug_costate_chosen; eassumption.
  - rewrite <- simple_costate_plain, E, simple_costate_plain. eapply simple_costate_chosen; eassumption.
  - rewrite <- updown_costate_plain, E, updown_costate_plain. eapply updown_costate_chosen; eassumption.
  - rewrite <- symmetrized_costate_plain, E, symmetrized_costate_plain. eapply symmetrized_costate_chosen; eassumption.
  - rewrite <- periodic_costate_plain, E, periodic_costate_plain. eapply periodic_costate_chosen; eassumption.
Qed.

Lemma system_without m m' y y' r : In (m, m') family -> without A B y y' -> system_rhs m y = Ok r ->
  exists r', system_rhs m' y' = Ok r' /\ without A B r r'.
Proof.
  destruct y as [[s c] z], y' as [[s' c'] z']. intros I (S & C & Z & ->) H. unfold system_rhs in *.
  apply bind_ok in H as (th & T & H). destruct (parameters_without _ _ _ _ _ _ _ I S C Z T) as (th' & -> & L). cbn [bind].
  apply bind_ok in H as (ds & D & H). destruct (rhs_part _ _ _ _ _ _ I S D) as (ds' & D' & RD).
  rewrite !(rhs_same_layers m m' _ th th' I L), D'. cbn [bind].
  apply bind_ok in H as (dz & E & H). rewrite E. cbn [bind].
  apply bind_ok in H as (dc & K & H). destruct (costate_part _ _ _ _ _ _ _ _ _ I S C L K) as (dc' & -> & RC). cbn [bind].
  injection H as <-. eexists. split; [reflexivity|]. repeat split; try assumption. exact (costate_quiet _ _ _ _ _ _ _ I S Z K).
Qed.

Lemma plus_quiet c dc r : all_quiet A B c -> all_quiet A B dc -> plus_states c dc = Ok r -> all_quiet A B r.
Proof.
  intros C. revert dc r. induction C as [|[k x] c [X0 XZ] C IH]; intros dc r D H.
  - destruct dc; [|discriminate]. injection H as <-. constructor.
  - destruct dc as [|[k' y] dc]; [discriminate|]. cbn [plus_states] in H. apply bind_ok in H as (z & E & H).
    apply bind_ok in H as (t & T & H). injection H as <-. assert (Y := Forall_inv D). destruct Y as [Y0 YZ].
    constructor; [|exact (IH _ _ (Forall_inv_tail D) T)]. unfold plus3 in E. destruct (_ && _); [|discriminate]. injection E as <-.
    split; [exact X0|]. intros n i j K. cbn in *. rewrite XZ, YZ by exact K. ring.
Qed.

Lemma times_quiet a c : all_quiet A B c -> all_quiet A B (times_states a c).
Proof. induction 1 as [|[k x] c X C IH]; constructor; [apply quiet_times; exact X|exact IH]. Qed.

Definition becomes (y y' : result system) : Prop := forall a, y = Ok a -> exists a', y' = Ok a' /\ without A B a a'.

Lemma run_without m m' other adj name o y y' t ys : In (m, m') family -> without A B y y' ->
  In name ["euler"; "midpoint"; "rk4"] ->
  fixed_odeint plus_system times_system (system_field m) other adj name o (Ok y) t = Ok (map Ok ys) ->
  exists ys', fixed_odeint plus_system times_system (system_field m') other adj name o (Ok y') t = Ok (map Ok ys')
    /\ Forall2 (without A B) ys ys'.
Proof.
  intros I K NM H.
  destruct (fixed_odeint_rel plus_system times_system plus_system times_system becomes) with
    (f := system_field m) (f' := system_field m') (otherX := other) (otherY := other) (adj := adj) (name := name) (o := o)
    (x := Ok y : result system) (y := Ok y' : result system) (t := t) (xs := map (@Ok system) ys) as (zs & Z & F).
  - intros x x' u u' HX HY r E. unfold plus_system in *. apply bind_ok in E as (a & -> & E). apply bind_ok in E as (b & -> & E).
    destruct (HX a eq_refl) as (a' & -> & RA). destruct (HY b eq_refl) as (b' & -> & RB). cbn [bind].
    destruct a as [[s c] z], b as [[ds dc] dz], a' as [[s' c'] z'], b' as [[ds' dc'] dz'].
    destruct RA as (S1 & C1 & Q1 & ->), RB as (S2 & C2 & Q2 & ->).
    apply bind_ok in E as (p & P & E). apply bind_ok in E as (q & Q & E). apply bind_ok in E as (w & V & E). injection E as <-.
    destruct (plus_states_chosen _ _ _ _ _ _ _ _ S1 S2 P) as (p' & -> & RP).
    destruct (plus_states_chosen _ _ _ _ _ _ _ _ C1 C2 Q) as (q' & -> & RQ). cbn [bind]. rewrite V. cbn [bind].
    eexists. split; [reflexivity|]. repeat split; try assumption. exact (plus_quiet _ _ _ Q1 Q2 Q).
  - intros a x u HX r E. unfold times_system in *. apply bind_ok in E as (b & -> & E).
    destruct (HX b eq_refl) as (b' & -> & RB). cbn [bind]. destruct b as [[s c] z], b' as [[s' c'] z'].
    destruct RB as (S1 & C1 & Q1 & ->). injection E as <-. eexists. split; [reflexivity|].
    repeat split; [apply times_states_chosen|apply times_states_chosen|apply times_quiet]; assumption.
  - intros s x u HX r E. unfold system_field in *. apply bind_ok in E as (a & -> & E). destruct (HX a eq_refl) as (a' & -> & RA).
    cbn [bind]. exact (system_without _ _ _ _ _ I RA E).
  - exact NM.
  - intros a E. injection E as <-. exists y'. split; [reflexivity|exact K].
  - exact H.
  - assert (G : exists ys', zs = map Ok ys' /\ Forall2 (without A B) ys ys').
    { clear Z H. revert zs F. induction ys as [|a ys IH]; intros zs F; cbn in F.
      - inversion F. exists []. split; [reflexivity|constructor].
      - destruct zs as [|z zs]; [inversion F|].
        assert (F1 : becomes (Ok a) z) by (inversion F; assumption).
        assert (F2 : Forall2 becomes (map Ok ys) zs) by (inversion F; assumption).
        destruct (F1 a eq_refl) as (a' & -> & RA). destruct (IH zs F2) as (r & -> & RR).
        exists (a' :: r). split; [reflexivity|]. constructor; assumption. }
    destruct G as (ys' & -> & G). exists ys'. split; assumption.
Qed.
End Silent.

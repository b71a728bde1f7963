(** Proofs: whole runs with chosen particles. *)
From Coq Require Import List String Bool Reals Arith Lia QArith Qcanon Qreals.
From Verif Require Import Base BaseFacts RealSum IntegratorModel FixedGridModel VecModel ParticlesModel ParticlesSpec ParticlesProofs.
Import ListNotations.
Open Scope string_scope.
Open Scope list_scope.
Open Scope nat_scope.

(** ** Solvers preserve relations *)
Section Related.
Context {X Y : Type}.
Variable addX : X -> X -> X.
Variable mulX : Qc -> X -> X.
Variable addY : Y -> Y -> Y.
Variable mulY : Qc -> Y -> Y.
Variable rel : X -> Y -> Prop.
Hypothesis add_rel : forall x x' y y', rel x y -> rel x' y' -> rel (addX x x') (addY y y').
Hypothesis mul_rel : forall a x y, rel x y -> rel (mulX a x) (mulY a y).

Definition related_fields (f : Qc -> X -> X) (f' : Qc -> Y -> Y) : Prop := forall t x y, rel x y -> rel (f t x) (f' t y).
Definition related_steps (f : Qc -> Qc -> X -> X) (f' : Qc -> Qc -> Y -> Y) : Prop :=
  forall t dt x y, rel x y -> rel (f t dt x) (f' t dt y).

Lemma interp_rel t0 t1 x0 x1 y0 y1 t : rel x0 y0 -> rel x1 y1 ->
  rel (linear_interp addX mulX t0 t1 x0 x1 t) (linear_interp addY mulY t0 t1 y0 y1 t).
Proof. intros A B. unfold linear_interp. destruct (Qc_eq_bool t t0); [exact A|]. destruct (Qc_eq_bool t t1); auto 8. Qed.

Lemma emit_rel t0 t1 x0 x1 y0 y1 ts : rel x0 y0 -> rel x1 y1 ->
  Forall2 rel (fst (emit addX mulX t0 t1 x0 x1 ts)) (fst (emit addY mulY t0 t1 y0 y1 ts)) /\
  snd (emit addX mulX t0 t1 x0 x1 ts) = snd (emit addY mulY t0 t1 y0 y1 ts).
Proof.
  intros A B. induction ts as [|s r IH]; cbn [emit]; [split; constructor|].
  destruct (qle s t1); [|split; constructor].
  destruct (emit addX mulX t0 t1 x0 x1 r), (emit addY mulY t0 t1 y0 y1 r). cbn [fst snd] in *. destruct IH as [IH ->].
  split; [|reflexivity]. constructor; [apply interp_rel; assumption|exact IH].
Qed.

Lemma march_rel st st' : related_steps st st' -> forall g t0 x y ts, rel x y ->
  Forall2 rel (march addX mulX st t0 g x ts) (march addY mulY st' t0 g y ts).
Proof.
  intros S. induction g as [|t1 g IH]; intros t0 x y ts A; cbn [march]; [constructor|].
  assert (B : rel (addX x (st t0 (t1 - t0)%Qc x)) (addY y (st' t0 (t1 - t0)%Qc y))) by (apply add_rel; auto).
  destruct (emit_rel t0 t1 _ _ _ _ ts A B) as [F E].
  destruct (emit addX _ _ _ _ _ _), (emit addY _ _ _ _ _ _). cbn [fst snd] in *. subst.
  apply Forall2_app; [exact F|apply IH; exact B].
Qed.

Lemma fixed_grid_rel st st' h x y t xs : related_steps st st' -> rel x y ->
  fixed_grid addX mulX st h x t = Ok xs ->
  exists ys, fixed_grid addY mulY st' h y t = Ok ys /\ Forall2 rel xs ys.
Proof.
  intros S A H. unfold fixed_grid in *. destruct (negb (increasing t)); [discriminate|].
  destruct t as [|t0 ts]; [discriminate|]. apply bind_ok in H as (tl & E1 & H). rewrite E1. cbn [bind].
  apply bind_ok in H as (g & E2 & H). rewrite E2. cbn [bind].
  apply bind_ok in H as (gl & E3 & H). rewrite E3. cbn [bind].
  destruct g as [|g0 gs]; [discriminate|]. destruct (Qc_eq_bool g0 t0 && Qc_eq_bool gl tl); [|discriminate].
  injection H as <-. eexists. split; [reflexivity|]. constructor; [exact A|]. apply march_rel; assumption.
Qed.

Lemma method_rel f f' name st : related_fields f f' -> method addX mulX f name = Some st ->
  exists st', method addY mulY f' name = Some st' /\ related_steps st st'.
Proof.
  intros F H. unfold method in *.
  destruct (String.eqb name "euler"); [injection H as <-; eexists; split; [reflexivity|]|
  destruct (String.eqb name "midpoint"); [injection H as <-; eexists; split; [reflexivity|]|
  destruct (String.eqb name "rk4"); [injection H as <-; eexists; split; [reflexivity|]|discriminate]]];
  intros t dt x y A; unfold euler_step, midpoint_step, rk4_step; auto 10.
  assert (K1 := F t x y A).
  assert (K2 := F (t + dt * (1 / Q2Qc 3))%Qc _ _ (add_rel _ _ _ _ A (mul_rel (dt * (1 / Q2Qc 3))%Qc _ _ K1))).
  assert (K3 := F (t + dt * (Q2Qc 2 * (1 / Q2Qc 3)))%Qc _ _
    (add_rel _ _ _ _ A (mul_rel dt _ _ (add_rel _ _ _ _ (mul_rel (- (1 / Q2Qc 3))%Qc _ _ K1) K2)))).
  assert (K4 := F (t + dt)%Qc _ _
    (add_rel _ _ _ _ A (mul_rel dt _ _ (add_rel _ _ _ _ (add_rel _ _ _ _ K1 (mul_rel (Q2Qc (-1)) _ _ K2)) K3)))).
  apply mul_rel. repeat apply add_rel; auto.
Qed.

Lemma fixed_odeint_rel f f' otherX otherY adj name o x y t xs :
  related_fields f f' -> In name ["euler"; "midpoint"; "rk4"] -> rel x y ->
  fixed_odeint addX mulX f otherX adj name o x t = Ok xs ->
  exists ys, fixed_odeint addY mulY f' otherY adj name o y t = Ok ys /\ Forall2 rel xs ys.
Proof.
  intros F I A H. unfold fixed_odeint in *. set (turn := increasing (map Qcopp t)) in *.
  set (fx := if turn then (fun s y => mulX (Q2Qc (-1)) (f (- s)%Qc y)) else f) in *.
  set (fy := if turn then (fun s y => mulY (Q2Qc (-1)) (f' (- s)%Qc y)) else f').
  assert (FF : related_fields fx fy). { unfold fx, fy. destruct turn; [|exact F]. intros s a b R. apply mul_rel, F, R. }
  assert (M : exists st, method addX mulX fx name = Some st).
  { destruct I as [<-|[<-|[<-|[]]]]; eexists; reflexivity. }
  destruct M as (st & M). destruct (method_rel fx fy name st FF M) as (st' & M' & S). rewrite M in H. rewrite M'.
  eapply fixed_grid_rel; eassumption.
Qed.
End Related.

(** ** The system *)
Section System.
Variable g : nat -> nat.
Variable N N' : nat.
Hypothesis EV : evenly g N N'.

Lemma plus3_chosen x x' y y' z : chosen g N N' x x' -> chosen g N N' y y' -> plus3 x y = Ok z ->
  exists z', plus3 x' y' = Ok z' /\ chosen g N N' z z'.
Proof.
  intros (A & A' & B & C & V) (A1 & A1' & B1 & C1 & V1) H. unfold plus3 in *.
  rewrite A, A1, Nat.eqb_refl in H. rewrite A', A1', Nat.eqb_refl, B, B1, C, C1. cbn [andb] in *.
  destruct (_ && _); [|discriminate]. injection H as <-. eexists. split; [reflexivity|]. repeat split; cbn; auto.
  intros n i k K. rewrite V, V1 by exact K. reflexivity.
Qed.

Lemma plus_states_chosen s s' d d' r : all_chosen g N N' s s' -> all_chosen g N N' d d' -> plus_states s d = Ok r ->
  exists r', plus_states s' d' = Ok r' /\ all_chosen g N N' r r'.
Proof.
  intros A. revert d d' r. induction A as [|[k x] [k' x'] s s' [K R] A IH]; intros d d' r B H.
  - destruct B as [|[a y] [b y'] d d' [K2 R2] B]; [|discriminate]. injection H as <-. exists []. split; [reflexivity|constructor].
  - destruct B as [|[a y] [b y'] d d' [K2 R2] B]; [discriminate|]. cbn [plus_states fst snd] in *. subst k'.
    apply bind_ok in H as (z & Z & H). destruct (plus3_chosen _ _ _ _ _ R R2 Z) as (z' & Z' & RZ). rewrite Z'. cbn [bind].
    apply bind_ok in H as (t & T & H). destruct (IH _ _ _ B T) as (t' & T' & RT). rewrite T'. cbn [bind].
    injection H as <-. eexists. split; [reflexivity|]. constructor; [split; [reflexivity|exact RZ]|exact RT].
Qed.

Lemma times_states_chosen a s s' : all_chosen g N N' s s' -> all_chosen g N N' (times_states a s) (times_states a s').
Proof.
  induction 1 as [|[k x] [k' x'] s s' [K R] A IH]; cbn; [constructor|]. cbn in K. subst k'. constructor; [|exact IH].
  split; [reflexivity|]. apply chosen_map. exact R.
Qed.

Definition follows (y y' : result system) : Prop :=
  forall a, y = Ok a -> exists a', y' = Ok a' /\ chosen_system g N N' a a'.

Lemma plus_follows x x' y y' : follows x y -> follows x' y' -> follows (plus_system x x') (plus_system y y').
Proof.
  intros A B r H. unfold plus_system in *. apply bind_ok in H as (a & -> & H). apply bind_ok in H as (b & -> & H).
  destruct (A a eq_refl) as (a' & -> & RA). destruct (B b eq_refl) as (b' & -> & RB). cbn [bind].
  destruct a as [[s c] z], b as [[ds dc] dz], a' as [[s' c'] z'], b' as [[ds' dc'] dz'].
  destruct RA as (S1 & C1 & ->), RB as (S2 & C2 & ->).
  apply bind_ok in H as (u & U & H). apply bind_ok in H as (v & V & H). apply bind_ok in H as (w & K & H). injection H as <-.
  destruct (plus_states_chosen _ _ _ _ _ S1 S2 U) as (u' & -> & RU).
  destruct (plus_states_chosen _ _ _ _ _ C1 C2 V) as (v' & -> & RV). cbn [bind]. rewrite K. cbn [bind].
  eexists. split; [reflexivity|]. repeat split; assumption.
Qed.

Lemma times_follows q x y : follows x y -> follows (times_system q x) (times_system q y).
Proof.
  intros A r H. unfold times_system in *. apply bind_ok in H as (a & -> & H).
  destruct (A a eq_refl) as (a' & -> & RA). cbn [bind]. destruct a as [[s c] z], a' as [[s' c'] z'].
  destruct RA as (S1 & C1 & ->). injection H as <-. eexists. split; [reflexivity|].
  repeat split; apply times_states_chosen; assumption.
Qed.

Variable nl dnl : R -> R.
Variable init : string -> (nat -> nat -> R) * (nat -> R).
Variable d e : nat.
Variable W : option R.
Variable ow : R.
Notation family n := (vector_equations nl dnl init d e W ow n).

Lemma parameters_same m m' s s' c c' th : In (m, m') (combine (family N) (family N')) ->
  all_chosen g N N' s s' -> all_chosen g N N' c c' -> eq_parameters m s c = Ok th -> eq_parameters m' s' c' = Ok th.
Proof.
  intros I A B H. cbn [combine vector_equations] in I.
  repeat (destruct I as [I|I]; [injection I as <- <-; cbn [eq_parameters] in *|]); [..|contradiction].
  - eapply updown_parameters_chosen; eassumption.
  - eapply universal_parameters_chosen; eassumption.
  - eapply general_parameters_chosen; eassumption.
  - eapply debug_parameters_chosen; eassumption.
  - eapply simple_parameters_chosen; eassumption.
  - eapply updown_parameters_chosen; eassumption.
  - eapply symmetrized_parameters_chosen; eassumption.
  - eapply periodic_parameters_chosen; eassumption.
Qed.

Lemma rhs_same m m' : In (m, m') (combine (family N) (family N')) -> eq_rhs m' = eq_rhs m.
Proof.
  intros I. cbn [combine vector_equations] in I.
  repeat (destruct I as [I|I]; [injection I as <- <-; reflexivity|]). contradiction.
Qed.

Lemma rhs_follows m m' s s' th r : In (m, m') (combine (family N) (family N')) ->
  all_chosen g N N' s s' -> eq_rhs m s th = Ok r -> exists r', eq_rhs m' s' th = Ok r' /\ all_chosen g N N' r r'.
Proof.
  intros I A H. cbn [combine vector_equations] in I.
  repeat (destruct I as [I|I]; [injection I as <- <-; cbn [eq_rhs] in *|]); [..|contradiction].
  - eapply updown_rhs_chosen; eassumption.
  - eapply universal_rhs_chosen; eassumption.
  - eapply general_rhs_chosen; eassumption.
  - eapply debug_rhs_chosen; eassumption.
  - eapply simple_rhs_chosen; eassumption.
  - eapply dampened_q2_rhs_chosen; eassumption.
  - eapply symmetrized_rhs_chosen; eassumption.
  - eapply periodic_rhs_chosen; eassumption.
Qed.

Lemma costate_follows m m' s s' c c' th r : (forall n, n < N' -> g n < N) -> In (m, m') (combine (family N) (family N')) ->
  all_chosen g N N' s s' -> all_chosen g N N' c c' -> eq_costate m s c th = Ok r ->
  exists r', eq_costate m' s' c' th = Ok r' /\ all_chosen g N N' r r'.
Proof.
  intros RG I A B H. clear EV. cbn [combine vector_equations] in I.
  repeat (destruct I as [I|I]; [injection I as <- <-; cbn [eq_costate] in *|]); [..|contradiction].
  - eapply updown_costate_chosen; eassumption.
  - eapply universal_costate_chosen; eassumption.
  - eapply general_costate_chosen; eassumption.
  - eapply debug_costate_chosen; eassumption.
  - eapply simple_costate_chosen; eassumption.
  - eapply updown_costate_chosen; eassumption.
  - eapply symmetrized_costate_chosen; eassumption.
  - eapply periodic_costate_chosen; eassumption.
Qed.

Lemma system_follows m m' y y' r : In (m, m') (combine (family N) (family N')) ->
  chosen_system g N N' y y' -> system_rhs m y = Ok r -> exists r', system_rhs m' y' = Ok r' /\ chosen_system g N N' r r'.
Proof.
  destruct y as [[s c] z], y' as [[s' c'] z']. intros I (A & B & ->) H. unfold system_rhs in *.
  apply bind_ok in H as (th & T & H). rewrite (parameters_same _ _ _ _ _ _ _ I A B T). cbn [bind].
  apply bind_ok in H as (ds & D & H). destruct (rhs_follows _ _ _ _ _ _ I A D) as (ds' & -> & RD). cbn [bind].
  apply bind_ok in H as (dz & Z & H). rewrite (rhs_same _ _ I), Z. cbn [bind].
  apply bind_ok in H as (dc & C & H). destruct (costate_follows _ _ _ _ _ _ _ _ (proj1 EV) I A B C) as (dc' & -> & RC). cbn [bind].
  injection H as <-. eexists. split; [reflexivity|]. repeat split; assumption.
Qed.

Lemma run_follows m m' other adj name o y y' t ys : In (m, m') (combine (family N) (family N')) ->
  chosen_system g N N' y y' -> In name ["euler"; "midpoint"; "rk4"] ->
  fixed_odeint plus_system times_system (system_field m) other adj name o (Ok y) t = Ok ys ->
  exists ys', fixed_odeint plus_system times_system (system_field m') other adj name o (Ok y') t = Ok ys' /\ Forall2 follows ys ys'.
Proof.
  intros I A NM H. eapply fixed_odeint_rel with (rel := follows); [| | | | |exact H].
  - apply plus_follows.
  - apply times_follows.
  - intros s a b F r E. unfold system_field in *. apply bind_ok in E as (u & -> & E). destruct (F u eq_refl) as (u' & -> & RU).
    cbn [bind]. exact (system_follows _ _ _ _ _ I RU E).
  - exact NM.
  - intros a E. injection E as <-. eauto.
Qed.

Lemma run_same m m' other adj name o y y' t ys : In (m, m') (combine (family N) (family N')) ->
  chosen_system g N N' y y' -> In name ["euler"; "midpoint"; "rk4"] ->
  fixed_odeint plus_system times_system (system_field m) other adj name o (Ok y) t = Ok (map Ok ys) ->
  exists ys', fixed_odeint plus_system times_system (system_field m') other adj name o (Ok y') t = Ok (map Ok ys')
    /\ Forall2 (chosen_system g N N') ys ys'.
Proof.
  intros I A NM H. destruct (run_follows _ _ _ _ _ _ _ _ _ _ I A NM H) as (zs & Z & F).
  assert (G : exists ys', zs = map Ok ys' /\ Forall2 (chosen_system g N N') ys ys').
  { clear Z H. revert zs F. induction ys as [|a ys IH]; intros zs F; cbn in F.
    - inversion F; subst. exists []. split; [reflexivity|constructor].
    - destruct zs as [|z zs]; [inversion F|]. assert (F1 : follows (Ok a) z) by (inversion F; assumption).
      assert (F2 : Forall2 follows (map Ok ys) zs) by (inversion F; assumption).
      destruct (F1 a eq_refl) as (a' & -> & RA). destruct (IH zs F2) as (r & -> & RR).
      exists (a' :: r). split; [reflexivity|]. constructor; assumption. }
  destruct G as (ys' & -> & G). exists ys'. split; assumption.
Qed.
End System.

(** Proofs about the solvers with fixed steps. *)
From Coq Require Import List String Arith ZArith QArith Qcanon Qround Lia Lqa Bool Sorting.Sorted.
From Verif Require Import Base IntegratorModel IntegratorSpec IntervalProofs GridProofs IntegratorProofs FixedGridModel FixedGridSpec.
Import ListNotations.
Open Scope string_scope.
Open Scope list_scope.
Open Scope nat_scope.

(** ** Order *)
Ltac qc := unfold Qclt, Qcle in *;
  repeat match goal with
  | H : context [this (_ + _)%Qc] |- _ => rewrite this_plus in H
  | H : context [this (_ - _)%Qc] |- _ => rewrite this_minus in H
  | H : context [this (_ * _)%Qc] |- _ => rewrite this_mult in H
  | |- context [this (_ + _)%Qc] => rewrite this_plus
  | |- context [this (_ - _)%Qc] => rewrite this_minus
  | |- context [this (_ * _)%Qc] => rewrite this_mult
  end; change (this 0%Qc) with 0%Q in *; change (this 1%Qc) with 1%Q in *; try lra; try nra.

Lemma qle_spec a b : qle a b = true <-> (a <= b)%Qc.
Proof.
  unfold qle. rewrite Qcle_alt. destruct (a ?= b)%Qc; split; try discriminate; try congruence; intros; reflexivity.
Qed.
Lemma qle_false a b : qle a b = false <-> (b < a)%Qc.
Proof.
  rewrite <- not_true_iff_false, qle_spec. split; [apply Qcnot_le_lt|apply Qclt_not_le].
Qed.
Lemma qlt_spec a b : qlt a b = true <-> (a < b)%Qc.
Proof. unfold qlt. rewrite Qclt_alt. destruct (a ?= b)%Qc; split; congruence. Qed.

Lemma increasing_sorted t : increasing t = true <-> StronglySorted Qclt t.
Proof.
  split.
  - intros H. apply Sorted_StronglySorted; [intros x y z A B; qc|]. revert H.
    induction t as [|a [|b t] IH]; intros H; [constructor|repeat constructor|].
    cbn in H. apply andb_prop in H as (A & B). constructor; [apply IH, B|]. constructor. apply qlt_spec, A.
  - intros H. induction H as [|a t S IH F]; [reflexivity|]. destruct t as [|b t]; [reflexivity|].
    cbn [increasing]. inversion F as [|? ? L _]; subst. apply andb_true_intro. split; [apply qlt_spec, L|exact IH].
Qed.

Lemma times_0 h : times 0 h = 0%Qc.
Proof. unfold times. apply Qc_is_canon. rewrite this_mult. reflexivity. Qed.
Lemma times_S k h : times (S k) h = (h + times k h)%Qc.
Proof.
  unfold times. replace (Q2Qc (inject_Z (Z.of_nat (S k)))) with (1 + Q2Qc (inject_Z (Z.of_nat k)))%Qc; [ring|].
  apply Qc_is_canon. rewrite this_plus, !this_Q2Qc, Nat2Z.inj_succ. unfold Z.succ. rewrite inject_Z_plus.
  change (this 1%Qc) with 1%Q. change (inject_Z 1) with 1%Q. ring.
Qed.
Lemma times_add k m h : times (k + m) h = (times k h + times m h)%Qc.
Proof. induction k as [|k IH]; [rewrite times_0; cbn [Nat.add]; ring|]. cbn [Nat.add]. rewrite !times_S, IH. ring. Qed.
Lemma times_lt k m h : (0 < h)%Qc -> k < m -> (times k h < times m h)%Qc.
Proof.
  intros H L. unfold times. assert (A := qn_lt k m L). unfold qn in A. qc.
Qed.
Lemma times_le_inv k m h : (0 < h)%Qc -> (times k h <= times m h)%Qc -> k <= m.
Proof.
  intros H L. destruct (le_lt_dec k m) as [|G]; [assumption|]. exfalso. apply (times_lt m k h H) in G. qc.
Qed.
Lemma times_nonneg k h : (0 < h)%Qc -> (0 <= times k h)%Qc.
Proof.
  intros H. destruct k as [|k]; [rewrite times_0; qc|]. assert (A := times_lt 0 (S k) h H). rewrite times_0 in A.
  apply Qclt_le_weak, A. lia.
Qed.

(** ** The grid *)

(** [n] further points, the last of them [e]. *)
Fixpoint walk (h a e : Qc) (n : nat) : list Qc :=
  match n with
  | O => []
  | S O => [e]
  | S m => (a + h)%Qc :: walk h (a + h)%Qc e m
  end.

(** [n] steps are needed to get from [a] to [e]. *)
Definition count (h a e : Qc) (n : nat) : Prop :=
  (e <= a + times n h)%Qc /\ (a <= e)%Qc /\ forall m, m < n -> (a + times m h < e)%Qc.

Lemma count_0 h a : count h a a 0.
Proof. split; [rewrite times_0; qc|]. split; [qc|]. intros m L. lia. Qed.
Lemma count_0_inv h a e : count h a e 0 -> e = a.
Proof. intros (A & B & _). rewrite times_0 in A. apply Qcle_antisym; qc. Qed.

Lemma count_unique h a e n n' : count h a e n -> count h a e n' -> n = n'.
Proof.
  intros (A & _ & B) (A' & _ & B'). destruct (lt_eq_lt_dec n n') as [[L|E]|L]; [|exact E|]; exfalso.
  - assert (X := B' n L). qc.
  - assert (X := B n' L). qc.
Qed.

Lemma count_grid h a k : (0 < h)%Qc -> count h a (a + times k h)%Qc k.
Proof.
  intros H. split; [qc|]. split; [assert (A := times_nonneg k h H); qc|]. intros m L. assert (A := times_lt m k h H L). qc.
Qed.

Lemma count_split h a e n k : (0 < h)%Qc -> count h a e n -> (a + times k h <= e)%Qc ->
  exists m, n = k + m /\ count h (a + times k h)%Qc e m.
Proof.
  intros H (A & B & C) L. assert (K : k <= n).
  { apply (times_le_inv k n h H). qc. }
  exists (n - k). split; [lia|]. split.
  - replace n with (k + (n - k)) in A by lia. rewrite times_add in A. qc.
  - split; [exact L|]. intros m M. assert (X := C (k + m) ltac:(lia)). rewrite times_add in X. qc.
Qed.

Lemma walk_split h e m : forall k a, (m = 0 -> e = (a + times k h)%Qc) ->
  walk h a e (k + m) = walk h a (a + times k h)%Qc k ++ walk h (a + times k h)%Qc e m.
Proof.
  induction k as [|k IH]; intros a E.
  - rewrite times_0. cbn [Nat.add walk app]. f_equal. ring.
  - replace (a + times (S k) h)%Qc with ((a + h) + times k h)%Qc in * by (rewrite times_S; ring).
    destruct k as [|k].
    + rewrite times_0 in *. replace (a + h + 0)%Qc with (a + h)%Qc in * by ring. cbn [Nat.add]. destruct m as [|m].
      * cbn. rewrite E by reflexivity. reflexivity.
      * reflexivity.
    + change (S (S k) + m) with (S (S (k + m))). change (walk h a e (S (S (k + m)))) with ((a + h)%Qc :: walk h (a + h)%Qc e (S k + m)).
      rewrite (IH (a + h)%Qc E). reflexivity.
Qed.

Lemma walk_sorted h e : (0 < h)%Qc -> forall n a, count h a e n -> StronglySorted Qclt (a :: walk h a e n) /\
  (forall d, last (a :: walk h a e n) d = e).
Proof.
  intros H. induction n as [|n IH]; intros a C.
  - apply count_0_inv in C. subst e. split; [repeat constructor|reflexivity].
  - destruct n as [|n].
    + destruct C as (_ & _ & C). assert (X := C 0 ltac:(lia)). rewrite times_0 in X. cbn [walk]. split; [|reflexivity].
      constructor; [repeat constructor|]. constructor; [qc|constructor].
    + assert (C' : count h (a + h)%Qc e (S n)).
      { destruct C as (A & B & D). split; [rewrite times_S in A; qc|]. split.
        - assert (X := D 1 ltac:(lia)). rewrite times_S, times_0 in X. qc.
        - intros m M. assert (X := D (S m) ltac:(lia)). rewrite times_S in X. qc. }
      destruct (IH _ C') as (S & L). change (walk h a e (Datatypes.S (Datatypes.S n))) with ((a + h)%Qc :: walk h (a + h)%Qc e (Datatypes.S n)).
      split.
      * constructor; [exact S|]. constructor; [qc|]. inversion S as [|? ? _ F]; subst.
        apply (Forall_impl _ (P := Qclt (a + h)%Qc)); [|exact F]. intros x X. qc.
      * intros d. change (last (a :: (a + h)%Qc :: walk h (a + h)%Qc e (Datatypes.S n)) d) with (last ((a + h)%Qc :: walk h (a + h)%Qc e (Datatypes.S n)) d). apply L.
Qed.

Lemma ceiling_bounds q : (q <= inject_Z (Qceiling q))%Q /\ (inject_Z (Qceiling q - 1) < q)%Q.
Proof. split; [apply Qle_ceiling|apply Qceiling_lt]. Qed.

Lemma times_this k h : (this (times k h) == inject_Z (Z.of_nat k) * this h)%Q.
Proof. unfold times. rewrite this_mult, this_Q2Qc. reflexivity. Qed.

Lemma count_ceiling h a e : (0 < h)%Qc -> (a <= e)%Qc ->
  exists n, count h a e n /\ Qceiling ((e - a) / h + 1)%Qc = Z.of_nat (S n).
Proof.
  intros H L. destruct (ceiling_bounds ((e - a) / h + 1)%Qc) as (A & B).
  set (z := Qceiling ((e - a) / h + 1)%Qc) in *.
  assert (D : (this ((e - a) / h + 1)%Qc * this h == this e - this a + this h)%Q).
  { rewrite this_plus, this_div, this_minus. change (this 1%Qc) with 1%Q. unfold Qclt in H. change (this 0%Qc) with 0%Q in H. field. lra. }
  set (q := this ((e - a) / h + 1)%Qc) in *.
  assert (Q1 : (1 <= q)%Q).
  { unfold q. rewrite this_plus, this_div. change (this 1%Qc) with 1%Q. assert (X : (0 <= this (e - a)%Qc / this h)%Q).
    { apply Qle_shift_div_l; qc. } lra. }
  assert (Z1 : (1 <= z)%Z).
  { rewrite Zle_Qle. change (inject_Z 1) with 1%Q. lra. }
  exists (Z.to_nat (z - 1)). split; [|lia]. unfold Qcle, Qclt in *. change (this 0%Qc) with 0%Q in H.
  assert (E : forall m, (this (a + times m h)%Qc == this a + inject_Z (Z.of_nat m) * this h)%Q).
  { intros m. rewrite this_plus, times_this. reflexivity. }
  split; [|split].
  - unfold Qcle. rewrite E, Z2Nat.id by lia. unfold Z.sub. rewrite inject_Z_plus. change (inject_Z (- (1))) with (-1)%Q. nra.
  - exact L.
  - intros m M. unfold Qclt. rewrite E. assert (F : (inject_Z (Z.of_nat m) <= inject_Z (z - 1) - 1)%Q).
    { change 1%Q with (inject_Z 1). unfold Qminus. rewrite <- inject_Z_opp, <- inject_Z_plus. rewrite <- Zle_Qle. lia. }
    nra.
Qed.

Lemma walk_points h a e : (0 < h)%Qc -> forall n, count h a e (S n) ->
  a :: walk h a e (S n) = map (fun i => (times i h + a)%Qc) (seq 0 (S n)) ++ [e].
Proof.
  intros H. assert (G : forall n b j, b = (times j h + a)%Qc -> b :: walk h b e (S n) = map (fun i => (times i h + a)%Qc) (seq j (S n)) ++ [e]).
  { induction n as [|n IH]; intros b j E.
    - cbn. rewrite E. reflexivity.
    - change (walk h b e (S (S n))) with ((b + h)%Qc :: walk h (b + h)%Qc e (S n)).
      rewrite (IH (b + h)%Qc (S j)); [cbn [seq map app]; rewrite E; reflexivity|]. rewrite E, times_S. ring. }
  intros n _. apply G. rewrite times_0. ring.
Qed.

Lemma last_item_app {A} (l : list A) x : last_item (l ++ [x]) = Ok x.
Proof. unfold last_item. rewrite rev_app_distr. reflexivity. Qed.

Lemma step_grid_walk h a e : (0 < h)%Qc -> (a <= e)%Qc -> exists n, count h a e n /\ step_grid h a e = Ok (a :: walk h a e n).
Proof.
  intros H L. destruct (count_ceiling h a e H L) as (n & C & E). exists n. split; [exact C|].
  unfold step_grid. assert (Qc_eq_bool h 0 = false) as ->.
  { apply qc_eq_bool_false. intros ->. qc. }
  rewrite E. assert ((Z.of_nat (S n) <? 0)%Z = false) as -> by (apply Z.ltb_ge; lia). rewrite Nat2Z.id.
  change (fun i : nat => (Q2Qc (inject_Z (Z.of_nat i)) * h + a)%Qc) with (fun i => (times i h + a)%Qc).
  rewrite map_seq_snoc. cbn [Nat.add]. rewrite last_item_app. cbn [bind]. destruct (qlt e (times n h + a)%Qc) eqn:Q.
  - destruct n as [|n]; [exfalso; apply count_0_inv in C; subst; apply qlt_spec in Q; rewrite times_0 in Q; qc|].
    rewrite (walk_points h a e H n C). unfold set_last. destruct (map _ (seq 0 (S n)) ++ [_]) eqn:M.
    + destruct (map (fun i : nat => (times i h + a)%Qc) (seq 0 (S n))); discriminate M.
    + rewrite <- M, removelast_last. reflexivity.
  - assert (e = (times n h + a)%Qc) as X.
    { destruct C as (C & _). apply Qcle_antisym; [qc|]. destruct (Qclt_le_dec e (times n h + a)%Qc) as [G|G]; [|exact G].
      apply qlt_spec in G. congruence. }
    destruct n as [|n].
    + cbn. rewrite times_0. f_equal. f_equal. ring.
    + rewrite (walk_points h a e H n C), <- X. reflexivity.
Qed.

Lemma last_default (x : Qc) l d d' : last (x :: l) d = last (x :: l) d'.
Proof. revert x. induction l as [|y l IH]; intros x; [reflexivity|]. apply (IH y). Qed.

(** ** The loops *)
Section Solver.
Context {X : Type}.
Variable add : X -> X -> X.
Variable mul : Qc -> X -> X.
Variable step : Qc -> Qc -> X -> X.
Let interp := linear_interp add mul.
Let advance (t dt : Qc) (y : X) : X := add y (step t dt y).

(** The value at one time. *)
Fixpoint out (a : Qc) (g : list Qc) (y : X) (s : Qc) : X :=
  match g with
  | [] => y
  | t1 :: g => if qle s t1 then interp a t1 y (advance a (t1 - a)%Qc y) s else out t1 g (advance a (t1 - a)%Qc y) s
  end.

(** The last vector. *)
Fixpoint final (a : Qc) (g : list Qc) (y : X) : X :=
  match g with
  | [] => y
  | t1 :: g => final t1 g (advance a (t1 - a)%Qc y)
  end.

Lemma emit_parts t0 t1 y0 y1 ts : StronglySorted Qclt ts -> exists l r, ts = l ++ r /\ Forall (fun s => (s <= t1)%Qc) l /\
  Forall (fun s => (t1 < s)%Qc) r /\ emit add mul t0 t1 y0 y1 ts = (map (interp t0 t1 y0 y1) l, r).
Proof.
  intros S. induction S as [|s ts S IH F]; [exists [], []; repeat split; constructor|].
  destruct IH as (l & r & -> & A & B & E). cbn [emit]. destruct (qle s t1) eqn:Q.
  - rewrite E. exists (s :: l), r. split; [reflexivity|]. split; [constructor; [apply qle_spec, Q|exact A]|]. split; [exact B|reflexivity].
  - apply qle_false in Q. exists [], (s :: l ++ r). split; [reflexivity|]. split; [constructor|]. split; [|reflexivity].
    constructor; [exact Q|]. apply (Forall_impl _ (P := Qclt s)); [|exact F]. intros x L. qc.
Qed.

Lemma march_out g : forall a y ts, StronglySorted Qclt ts -> Forall (fun s => (s <= last (a :: g) a)%Qc) ts -> Forall (Qclt a) ts ->
  march add mul step a g y ts = map (out a g y) ts.
Proof.
  induction g as [|t1 g IH]; intros a y ts S L A.
  - cbn in L. destruct ts as [|s ts]; [reflexivity|]. exfalso. inversion L as [|? ? X1 _]; inversion A as [|? ? Y1 _]; subst. qc.
  - cbn [march]. fold (advance a (t1 - a)%Qc y). destruct (emit_parts a t1 y (advance a (t1 - a)%Qc y) ts S) as (l & r & -> & P & Q & E).
    rewrite E. rewrite map_app. f_equal.
    + apply map_ext_in. intros s I. cbn [out]. rewrite (proj2 (qle_spec s t1)); [reflexivity|]. apply (proj1 (Forall_forall _ _) P _ I).
    + rewrite IH.
      * apply map_ext_in. intros s I. cbn [out]. rewrite (proj2 (qle_false s t1)); [reflexivity|]. apply (proj1 (Forall_forall _ _) Q _ I).
      * clear - S. induction l as [|x l IH]; [exact S|]. apply IH. inversion S; assumption.
      * apply Forall_app in L as (_ & L). apply (Forall_impl _ (P := fun s => (s <= last (a :: t1 :: g) a)%Qc)); [|exact L].
        intros s I. rewrite (last_default t1 g t1 a). exact I.
      * exact Q.
Qed.

Lemma interp_start t0 t1 y0 y1 : interp t0 t1 y0 y1 t0 = y0.
Proof. unfold interp, linear_interp. rewrite (proj2 (qc_eq_bool_true t0 t0) eq_refl). reflexivity. Qed.
Lemma interp_end t0 t1 y0 y1 : t0 <> t1 -> interp t0 t1 y0 y1 t1 = y1.
Proof.
  intros N. unfold interp, linear_interp. rewrite (proj2 (qc_eq_bool_false t1 t0)) by congruence.
  rewrite (proj2 (qc_eq_bool_true t1 t1) eq_refl). reflexivity.
Qed.

Lemma out_start a g y : StronglySorted Qclt (a :: g) -> out a g y a = y.
Proof.
  intros S. destruct g as [|t1 g]; [reflexivity|]. cbn [out]. inversion S as [|? ? _ F]; subst. inversion F as [|? ? L _]; subst.
  rewrite (proj2 (qle_spec a t1)) by (apply Qclt_le_weak, L). apply interp_start.
Qed.

Lemma sorted_app_l (l r : list Qc) : StronglySorted Qclt (l ++ r) -> StronglySorted Qclt l.
Proof.
  induction l as [|x l IH]; intros S; [constructor|]. inversion S as [|? ? A B]; subst. constructor; [apply IH, A|].
  apply Forall_app in B. apply B.
Qed.

Lemma sorted_last a g : StronglySorted Qclt (a :: g) -> forall d, (a <= last (a :: g) d)%Qc.
Proof.
  revert a. induction g as [|b g IH]; intros a S d; [cbn; qc|]. change (last (a :: b :: g) d) with (last (b :: g) d).
  inversion S as [|? ? S' F]; subst. inversion F as [|? ? L _]; subst. assert (X1 := IH b S' d). qc.
Qed.

Lemma sorted_below a ts : StronglySorted Qclt (a :: ts) -> forall s d, In s ts -> (s <= last (a :: ts) d)%Qc.
Proof.
  revert a. induction ts as [|t ts IH]; intros a S s d I; [destruct I|]. change (last (a :: t :: ts) d) with (last (t :: ts) d).
  inversion S as [|? ? S' F]; subst. destruct I as [<-|I]; [apply sorted_last, S'|apply IH; assumption].
Qed.

(** The end of the first part decides. *)
Lemma out_before g1 : forall a g2 y s, g1 <> [] -> (s <= last g1 a)%Qc -> out a (g1 ++ g2) y s = out a g1 y s.
Proof.
  induction g1 as [|t1 g1 IH]; intros a g2 y s N L; [congruence|]. cbn [app out]. destruct (qle s t1) eqn:Q; [reflexivity|].
  destruct g1 as [|t2 g1].
  - exfalso. cbn in L. apply qle_false in Q. qc.
  - apply IH; [discriminate|]. change (last (t1 :: t2 :: g1) a) with (last (t2 :: g1) a) in L.
    rewrite (last_default t2 g1 t1 a). exact L.
Qed.

Lemma out_after g1 : forall a g2 y s, StronglySorted Qclt (a :: g1 ++ g2) -> (last (a :: g1) a <= s)%Qc ->
  out a (g1 ++ g2) y s = out (last (a :: g1) a) g2 (final a g1 y) s.
Proof.
  induction g1 as [|t1 g1 IH]; intros a g2 y s S L; [reflexivity|]. cbn [app out final].
  inversion S as [|? ? S' F]; subst. inversion F as [|? ? A _]; subst.
  assert (LL : last (a :: t1 :: g1) a = last (t1 :: g1) t1).
  { apply (last_default t1 g1 a t1). }
  rewrite LL in *. destruct (qle s t1) eqn:Q; [|apply IH; assumption].
  apply qle_spec in Q. assert (X1 := sorted_last t1 g1 (sorted_app_l (t1 :: g1) g2 S') t1).
  assert (s = t1) as -> by (apply Qcle_antisym; [exact Q|qc]).
  assert (E : last (t1 :: g1) t1 = t1) by (apply Qcle_antisym; assumption).
  destruct g1 as [|u g1].
  - cbn [app final last]. rewrite (out_start t1 g2) by exact S'. rewrite interp_end; [reflexivity|]. intros ->. qc.
  - exfalso. change (last (t1 :: u :: g1) t1) with (last (u :: g1) t1) in E. inversion S' as [|? ? S2 F2]; subst. inversion F2 as [|? ? A2 _]; subst.
    assert (X2 := sorted_last u g1 (sorted_app_l (u :: g1) g2 S2) t1). rewrite E in X2. qc.
Qed.

(** Whole steps. *)
Lemma final_whole h k : (0 < h)%Qc -> forall a x, final a (walk h a (a + times k h)%Qc k) x = whole_steps advance h a k x.
Proof.
  intros H. induction k as [|k IH]; intros a x; [reflexivity|]. cbn [whole_steps].
  replace (a + times (S k) h)%Qc with ((a + h) + times k h)%Qc by (rewrite times_S; ring). destruct k as [|k].
  - cbn [walk final]. rewrite times_0. replace (a + h + 0 - a)%Qc with h by ring. reflexivity.
  - change (walk h a (a + h + times (S k) h)%Qc (S (S k))) with ((a + h)%Qc :: walk h (a + h)%Qc (a + h + times (S k) h)%Qc (S k)).
    cbn [final]. rewrite IH. replace (a + h - a)%Qc with h by ring. reflexivity.
Qed.

(** ** The solver as a function of the time *)
Lemma solver_values h a ts e x : (0 < h)%Qc -> StronglySorted Qclt (a :: ts) -> last (a :: ts) a = e ->
  exists n, count h a e n /\ fixed_grid add mul step (Some h) x (a :: ts) = Ok (map (out a (walk h a e n) x) (a :: ts)).
Proof.
  intros H S E. assert (AE : (a <= e)%Qc) by (rewrite <- E; apply (sorted_last a ts S)).
  destruct (step_grid_walk h a e H AE) as (n & C & G). exists n. split; [exact C|].
  destruct (walk_sorted h e H n a C) as (SW & LW).
  unfold fixed_grid. rewrite (proj2 (increasing_sorted _) S). cbn [negb].
  assert (LI : forall l (d : Qc), l <> [] -> last_item l = Ok (last l d)).
  { intros l d N. rewrite (app_removelast_last d N) at 1. apply last_item_app. }
  rewrite (LI (a :: ts) a) by discriminate. rewrite E. cbn [bind]. rewrite G. cbn [bind].
  rewrite (LI (a :: walk h a e n) a) by discriminate. rewrite LW. cbn [bind].
  rewrite !(proj2 (qc_eq_bool_true _ _) eq_refl). cbn [andb map]. f_equal. f_equal.
  - symmetry. apply out_start, SW.
  - inversion S as [|? ? S' F]; subst. apply march_out; [exact S'| |exact F].
    rewrite LW. apply Forall_forall. intros s I. apply (sorted_below a ts S s a I).
Qed.

(** On a grid point the end of the grid does not matter. *)
Lemma out_on_grid h a e n k x : (0 < h)%Qc -> count h a e n -> (a + times k h <= e)%Qc ->
  out a (walk h a e n) x (a + times k h)%Qc = whole_steps advance h a k x.
Proof.
  intros H C L. destruct (count_split h a e n k H C L) as (m & -> & C').
  destruct (walk_sorted h e H _ a C) as (S & _). assert (CK := count_grid h a k H).
  destruct (walk_sorted h _ H _ a CK) as (SK & LK).
  rewrite walk_split in S |- * by (intros ->; apply (count_0_inv _ _ _ C')).
  rewrite out_after; [|exact S|rewrite LK; qc]. rewrite LK, final_whole by exact H. apply out_start.
  destruct (walk_sorted h e H _ _ C') as (S' & _). exact S'.
Qed.

(** From a grid point on. *)
Lemma out_from_grid h a e n k x s : (0 < h)%Qc -> count h a e n -> (a + times k h <= e)%Qc -> (a + times k h <= s)%Qc ->
  exists m, count h (a + times k h)%Qc e m /\
  out a (walk h a e n) x s = out (a + times k h)%Qc (walk h (a + times k h)%Qc e m) (whole_steps advance h a k x) s.
Proof.
  intros H C L G. destruct (count_split h a e n k H C L) as (m & -> & C'). exists m. split; [exact C'|].
  destruct (walk_sorted h e H _ a C) as (S & _). assert (CK := count_grid h a k H).
  destruct (walk_sorted h _ H _ a CK) as (SK & LK).
  rewrite walk_split in S |- * by (intros ->; apply (count_0_inv _ _ _ C')).
  rewrite out_after; [|exact S|rewrite LK; exact G]. rewrite LK, final_whole by exact H. reflexivity.
Qed.

(** Up to a grid point. *)
Lemma out_to_grid h a e n k x s : (0 < h)%Qc -> count h a e n -> (a + times k h <= e)%Qc -> (a <= s)%Qc -> (s <= a + times k h)%Qc ->
  out a (walk h a e n) x s = out a (walk h a (a + times k h)%Qc k) x s.
Proof.
  intros H C L A G. destruct (count_split h a e n k H C L) as (m & -> & C').
  destruct (walk_sorted h e H _ a C) as (SS & _). assert (CK := count_grid h a k H).
  destruct (walk_sorted h _ H _ a CK) as (SK & LK).
  rewrite walk_split in SS |- * by (intros ->; apply (count_0_inv _ _ _ C')). destruct k as [|k].
  - cbn [walk app out]. rewrite times_0 in G. assert (s = a) as -> by (apply Qcle_antisym; qc).
    rewrite times_0. replace (a + 0)%Qc with a by ring. apply out_start. rewrite times_0 in SS. cbn [walk app] in SS.
    replace (a + 0)%Qc with a in SS by ring. exact SS.
  - apply out_before; [destruct k; discriminate|]. destruct (walk h a (a + times (S k) h)%Qc (S k)) as [|w l] eqn:W; [destruct k; discriminate W|].
    assert (X1 := LK a). change (last (a :: w :: l) a) with (last (w :: l) a) in X1. rewrite X1. exact G.
Qed.
End Solver.

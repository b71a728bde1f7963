(** Proofs about time-dependent parameter lookup. *)
From Coq Require Import List String Arith ZArith QArith Qcanon Lia Bool Sorting.Sorted.
From Verif Require Import Base IntegratorModel IntegratorSpec IntervalProofs GridProofs
  IntegratorProofs ParamFuncModel ParamFuncSpec.
Import ListNotations.
Open Scope nat_scope.

Lemma qlt_true a b : qlt a b = true <-> (a < b)%Qc.
Proof. unfold qlt. rewrite Qclt_alt. destruct (a ?= b)%Qc; split; congruence. Qed.

Lemma qlt_false a b : qlt a b = false <-> (b <= a)%Qc.
Proof.
  rewrite <- not_true_iff_false, qlt_true. split.
  - apply Qcnot_lt_le.
  - intros H1 H2. exact (Qcle_not_lt _ _ H1 H2).
Qed.

Lemma qeq_true a b : qeq a b = true <-> a = b.
Proof. unfold qeq. rewrite Qceq_alt. destruct (a ?= b)%Qc; split; congruence. Qed.

Lemma py_item_nat {A} (l : list A) i : py_item l (Z.of_nat i) = list_item l i.
Proof.
  unfold py_item. destruct (Z.leb_spec 0 (Z.of_nat i)); [|lia].
  destruct (Z.ltb_spec (Z.of_nat i) (Z.of_nat (List.length l))); simpl.
  - rewrite Nat2Z.id. reflexivity.
  - destruct (Z.ltb_spec (Z.of_nat i) 0); [lia|]. simpl.
    unfold list_item. rewrite (proj2 (nth_error_None l i)); auto. lia.
Qed.

Lemma py_item_0 {A} (l : list A) : py_item l 0 = list_item l 0.
Proof. exact (py_item_nat l 0). Qed.

Lemma py_item_last {A} (l : list A) d : l <> [] -> py_item l (-1) = Ok (last l d).
Proof.
  intro H. unfold py_item. change (Z.leb 0 (-1)) with false. change (Z.ltb (-1) 0) with true.
  cbn [andb].
  destruct (Z.leb_spec (- Z.of_nat (List.length l)) (-1)).
  - replace (Z.to_nat (-1 + Z.of_nat (List.length l))) with (List.length l - 1) by lia.
    unfold list_item. destruct (snoc_inv l H) as [m [x ->]].
    rewrite app_length. cbn [List.length]. rewrite nth_error_app2 by lia.
    replace (List.length m + 1 - 1 - List.length m) with 0 by lia. simpl. rewrite last_last. reflexivity.
  - destruct l; [congruence|]. simpl List.length in *. lia.
Qed.

Lemma list_item_nth {A} (l : list A) i d : i < List.length l -> list_item l i = Ok (nth i l d).
Proof. intro H. unfold list_item. rewrite (nth_error_nth' _ d H). reflexivity. Qed.

Lemma last_nth {A} (l : list A) d : last l d = nth (List.length l - 1) l d.
Proof.
  destruct l as [|x l]; auto. destruct (snoc_inv (x :: l)) as [m [y E]]; [discriminate|].
  rewrite E, last_last, app_length. simpl.
  rewrite app_nth2 by lia. replace (_ - _ - _) with 0 by lia. reflexivity.
Qed.

Lemma sorted_nth l i j d : StronglySorted Qclt l -> i < j -> j < List.length l ->
  (nth i l d < nth j l d)%Qc.
Proof.
  intro S. revert i j. induction S as [|a l S IH F]; intros i j H1 H2; simpl in *; [lia|].
  destruct j as [|j]; [lia|]. destruct i as [|i].
  - rewrite Forall_forall in F. apply F. apply nth_In. lia.
  - apply IH; lia.
Qed.

Lemma sorted_nth_le l i j d : StronglySorted Qclt l -> i <= j -> j < List.length l ->
  (nth i l d <= nth j l d)%Qc.
Proof.
  intros S H1 H2. destruct (Nat.eq_dec i j) as [->|]; [apply Qcle_refl|].
  apply Qclt_le_weak. apply sorted_nth; auto. lia.
Qed.

Section PF.
Context {P : Type}.
Notation pf := (@param_func P).

Lemma search_left_ok times t : StronglySorted Qclt times -> (at_ times 0 <= t)%Qc ->
  forall i fuel, i < List.length times -> i <= fuel ->
  exists j, search_left fuel times t (Z.of_nat i) (at_ times i) = Ok (Z.of_nat j, at_ times j) /\
    j <= i /\ (at_ times j <= t)%Qc /\ (forall k, j < k -> k <= i -> (t < at_ times k)%Qc).
Proof.
  intros S H0. induction i as [|i IH]; intros fuel Hi Hf.
  - exists 0. destruct fuel; simpl search_left; rewrite (proj2 (qlt_false _ _) H0);
      repeat split; auto; intros; lia.
  - destruct (qlt t (at_ times (Datatypes.S i))) eqn:E.
    + destruct fuel as [|fuel]; [lia|]. cbn [search_left]. rewrite E.
      replace (Z.of_nat (Datatypes.S i) - 1)%Z with (Z.of_nat i) by lia.
      rewrite py_item_nat. rewrite (list_item_nth times i 0%Qc) by lia. cbn [bind].
      destruct (IH fuel) as [j [Ej [L1 [L2 L3]]]]; [lia|lia|]. fold (at_ times i).
      rewrite Ej. exists j. split; auto. split; [lia|]. split; auto.
      intros k Hk1 Hk2. destruct (Nat.eq_dec k (Datatypes.S i)) as [->|].
      * apply qlt_true; auto.
      * apply L3; lia.
    + exists (Datatypes.S i). destruct fuel; cbn [search_left]; rewrite E; repeat split; auto;
        try (apply qlt_false; auto); intros; lia.
Qed.

Lemma search_right_ok times t : StronglySorted Qclt times ->
  (t < at_ times (List.length times - 1))%Qc ->
  forall d i fuel, i + d = List.length times - 1 -> i < List.length times -> d <= fuel ->
  exists j, search_right fuel times t (Z.of_nat i) (at_ times i) = Ok (Z.of_nat j, at_ times j) /\
    i <= j /\ j < List.length times /\ (t <= at_ times j)%Qc /\
    (forall k, i <= k -> k < j -> (at_ times k < t)%Qc).
Proof.
  intros S H0. induction d as [|d IH]; intros i fuel Ed Hi Hf.
  - assert (i = List.length times - 1) by lia. subst i.
    exists (List.length times - 1).
    destruct fuel; cbn [search_right];
      rewrite (proj2 (qlt_false _ _) (Qclt_le_weak _ _ H0)); repeat split; auto;
      try (apply Qclt_le_weak; auto); intros; lia.
  - destruct (qlt (at_ times i) t) eqn:E.
    + destruct fuel as [|fuel]; [lia|]. cbn [search_right]. rewrite E.
      replace (Z.of_nat i + 1)%Z with (Z.of_nat (Datatypes.S i)) by lia.
      rewrite py_item_nat. rewrite (list_item_nth times (Datatypes.S i) 0%Qc) by lia. cbn [bind].
      destruct (IH (Datatypes.S i) fuel) as [j [Ej [L1 [L2 [L3 L4]]]]]; [lia|lia|lia|].
      fold (at_ times (Datatypes.S i)). rewrite Ej. exists j. repeat split; auto; try lia.
      intros k Hk1 Hk2. destruct (Nat.eq_dec k i) as [->|].
      * apply qlt_true; auto.
      * apply L4; lia.
    + exists i. destruct fuel; cbn [search_right]; rewrite E; repeat split; auto;
        try (apply qlt_false; auto); intros; lia.
Qed.

(** Exactly which parameters a query returns. *)
Definition answers (s : pf) (t : Qc) (j : nat) : Prop :=
  if (List.length (pf_times s) =? 1) then j = 0
  else if qlt t (pf_min_t s) then j = 0
  else if qlt (pf_max_t s) t then j = List.length (pf_times s) - 1
  else if qlt (pf_last_time s) t && qlt t (at_ (pf_times s) (List.length (pf_times s) - 1)) then
    (* forward search: the first grid time at or after t *)
    j < List.length (pf_times s) /\ (t <= at_ (pf_times s) j)%Qc /\
    (forall k, k < j -> (at_ (pf_times s) k < t)%Qc)
  else is_floor (pf_times s) t j.

Lemma query_ok (s : pf) t (d : P) : coherent s ->
  exists s' j, get_parameters_at_time s t = Ok (nth j (pf_params s) d, s') /\
    j < List.length (pf_params s) /\ answers s t j /\ coherent s' /\
    pf_times s' = pf_times s /\ pf_params s' = pf_params s /\
    pf_min_t s' = pf_min_t s /\ pf_max_t s' = pf_max_t s.
Proof.
  intros [S [Ne [L [H0 [i [Hi [Ei El]]]]]]].
  assert (Lpos : 0 < List.length (pf_times s)) by (destruct (pf_times s); [congruence|simpl; lia]).
  assert (Pne : pf_params s <> []) by (intro E; rewrite E in L; simpl in L; lia).
  unfold get_parameters_at_time.
  destruct (Z.eqb_spec (Z.of_nat (List.length (pf_params s))) 1) as [E1|E1].
  { exists s, 0. rewrite (py_item_0 (pf_params s)), (list_item_nth _ 0 d) by lia. cbn [bind].
    split; auto. split; [lia|]. split.
    - unfold answers. destruct (Nat.eqb_spec (List.length (pf_times s)) 1); auto. lia.
    - repeat split; auto. exists i; auto. }
  assert (A1 : (List.length (pf_times s) =? 1) = false) by (apply Nat.eqb_neq; lia).
  assert (Coh : forall k, k < List.length (pf_times s) ->
    coherent (set_last_used s (Z.of_nat k) (at_ (pf_times s) k))).
  { intros k Hk. split; [exact S|]. split; [exact Ne|]. split; [exact L|]. split; [exact H0|].
    exists k. repeat split; auto. }
  destruct (qlt t (pf_min_t s)) eqn:Emin.
  { eexists. exists 0.
    rewrite (py_item_0 (pf_times s)), (list_item_nth (pf_times s) 0 0%Qc) by lia. cbn [bind].
    rewrite (py_item_0 (pf_params s)), (list_item_nth _ 0 d) by lia. cbn [bind].
    split; [reflexivity|]. split; [lia|]. split; [|split; [apply (Coh 0); lia|repeat split]].
    unfold answers. rewrite A1, Emin. auto. }
  destruct (qlt (pf_max_t s) t) eqn:Emax.
  { eexists. exists (List.length (pf_times s) - 1).
    rewrite (py_item_last (pf_times s) 0%Qc), (py_item_last (pf_params s) d) by auto. cbn [bind].
    rewrite (last_nth (pf_params s)), L. split; [reflexivity|]. split; [lia|].
    split; [unfold answers; rewrite A1, Emin, Emax; auto|].
    split; [|repeat split].
    rewrite last_nth. replace (Z.of_nat (List.length (pf_times s)) - 1)%Z
      with (Z.of_nat (List.length (pf_times s) - 1)) by lia.
    apply Coh. lia. }
  apply qlt_false in Emin as Hmin.
  destruct (qlt t (pf_last_time s)) eqn:Elt.
  { destruct (search_left_ok (pf_times s) t S) with (i := i)
      (fuel := List.length (pf_times s) + List.length (pf_times s) + 1) as [j [Ej [J1 [J2 J3]]]];
      [rewrite H0; auto|auto|lia|].
    rewrite Ei, El, Ej. cbn [bind]. rewrite py_item_nat, (list_item_nth _ j d) by lia. cbn [bind].
    eexists. exists j. split; [reflexivity|]. split; [lia|].
    split; [|split; [apply Coh; lia|repeat split]].
    unfold answers. rewrite A1, Emin, Emax.
    assert (qlt (pf_last_time s) t = false) as ->.
    { apply qlt_false. apply Qclt_le_weak. apply qlt_true; auto. }
    simpl. split; [lia|]. split; auto. intros k K1 K2.
    destruct (Nat.le_gt_cases k i); [apply J3; auto|].
    eapply Qclt_trans; [apply qlt_true; exact Elt|]. rewrite El. apply sorted_nth; auto. }
  apply qlt_false in Elt as Hlast.
  rewrite (py_item_last (pf_times s) 0%Qc) by auto. cbn [bind].
  assert (Etl : last (pf_times s) 0%Qc = at_ (pf_times s) (List.length (pf_times s) - 1))
    by apply last_nth.
  rewrite Etl. destruct (qlt t (at_ (pf_times s) (List.length (pf_times s) - 1))) eqn:Etl2; cbn [negb].
  2:{ eexists. exists (List.length (pf_times s) - 1).
    rewrite (py_item_last (pf_params s) d) by auto. cbn [bind].
    rewrite (last_nth (pf_params s)), L. split; [reflexivity|]. split; [lia|]. split.
    - unfold answers. rewrite A1, Emin, Emax, Etl2, andb_false_r.
      split; [lia|]. split; [apply qlt_false; auto|]. intros; lia.
    - split; [|repeat split].
      replace (Z.of_nat (List.length (pf_times s)) - 1)%Z
        with (Z.of_nat (List.length (pf_times s) - 1)) by lia.
      apply Coh. lia. }
  destruct (qeq t (pf_last_time s)) eqn:Eeq.
  { apply qeq_true in Eeq. rewrite Ei, py_item_nat, (list_item_nth _ i d) by lia. cbn [bind].
    exists s, i. split; auto. split; [lia|]. split.
    - unfold answers. rewrite A1, Emin, Emax.
      assert (qlt (pf_last_time s) t = false) as ->.
      { apply qlt_false. rewrite Eeq. apply Qcle_refl. }
      simpl. split; auto. split; [rewrite <- El, Eeq; apply Qcle_refl|].
      intros k K1 K2. rewrite Eeq, El. apply sorted_nth; auto.
    - repeat split; auto. exists i; auto. }
  assert (Hgt : qlt (pf_last_time s) t = true).
  { apply qlt_true. destruct (Qcle_lt_or_eq _ _ Hlast); auto.
    exfalso. assert (qeq t (pf_last_time s) = true) by (apply qeq_true; auto). congruence. }
  rewrite Hgt.
  destruct (search_right_ok (pf_times s) t S) with (d := List.length (pf_times s) - 1 - i) (i := i)
    (fuel := List.length (pf_times s) + List.length (pf_times s) + 1)
    as [j [Ej [J1 [J2 [J3 J4]]]]]; [apply qlt_true; auto|lia|auto|lia|].
  rewrite Ei, El, Ej. cbn [bind]. rewrite py_item_nat, (list_item_nth _ j d) by lia. cbn [bind].
  eexists. exists j. split; [reflexivity|]. split; [lia|].
  split; [|split; [apply Coh; lia|repeat split]].
  unfold answers. rewrite A1, Emin, Emax, Hgt, Etl2. simpl. split; auto. split; auto.
  intros k Hk. destruct (Nat.le_gt_cases i k); [apply J4; auto|].
  apply Qclt_trans with (at_ (pf_times s) i).
  - apply sorted_nth; auto.
  - rewrite <- El. apply qlt_true; auto.
Qed.

(** Any history of queries. *)
Lemma queries_ok (d : P) ts : forall s : pf, coherent s ->
  exists ps s', queries s ts = Ok (ps, s') /\ List.length ps = List.length ts /\
    (forall p, In p ps -> In p (pf_params s)) /\ coherent s' /\
    pf_times s' = pf_times s /\ pf_params s' = pf_params s /\
    pf_min_t s' = pf_min_t s /\ pf_max_t s' = pf_max_t s.
Proof.
  induction ts as [|t ts IH]; intros s C.
  - exists [], s. repeat split; auto; try (intros p []); destruct C as [? [? [? [? ?]]]]; auto.
  - destruct (query_ok s t d C) as [s1 [j [E [Hj [_ [C1 [T1 [P1 [M1 M2]]]]]]]]].
    destruct (IH s1 C1) as [ps [s2 [E2 [L2 [I2 [C2 [T2 [P2 [M3 M4]]]]]]]]].
    exists (nth j (pf_params s) d :: ps), s2. cbn [queries]. rewrite E. cbn [bind]. rewrite E2. cbn [bind].
    split; auto. split; [simpl; lia|]. split; [|split; [auto|repeat split; congruence]].
    intros p [<-|Hp]; [apply nth_In; auto|]. rewrite <- P1. auto.
Qed.

(** Construction. *)
Variable create : nat -> P.

Lemma new_coherent steps a l b : (a < b)%Qc ->
  exists s, new_param_func create steps (a :: l ++ [b]) = Ok s /\ coherent s /\
    pf_min_t s = a /\ pf_max_t s = b /\
    List.length (pf_times s) = Z.to_nat (Z.max 1 steps) /\
    pf_params s = map create (seq 0 (Z.to_nat (Z.max 1 steps))) /\
    (forall i, i < List.length (pf_times s) ->
       at_ (pf_times s) i = (a + qn i * ((b - a) / Q2Qc (inject_Z (Z.max 1 steps))))%Qc) /\
    (at_ (pf_times s) (List.length (pf_times s) - 1) < b)%Qc.
Proof.
  intro H. unfold new_param_func.
  rewrite (py_item_0 (a :: l ++ [b])). cbn [list_item nth_error bind].
  rewrite (py_item_last (a :: l ++ [b]) 0%Qc) by discriminate.
  change (a :: l ++ [b]) with ((a :: l) ++ [b]). rewrite last_last. cbn [bind].
  destruct (Z.ltb_spec 1 steps).
  - unfold linspace. destruct (Z.ltb_spec (steps + 1) 0); [lia|].
    destruct (Z.eqb_spec (steps + 1) 1); [lia|]. cbn [bind].
    replace (Z.to_nat (steps + 1)) with (S (Z.to_nat steps)) by lia.
    replace (steps + 1 - 1)%Z with steps by lia.
    rewrite map_seq_snoc, removelast_last.
    set (dd := ((b - a) / Q2Qc (inject_Z steps))%Qc).
    change (fun i : nat => (a + Q2Qc (inject_Z (Z.of_nat i)) * dd)%Qc)
      with (fun i : nat => (a + qn i * dd)%Qc).
    set (f := fun i : nat => (a + qn i * dd)%Qc).
    assert (Hst : Q2Qc (inject_Z steps) = qn (Z.to_nat steps)).
    { unfold qn. rewrite Z2Nat.id by lia. reflexivity. }
    assert (Hd : (0 < dd)%Qc).
    { apply qc_div_pos; [apply qc_minus_pos; auto|]. rewrite Hst. apply qn_pos. lia. }
    assert (Hfb : f (Z.to_nat steps) = b).
    { unfold f, dd. rewrite Hst. field. intro E.
      assert (Hp : (0 < qn (Z.to_nat steps))%Qc) by (apply qn_pos; lia).
      apply (Qclt_not_eq _ _ Hp). symmetry. exact E. }
    assert (E0 : f 0 = a). { unfold f. change (qn 0) with 0%Qc. ring. }
    assert (Ln : List.length (map f (seq 0 (Z.to_nat steps))) = Z.to_nat steps)
      by (rewrite map_length, seq_length; auto).
    assert (Nth : forall i, i < Z.to_nat steps -> at_ (map f (seq 0 (Z.to_nat steps))) i = f i).
    { intros i Hi. unfold at_. rewrite (nth_indep _ 0%Qc (f 0)) by lia.
      rewrite map_nth, seq_nth by lia. reflexivity. }
    rewrite (py_item_0 _), (list_item_nth _ 0 0%Qc) by lia. cbn [bind].
    eexists. split; [reflexivity|]. cbn [pf_min_t pf_max_t pf_times pf_params].
    replace (Z.max 1 steps) with steps by lia.
    split; [|split; [auto|split; [auto|split; [auto|split; [rewrite Ln; auto|split]]]]].
    + split; [apply sorted_affine; auto|]. cbn [pf_times].
      split; [intro E; rewrite E in Ln; simpl in Ln; lia|].
      cbn [pf_params pf_min_t pf_last_idx pf_last_time].
      split; [rewrite !map_length, !seq_length; reflexivity|].
      split; [rewrite Nth by lia; auto|].
      exists 0. split; [lia|]. split; [reflexivity|]. reflexivity.
    + intros i Hi. rewrite Ln in Hi. rewrite Nth by auto. reflexivity.
    + rewrite Ln, Nth by lia. rewrite <- Hfb. apply qc_affine_lt; auto. lia.
  - cbn [bind]. rewrite (py_item_0 [a]). unfold list_item. cbn [nth_error bind].
    eexists. split; [reflexivity|]. cbn [pf_min_t pf_max_t pf_times pf_params].
    replace (Z.max 1 steps) with 1%Z by lia.
    split; [|split; [auto|split; [auto|split; [reflexivity|split; [reflexivity|split]]]]].
    + split; [repeat constructor|]. split; [discriminate|]. split; [reflexivity|].
      split; [reflexivity|]. exists 0. repeat split; simpl; lia.
    + intros i Hi. simpl in Hi. assert (i = 0) by lia. subst. unfold at_. simpl nth.
      change (qn 0) with 0%Qc. ring.
    + exact H.
Qed.

(** A single set of parameters is constant. *)
Lemma single_constant (s : pf) p t : pf_params s = [p] -> get_parameters_at_time s t = Ok (p, s).
Proof. intro E. unfold get_parameters_at_time. rewrite E. reflexivity. Qed.

Lemma queries_single (s : pf) p ts : pf_params s = [p] ->
  queries s ts = Ok (repeat p (List.length ts), s).
Proof.
  intro E. induction ts as [|t ts IH]; auto. simpl. rewrite (single_constant s p t E). cbn [bind].
  rewrite IH. reflexivity.
Qed.
End PF.

(** What the lookup should do, and by how much it can be off. *)
Lemma floor_or_next {P} (s : @param_func P) t j :
  coherent s -> answers s t j -> (pf_min_t s <= t)%Qc -> (t <= pf_max_t s)%Qc ->
  2 <= List.length (pf_times s) ->
  is_floor (pf_times s) t j \/
  ((pf_last_time s < t)%Qc /\ exists i, j = S i /\ is_floor (pf_times s) t i /\
     (at_ (pf_times s) i < t)%Qc /\ (t < at_ (pf_times s) j)%Qc).
Proof.
  intros [S [Ne [L [H0 _]]]] A H1 H2 H3. unfold answers in A.
  destruct (Nat.eqb_spec (List.length (pf_times s)) 1); [lia|].
  rewrite (proj2 (qlt_false _ _) H1), (proj2 (qlt_false _ _) H2) in A.
  destruct (qlt (pf_last_time s) t) eqn:E1; [|left; exact A].
  destruct (qlt t (at_ (pf_times s) (List.length (pf_times s) - 1))) eqn:E2; [|left; exact A].
  simpl in A. destruct A as [A1 [A2 A3]].
  destruct (Qcle_lt_or_eq _ _ A2) as [Hlt|Heq].
  - right. split; [apply qlt_true; auto|].
    destruct j as [|i].
    + exfalso. rewrite H0 in Hlt. exact (Qcle_not_lt _ _ H1 Hlt).
    + exists i. split; auto. split; [|split; auto].
      split; [lia|]. split; [apply Qclt_le_weak; apply A3; lia|].
      intros k K1 K2. eapply Qclt_le_trans; [exact Hlt|]. apply sorted_nth_le; auto.
  - left. split; auto. split; [rewrite Heq; apply Qcle_refl|].
    intros k K1 K2. rewrite Heq. apply sorted_nth; auto.
Qed.

(** The same query, asked twice, gives two different answers, and the first one
    is not the closest earlier one. *)
Lemma lookup_depends_on_history :
  exists s t s1 s2 p1 p2,
    new_param_func (fun i => i) 2 [0%Qc; 1%Qc] = Ok s /\
    get_parameters_at_time s t = Ok (p1, s1) /\
    get_parameters_at_time s1 t = Ok (p2, s2) /\
    p1 <> p2 /\ is_floor (pf_times s) t p2 /\ ~ is_floor (pf_times s) t p1.
Proof.
  eexists. exists (Q2Qc (1 # 4)). do 4 eexists.
  split; [vm_compute; reflexivity|].
  split; [vm_compute; reflexivity|]. split; [vm_compute; reflexivity|].
  split; [discriminate|]. split.
  - split; [simpl; lia|]. split; [vm_compute; discriminate|].
    intros k K1 K2. simpl in K2. assert (k = 1) by lia. subst. reflexivity.
  - intros [_ [H _]]. apply H. reflexivity.
Qed.

Lemma at_times_inj times i j : StronglySorted Qclt times -> i < List.length times ->
  j < List.length times -> at_ times i = at_ times j -> i = j.
Proof.
  intros S Hi Hj E. destruct (Nat.lt_trichotomy i j) as [H|[H|H]]; auto; exfalso;
    apply (sorted_nth times _ _ 0%Qc S) in H; auto; unfold at_ in E; rewrite E in H;
    exact (Qclt_not_eq _ _ H eq_refl).
Qed.

(** A query at a grid time is exact, whatever happened before. *)
Lemma grid_time_exact {P} (s : @param_func P) k j : coherent s -> 2 <= List.length (pf_times s) ->
  (at_ (pf_times s) (List.length (pf_times s) - 1) <= pf_max_t s)%Qc ->
  k < List.length (pf_times s) -> answers s (at_ (pf_times s) k) j -> j = k.
Proof.
  intros C H2 Hm Hk A. pose proof C as [S [Ne [L [H0 _]]]].
  assert (F : forall j', is_floor (pf_times s) (at_ (pf_times s) k) j' -> j' = k).
  { intros j' [F1 [F2 F3]]. destruct (Nat.lt_trichotomy j' k) as [H|[H|H]]; auto; exfalso.
    - specialize (F3 k H Hk). exact (Qclt_not_eq _ _ F3 eq_refl).
    - apply (sorted_nth (pf_times s) _ _ 0%Qc S) in H; auto. exact (Qcle_not_lt _ _ F2 H). }
  destruct (floor_or_next s (at_ (pf_times s) k) j C A) as [H|[_ [i [-> [Fi [Lt1 Lt2]]]]]]; auto.
  - rewrite <- H0. apply sorted_nth_le; auto. lia.
  - eapply Qcle_trans; [|exact Hm]. apply sorted_nth_le; auto; lia.
  - exfalso. apply F in Fi. subst i. exact (Qclt_not_eq _ _ Lt1 eq_refl).
Qed.

(** Full history form. *)
Lemma lookup_history {P} (create : nat -> P) steps a l b hs t : (a < b)%Qc ->
  exists s ps s1 j s2,
    new_param_func create steps (a :: l ++ [b]) = Ok s /\
   queries s hs = Ok (ps, s1) /\
   get_parameters_at_time s1 t = Ok (create j, s2) /\
   j < List.length (pf_times s) /\
   ((t < a)%Qc -> j = 0) /\ ((b < t)%Qc -> j = List.length (pf_times s) - 1) /\
   ((a <= t)%Qc -> (t <= b)%Qc ->
      is_floor (pf_times s) t j \/
      exists i, j = S i /\ is_floor (pf_times s) t i /\ (at_ (pf_times s) i < t)%Qc /\
       (pf_last_time s1 < t)%Qc) /\
   (forall k, k < List.length (pf_times s) -> t = at_ (pf_times s) k -> j = k).
Proof.
  intro H. destruct (new_coherent create steps a l b H)
    as [s [Es [C [M1 [M2 [Ln [Pm [_ Hl]]]]]]]].
  destruct (queries_ok (create 0) hs s C) as [ps [s1 [E1 [_ [_ [C1 [T1 [P1 [N1 N2]]]]]]]]].
  destruct (query_ok s1 t (create 0) C1) as [s2 [j [E2 [Hj [A [C2 _]]]]]].
  assert (Hj' : j < Z.to_nat (Z.max 1 steps)).
  { rewrite P1, Pm, map_length, seq_length in Hj. exact Hj. }
  rewrite P1, Pm, map_nth, seq_nth in E2 by auto.
  exists s, ps, s1, j, s2. split; auto. split; auto. split; auto. rewrite Ln.
  split; auto.
  pose proof A as A'. unfold answers in A'. rewrite T1, N1, N2, M1, M2, Ln in A'.
  assert (Ftr : Z.to_nat (Z.max 1 steps) = 1 -> j = 0) by lia.
  split; [|split; [|split]].
  - intro Ht. destruct (Nat.eqb_spec (Z.to_nat (Z.max 1 steps)) 1); auto.
    rewrite (proj2 (qlt_true _ _) Ht) in A'. exact A'.
  - intro Ht. destruct (Nat.eqb_spec (Z.to_nat (Z.max 1 steps)) 1); [lia|].
    assert (qlt t a = false) as Ea.
    { apply qlt_false. apply Qclt_le_weak. eapply Qclt_trans; eauto. }
    rewrite Ea, (proj2 (qlt_true _ _) Ht) in A'. exact A'.
  - intros Ha Hb. destruct (Nat.eq_dec (Z.to_nat (Z.max 1 steps)) 1) as [E|E].
    + left. rewrite (Ftr E). split; [rewrite Ln; lia|].
      destruct C as [_ [_ [_ [H0 _]]]]. split; [rewrite H0, M1; auto|]. intros; lia.
    + destruct (floor_or_next s1 t j C1 A) as [F|[Hlt [i [Ei [Fi [Lt1 Lt2]]]]]];
        try rewrite ?N1, ?N2, ?M1, ?M2; auto.
      * rewrite T1, Ln. lia.
      * left. rewrite T1 in F. exact F.
      * right. rewrite T1 in Fi, Lt1. exists i. auto.
  - intros k Hk ->. destruct (Nat.eq_dec (Z.to_nat (Z.max 1 steps)) 1) as [E|E]; [lia|].
    rewrite <- T1 in A. apply (grid_time_exact s1 k j C1); auto; rewrite ?T1, ?Ln; try lia.
    rewrite N2, M2. apply Qclt_le_weak. rewrite Ln in Hl. exact Hl.
Qed.

Lemma rnn_constant {P} (create : nat -> P) steps a l ts : (steps <= 1)%Z ->
  exists s, new_param_func create steps (a :: l) = Ok s /\
    queries s ts = Ok (repeat (create 0) (List.length ts), s).
Proof.
  intro H. unfold new_param_func. rewrite (py_item_0 (a :: l)). cbn [list_item nth_error bind].
  rewrite (py_item_last (a :: l) a) by discriminate. cbn [bind].
  destruct (Z.ltb_spec 1 steps); [lia|]. cbn [bind].
  rewrite (py_item_0 [a]). cbn [list_item nth_error bind].
  eexists. split; [reflexivity|]. apply queries_single. reflexivity.
Qed.

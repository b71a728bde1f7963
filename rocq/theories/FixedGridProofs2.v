(** Requested times and checkpoints of the solvers with fixed steps. *)
From Coq Require Import List String Arith ZArith QArith Qcanon Qround Lia Lqa Bool Sorting.Sorted.
From Verif Require Import Base IntegratorModel IntegratorSpec IntervalProofs GridProofs IntegratorProofs FixedGridModel FixedGridSpec FixedGridProofs.
Import ListNotations.
Open Scope string_scope.
Open Scope list_scope.
Open Scope nat_scope.

Lemma nth_error_map' {A B} (f : A -> B) l i x : nth_error l i = Some x -> nth_error (map f l) i = Some (f x).
Proof. intros H. rewrite nth_error_map, H. reflexivity. Qed.

Section Values.
Context {X : Type}.
Variable add : X -> X -> X.
Variable mul : Qc -> X -> X.
Variable step : Qc -> Qc -> X -> X.
Let advance (t dt : Qc) (y : X) : X := add y (step t dt y).
Let solve := fixed_grid add mul step.

Lemma sorted_pair a s : (a < s)%Qc -> StronglySorted Qclt [a; s].
Proof. intros H. repeat constructor. exact H. Qed.

(** A requested time on the grid has the value of the whole steps, also alone. *)
Lemma values_on_grid h t0 ts x : (0 < h)%Qc -> StronglySorted Qclt (t0 :: ts) ->
  exists values, solve (Some h) x (t0 :: ts) = Ok values /\ List.length values = S (List.length ts) /\
    forall i k, nth_error (t0 :: ts) i = Some (t0 + times k h)%Qc ->
      nth_error values i = Some (whole_steps advance h t0 k x) /\
      (0 < k -> solve (Some h) x [t0; (t0 + times k h)%Qc] = Ok [x; whole_steps advance h t0 k x]).
Proof.
  intros H S. destruct (solver_values add mul step h t0 ts _ x H S eq_refl) as (n & C & E).
  eexists. split; [exact E|]. split; [rewrite map_length; reflexivity|].
  intros i k N. assert (L : (t0 + times k h <= last (t0 :: ts) t0)%Qc).
  { apply nth_error_In in N as [<-|N]; [apply sorted_last, S|apply sorted_below; assumption]. }
  split.
  - rewrite (nth_error_map' _ _ _ _ N). f_equal. apply out_on_grid; assumption.
  - intros K. assert (A := times_lt 0 k h H K). rewrite times_0 in A.
    assert (S2 : StronglySorted Qclt [t0; (t0 + times k h)%Qc]) by (apply sorted_pair; qc).
    destruct (solver_values add mul step h t0 _ _ x H S2 eq_refl) as (m & C2 & E2). unfold solve. rewrite E2. cbn [map]. f_equal.
    f_equal; [|f_equal].
    + apply out_start. destruct (walk_sorted _ _ H _ _ C2) as (W & _). exact W.
    + apply out_on_grid; [assumption|assumption|cbn; qc].
Qed.

(** ** Checkpoints on the grid *)
Definition adjacent (a b : Qc) (l : list Qc) : Prop := exists l1 l2, l = l1 ++ a :: b :: l2.

Lemma loop_values (odeint : bool -> string -> opts -> X -> list Qc -> result (list X)) odesolver hp i (v : Qc -> X) :
  i_library i = "odeint" -> forall ints cps a outs overall,
  (forall c d m, adjacent c d (a :: cps) -> StronglySorted Qclt (c :: m ++ [d]) ->
     odeint (i_adjoint i) (i_name i) (heap_get hp (i_options i)) (v c) (c :: m ++ [d]) = Ok (map v (c :: m ++ [d]))) ->
  chained (a :: cps) ints ->
  Forall2 (fun i o => List.length i = List.length o) ints outs ->
  Forall (StronglySorted Qclt) ints ->
  checkpoint_loop odeint odesolver hp i overall (v a) (combine ints outs)
  = (hp, Ok (match ints, overall with
            | [], _ => overall
            | _, None => Some (map v (flagged ints outs))
            | _, Some o => Some (o ++ map v (flagged ints outs))
            end)).
Proof.
  intros lib. induction ints as [|it ints IH]; intros cps a outs overall V C P F; [reflexivity|].
  inversion P as [|? o ? outs' L P']; subst. inversion F as [|? ? Sit F']; subst.
  destruct cps as [|b cps]; [destruct C|]. destruct C as [[m Em] C].
  simpl combine. cbn [checkpoint_loop]. unfold checkpoint_step, integrate_direct.
  rewrite lib. cbn [fst snd]. replace (String.eqb "odeint" "odeint") with true by reflexivity.
  rewrite Em in Sit |- *. rewrite V; [|exists [], cps; reflexivity|exact Sit]. cbn [bind].
  assert (El : last_item (map v (a :: m ++ [b])) = Ok (v b)).
  { change (a :: m ++ [b]) with ((a :: m) ++ [b]). rewrite map_app. apply last_item_snoc. }
  rewrite El. cbn [bind]. rewrite mask_select_map by (rewrite <- Em; auto). cbn [bind].
  rewrite (IH cps); auto.
  - destruct ints as [|i2 ints].
    + unfold flagged. destruct outs'; [|inversion P']. simpl combine. cbn [flat_map].
      rewrite app_nil_r. cbn [fst snd]. destruct overall; reflexivity.
    + destruct overall; do 3 f_equal; unfold flagged; simpl combine; cbn [flat_map fst snd];
        rewrite !map_app; rewrite ?app_assoc; reflexivity.
  - intros c d m' (l1 & l2 & A) S'. apply V; [|exact S']. exists (a :: l1), l2. cbn [app]. rewrite A. reflexivity.
Qed.

(** A chunk between two grid points, or from a grid point to the end. *)
Lemma chunk_values h t0 tl n x c d m k : (0 < h)%Qc -> count h t0 tl n -> c = (t0 + times k h)%Qc -> (d <= tl)%Qc ->
  on_grid h t0 d \/ d = tl -> StronglySorted Qclt (c :: m ++ [d]) ->
  let v := out add mul step t0 (walk h t0 tl n) x in
  solve (Some h) (v c) (c :: m ++ [d]) = Ok (map v (c :: m ++ [d])).
Proof.
  intros H C EC D G S v.
  assert (LD : last (c :: m ++ [d]) c = d).
  { change (c :: m ++ [d]) with ((c :: m) ++ [d]). apply last_last. }
  destruct (solver_values add mul step h c (m ++ [d]) d (v c) H S LD) as (r & Cr & E). unfold solve. rewrite E. f_equal.
  apply map_ext_in. intros s I.
  assert (CD : (c <= d)%Qc) by (rewrite <- LD; apply sorted_last, S).
  assert (CS : (c <= s)%Qc).
  { destruct I as [<-|I]; [qc|]. inversion S as [|? ? _ F]; subst. apply Qclt_le_weak, (proj1 (Forall_forall _ _) F _ I). }
  assert (SD : (s <= d)%Qc).
  { destruct I as [<-|I]; [exact CD|]. rewrite <- LD. apply sorted_below; assumption. }
  assert (CT : (c <= tl)%Qc) by qc.
  assert (VC : v c = whole_steps advance h t0 k x).
  { unfold v. rewrite EC. apply out_on_grid; [assumption|assumption|rewrite <- EC; exact CT]. }
  destruct (out_from_grid add mul step h t0 tl n k x s H C) as (r' & Cr' & E').
  - rewrite <- EC. exact CT.
  - rewrite <- EC. exact CS.
  - unfold v at 2. rewrite E', VC, <- EC in *. fold advance. destruct G as [(j & EJ)| ->].
    + assert (KJ : k <= j).
      { apply (times_le_inv k j h H). rewrite EC, EJ in CD. qc. }
      assert (DJ : d = (c + times (j - k) h)%Qc).
      { rewrite EJ, EC. replace j with (k + (j - k)) at 1 by lia. rewrite times_add. ring. }
      rewrite (count_unique h c d r (j - k) Cr) by (rewrite DJ; apply count_grid, H).
      rewrite (out_to_grid add mul step h c tl r' (j - k)); try assumption; rewrite <- DJ; try assumption. reflexivity.
    + rewrite (count_unique h c tl r r' Cr Cr'). reflexivity.
Qed.

Lemma aligned_good h t0 tl nr dt : aligned h t0 tl nr dt -> good_settings nr dt.
Proof.
  unfold aligned, good_settings. destruct nr as [n|], dt as [d|]; try tauto.
  - intros (N & _). left. exists (Z.to_nat n). rewrite Z2Nat.id by exact N. auto.
  - intros (D & _). right. exists d. auto.
Qed.

Lemma times_mul i j h : times i (times j h) = times (i * j) h.
Proof. induction i as [|i IH]; [rewrite !times_0; reflexivity|]. cbn [Nat.mul]. rewrite times_S, times_add, IH. reflexivity. Qed.

Lemma linspace_points t0 tl n cp : checkpoint_times (Some (Z.of_nat n)) None t0 tl = Ok cp ->
  forall c, In c cp -> c = tl \/ exists i, c = (t0 + times i ((tl - t0) / qn (S n)))%Qc.
Proof.
  unfold checkpoint_times, linspace. destruct (Z.ltb_spec (Z.of_nat n + 2) 0); [lia|].
  destruct (Z.eqb_spec (Z.of_nat n + 2) 1); [lia|]. cbn [bind].
  assert (ED : Q2Qc (inject_Z (Z.of_nat n + 2 - 1)) = qn (S n)) by (unfold qn; do 2 f_equal; lia). rewrite ED.
  set (l := map _ _). intros E c I. unfold set_last in E. destruct l as [|y l'] eqn:EL; [discriminate|]. injection E as <-.
  apply in_app_iff in I as [I|[<-|[]]]; [|auto]. right.
  assert (J : In c (y :: l')).
  { clear - I. revert y I. induction l' as [|z l' IH]; intros y I; [destruct I|]. destruct I as [<-|I]; [left; reflexivity|right; apply (IH z), I]. }
  rewrite <- EL in J. unfold l in J. apply in_map_iff in J as (i & <- & _). exists i. reflexivity.
Qed.

Lemma aligned_points h t0 tl nr dt cp : (t0 < tl)%Qc -> aligned h t0 tl nr dt ->
  checkpoint_times nr dt t0 tl = Ok cp -> forall c, In c cp -> c = tl \/ on_grid h t0 c.
Proof.
  intros L A E c I. destruct nr as [n|], dt as [d|]; try contradiction A.
  - destruct A as (N & j & J). rewrite <- (Z2Nat.id n N) in E.
    destruct (linspace_points _ _ _ _ E c I) as [->|(i & ->)]; [left; reflexivity|]. right. exists (i * j).
    rewrite J. replace (Z.to_nat (n + 1)) with (S (Z.to_nat n)) by lia. set (m := S (Z.to_nat n)).
    replace (times (m * j) h / qn m)%Qc with (times j h); [rewrite times_mul; reflexivity|].
    rewrite <- times_mul. unfold times at 2. change (Q2Qc (inject_Z (Z.of_nat m))) with (qn m). field.
    assert (P : (0 < qn m)%Qc) by (apply qn_pos; unfold m; lia). intros Z. rewrite Z in P. qc.
  - destruct A as (D & j & J). destruct (arange_grid t0 tl d L D) as (cp' & E' & _ & P). rewrite E in E'. injection E' as <-.
    destruct (Qc_eq_dec c tl) as [->|Nc]; [left; reflexivity|]. right. apply In_nth_error in I as (i & I). exists (i * j).
    rewrite (P i c I Nc), J. change (qn i * times j h)%Qc with (times i (times j h)). rewrite times_mul. reflexivity.
Qed.

(** The solver of an integrator. *)
Lemma checkpoints_aligned (odeint : bool -> string -> opts -> X -> list Qc -> result (list X)) odesolver hp i j x0 h t0 ts tl :
  (0 < h)%Qc ->
  (forall x s0 s ss, StronglySorted Qclt (s0 :: s :: ss) ->
     odeint (i_adjoint i) (i_name i) (heap_get hp (i_options i)) x (s0 :: s :: ss) = solve (Some h) x (s0 :: s :: ss)) ->
  i_library i = "odeint" -> i_library j = "odeint" ->
  i_adjoint j = i_adjoint i -> i_name j = i_name i -> i_options j = i_options i ->
  i_nr_of_checkpoints i = None -> i_checkpointing_time_interval i = None ->
  aligned h t0 tl (i_nr_of_checkpoints j) (i_checkpointing_time_interval j) ->
  StronglySorted Qclt (t0 :: ts ++ [tl]) ->
  integrate odeint odesolver hp j x0 (t0 :: ts ++ [tl]) = integrate odeint odesolver hp i x0 (t0 :: ts ++ [tl]) /\
  exists values, integrate odeint odesolver hp i x0 (t0 :: ts ++ [tl]) = (hp, Ok (Some values)).
Proof.
  intros H V Li Lj Ea En Eo N1 N2 AL S.
  assert (V' : forall x s0 ss, ss <> [] -> StronglySorted Qclt (s0 :: ss) ->
    odeint (i_adjoint i) (i_name i) (heap_get hp (i_options i)) x (s0 :: ss) = solve (Some h) x (s0 :: ss)).
  { intros x s0 [|s ss] N SS; [congruence|apply V, SS]. }
  assert (TL : (t0 < tl)%Qc).
  { inversion S as [|? ? _ F]; subst. apply (proj1 (Forall_forall _ _) F). apply in_or_app. right. left. reflexivity. }
  assert (LT : last (t0 :: ts ++ [tl]) t0 = tl).
  { change (t0 :: ts ++ [tl]) with ((t0 :: ts) ++ [tl]). apply last_last. }
  destruct (solver_values add mul step h t0 (ts ++ [tl]) tl x0 H S LT) as (n & C & E).
  set (v := out add mul step t0 (walk h t0 tl n) x0) in *.
  assert (D : integrate odeint odesolver hp i x0 (t0 :: ts ++ [tl]) = (hp, Ok (Some (map v (t0 :: ts ++ [tl]))))).
  { unfold integrate. rewrite N1, N2. unfold integrate_direct. rewrite Li. replace (String.eqb "odeint" "odeint") with true by reflexivity.
    rewrite V' by (destruct ts; [discriminate|discriminate] || exact S). unfold solve. rewrite E. reflexivity. }
  split; [|eexists; exact D]. rewrite D.
  assert (Sle : StronglySorted Qcle (t0 :: ts ++ [tl])).
  { eapply sorted_weaken; [|exact S]. intros x y. apply Qclt_le_weak. }
  assert (G := aligned_good _ _ _ _ _ AL).
  destruct (create_exact _ _ _ _ _ G TL Sle) as [cp [ints [outs [ECP [Gr [EI [Fl [CH [P [_ L]]]]]]]]]].
  assert (PT := aligned_points _ _ _ _ _ _ TL AL ECP).
  assert (I : integrate_checkpointed odeint odesolver hp j x0 (t0 :: ts ++ [tl]) = (hp, Ok (Some (map v (t0 :: ts ++ [tl]))))).
  { unfold integrate_checkpointed. rewrite EI. destruct Gr as [m [-> Scp]].
    assert (V0 : v t0 = x0).
    { apply out_start. destruct (walk_sorted _ _ H _ _ C) as (W & _). exact W. }
    rewrite <- V0 at 1. rewrite (loop_values odeint odesolver hp j v Lj ints (m ++ [tl]) t0 outs None); auto.
    - destruct ints as [|i1 ints]; [destruct m; destruct CH|]. rewrite Fl, filter_strict by auto. reflexivity.
    - intros c d mm (l1 & l2 & A) SS. rewrite Ea, En, Eo. rewrite V'; [|destruct mm; discriminate|exact SS].
      assert (IC : In c (t0 :: m ++ [tl])) by (rewrite A; apply in_or_app; right; left; reflexivity).
      assert (ID : In d (t0 :: m ++ [tl])) by (rewrite A; apply in_or_app; right; right; left; reflexivity).
      assert (LC : last (t0 :: m ++ [tl]) t0 = tl).
      { change (t0 :: m ++ [tl]) with ((t0 :: m) ++ [tl]). apply last_last. }
      assert (LE : forall z, In z (t0 :: m ++ [tl]) -> (z <= tl)%Qc).
      { intros z [<-|Z]; [apply Qclt_le_weak, TL|rewrite <- LC; apply sorted_below; assumption]. }
      assert (CD : (c < d)%Qc).
      { inversion SS as [|? ? _ F]. apply (proj1 (Forall_forall _ _) F). apply in_or_app. right. left. reflexivity. }
      destruct (PT c IC) as [EC|(k & EK)].
      + exfalso. assert (Y := LE d ID). rewrite EC in CD. qc.
      + apply (chunk_values h t0 tl n x0 c d mm k); auto. destruct (PT d ID) as [O|O]; auto. }
  unfold integrate. destruct G as [[q [Q1 Q2]]|[d [Q1 [Q2 _]]]]; rewrite Q1, ?Q2; exact I.
Qed.
End Values.

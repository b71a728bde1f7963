(** Proofs about generic_integrator.py. *)
From Coq Require Import List String Arith ZArith QArith Qcanon Qround Lia Bool Sorting.Sorted.
From Verif Require Import Base BaseFacts IntegratorModel IntegratorSpec IntervalProofs GridProofs.
Import ListNotations.
Open Scope string_scope.
Open Scope list_scope.
Open Scope nat_scope.

(** * Sorting in terms of the order on Qc *)

Lemma sorted_weaken {T} (R S : T -> T -> Prop) l :
  (forall a b, R a b -> S a b) -> StronglySorted R l -> StronglySorted S l.
Proof.
  intros H S0. induction S0 as [|a l S1 IH F]; constructor; auto.
  eapply Forall_impl; [|exact F]. intros b. apply H.
Qed.

Lemma sorted_le_cmp l : StronglySorted Qcle l <-> StronglySorted (fun a b => Qccompare a b <> Gt) l.
Proof. split; apply sorted_weaken; intros a b; apply Qcle_alt. Qed.

Lemma sorted_lt_cmp l : StronglySorted Qclt l <-> StronglySorted (fun a b => Qccompare a b = Lt) l.
Proof. split; apply sorted_weaken; intros a b; apply Qclt_alt. Qed.

Definition qlt_b (a b : Qc) : bool := match Qccompare a b with Lt => true | _ => false end.

Lemma sorted_last_le l (tl : Qc) : StronglySorted Qcle (l ++ [tl]) -> Forall (fun x => (x <= tl)%Qc) (l ++ [tl]).
Proof.
  induction l as [|x l IH]; simpl; intro S.
  - constructor; auto. apply Qcle_refl.
  - apply StronglySorted_inv in S as [S F]. constructor; auto.
    rewrite Forall_forall in F. apply F. apply in_or_app; right; left; auto.
Qed.

(** * Intervals for a given grid *)

Lemma intervals_exact t0 ts tl cp :
  StronglySorted Qcle (t0 :: ts ++ [tl]) -> is_grid t0 tl cp ->
  exists ints outs,
    intervals_for Qccompare (t0 :: ts ++ [tl]) cp = Ok (ints, outs) /\
    flagged ints outs = filter (fun x => qlt_b x tl) (t0 :: ts ++ [tl]) ++ [tl] /\
    chained cp ints /\
    Forall2 (fun i o => List.length i = List.length o) ints outs /\
    Forall (StronglySorted Qcle) ints /\
    (StronglySorted Qclt (t0 :: ts ++ [tl]) -> Forall (StronglySorted Qclt) ints).
Proof.
  intros S [m [-> Scp]].
  destruct (intervals_for_exact Qccompare qc_cmp_eq qc_cmp_opp qc_cmp_trans
              (t0 :: ts ++ [tl]) m t0 tl) as [ints [outs [E [F [C [P [L1 L2]]]]]]].
  - exists (ts ++ [tl]). split; [reflexivity|]. split; [|split].
    + apply in_or_app; right; left; auto.
    + apply sorted_le_cmp; auto.
    + eapply Forall_impl; [|exact (sorted_last_le (t0 :: ts) tl S)].
      intros a. apply Qcle_alt.
  - apply sorted_lt_cmp; auto.
  - exists ints, outs. split; [auto|split; [auto|split; [auto|split; [auto|split]]]].
    + eapply Forall_impl; [|exact L1]. intros a. apply sorted_le_cmp.
    + intro Sl. apply sorted_lt_cmp in Sl. eapply Forall_impl; [|exact (L2 Sl)].
      intros a. apply sorted_lt_cmp.
Qed.

Lemma filter_all_before l a tl : StronglySorted Qcle (l ++ [a; tl]) -> (a < tl)%Qc ->
  filter (fun x => qlt_b x tl) (l ++ [a; tl]) ++ [tl] = l ++ [a; tl].
Proof.
  intros S H. apply sorted_le_cmp in S. apply Qclt_alt in H.
  exact (filter_before_last Qccompare qc_cmp_eq qc_cmp_trans l a tl S H).
Qed.

(** Strictly increasing times are kept completely. *)
Lemma filter_strict t0 ts tl : StronglySorted Qclt (t0 :: ts ++ [tl]) ->
  filter (fun x => qlt_b x tl) (t0 :: ts ++ [tl]) ++ [tl] = t0 :: ts ++ [tl].
Proof.
  intro S.
  assert (exists l a, t0 :: ts = l ++ [a]) as [l [a E]].
  { exists (removelast (t0 :: ts)), (last (t0 :: ts) t0). apply app_removelast_last. discriminate. }
  change (t0 :: ts ++ [tl]) with ((t0 :: ts) ++ [tl]) in *. rewrite E in *.
  rewrite <- app_assoc in *. simpl in *.
  apply filter_all_before.
  - eapply sorted_weaken; [|exact S]. intros x y. apply Qclt_le_weak.
  - clear E. induction l as [|x l IH]; simpl in S.
    + apply StronglySorted_inv in S as [_ F]. inversion F; auto.
    + apply StronglySorted_inv in S as [S _]. auto.
Qed.

(** * The settings *)

(** The checkpoint settings that are meant to be used. *)
Definition good_settings (nr : option Z) (dt : option Qc) : Prop :=
  (exists n, nr = Some (Z.of_nat n) /\ dt = None) \/ (exists d, nr = None /\ dt = Some d /\ (0 < d)%Qc).

Lemma settings_grid nr dt a b : good_settings nr dt -> (a < b)%Qc ->
  exists cp, checkpoint_times nr dt a b = Ok cp /\ is_grid a b cp.
Proof.
  intros [[n [-> ->]]|[d [-> [-> Hd]]]] H.
  - destruct (linspace_grid a b n H) as [cp [E [G _]]]. eauto.
  - destruct (arange_grid a b d H Hd) as [cp [E [G _]]]. eauto.
Qed.

Lemma last_item_snoc {A} (l : list A) x : last_item (l ++ [x]) = Ok x.
Proof. unfold last_item. rewrite rev_app_distr. reflexivity. Qed.

Lemma create_eq nr dt t0 ts tl :
  create_integration_time_intervals nr dt (t0 :: ts ++ [tl])
  = (cp <- checkpoint_times nr dt t0 tl ;; intervals_for Qccompare (t0 :: ts ++ [tl]) cp).
Proof.
  unfold create_integration_time_intervals.
  destruct (ts ++ [tl]) as [|y ys] eqn:E; [destruct ts; discriminate|]. rewrite <- E.
  change (t0 :: ts ++ [tl]) with ((t0 :: ts) ++ [tl]). rewrite last_item_snoc. reflexivity.
Qed.

Lemma create_exact nr dt t0 ts tl :
  good_settings nr dt -> (t0 < tl)%Qc -> StronglySorted Qcle (t0 :: ts ++ [tl]) ->
  exists cp ints outs,
    checkpoint_times nr dt t0 tl = Ok cp /\ is_grid t0 tl cp /\
    create_integration_time_intervals nr dt (t0 :: ts ++ [tl]) = Ok (ints, outs) /\
    flagged ints outs = filter (fun x => qlt_b x tl) (t0 :: ts ++ [tl]) ++ [tl] /\
    chained cp ints /\
    Forall2 (fun i o => List.length i = List.length o) ints outs /\
    Forall (StronglySorted Qcle) ints /\
    (StronglySorted Qclt (t0 :: ts ++ [tl]) -> Forall (StronglySorted Qclt) ints).
Proof.
  intros G H S. destruct (settings_grid _ _ _ _ G H) as [cp [E Gr]].
  destruct (intervals_exact _ _ _ _ S Gr) as [ints [outs [E' P]]].
  exists cp, ints, outs. split; auto. split; auto. split; auto.
  rewrite create_eq, E. exact E'.
Qed.

Lemma snoc_inv {A} (l : list A) : l <> [] -> exists m x, l = m ++ [x].
Proof.
  intro H. destruct (rev l) as [|x r] eqn:E.
  - destruct l; [congruence|]. apply (f_equal (@rev A)) in E. rewrite rev_involutive in E. discriminate.
  - exists (rev r), x. rewrite <- (rev_involutive l), E. reflexivity.
Qed.

(** All requested times are returned. *)
Lemma create_covers nr dt t0 ts a tl :
  good_settings nr dt -> StronglySorted Qcle (t0 :: ts ++ [tl]) ->
  last (t0 :: ts) t0 = a -> (a < tl)%Qc ->
  exists ints outs,
    create_integration_time_intervals nr dt (t0 :: ts ++ [tl]) = Ok (ints, outs) /\
    flagged ints outs = t0 :: ts ++ [tl].
Proof.
  intros G S Ea Ha.
  assert (exists l, t0 :: ts = l ++ [a]) as [l E].
  { exists (removelast (t0 :: ts)). subst a. apply app_removelast_last. discriminate. }
  assert (H0 : (t0 <= a)%Qc).
  { change (t0 :: ts ++ [tl]) with ((t0 :: ts) ++ [tl]) in S.
    assert (In a (t0 :: ts)) as [->|Hin] by (rewrite E; apply in_or_app; right; left; auto).
    - apply Qcle_refl.
    - simpl in S. apply StronglySorted_inv in S as [_ F]. rewrite Forall_forall in F.
      apply F. apply in_or_app; auto. }
  assert (H : (t0 < tl)%Qc) by (eapply Qcle_lt_trans; eauto).
  destruct (create_exact _ _ _ _ _ G H S) as [cp [ints [outs [_ [_ [Ec [Fl _]]]]]]].
  exists ints, outs. split; auto. rewrite Fl.
  change (t0 :: ts ++ [tl]) with ((t0 :: ts) ++ [tl]) in *. rewrite E in *.
  rewrite <- app_assoc in *. apply filter_all_before; auto.
Qed.

(** The intervals chain along the checkpoints. *)
Lemma create_chained nr dt t0 ts tl :
  good_settings nr dt -> (t0 < tl)%Qc -> StronglySorted Qcle (t0 :: ts ++ [tl]) ->
  exists cp ints outs,
    checkpoint_times nr dt t0 tl = Ok cp /\ is_grid t0 tl cp /\
    create_integration_time_intervals nr dt (t0 :: ts ++ [tl]) = Ok (ints, outs) /\
    chained cp ints /\
    Forall2 (fun i o => List.length i = List.length o) ints outs /\
    Forall (StronglySorted Qcle) ints.
Proof.
  intros G H S. destruct (create_exact _ _ _ _ _ G H S) as [cp [ints [outs P]]].
  exists cp, ints, outs. tauto.
Qed.

(** * Configuration errors *)

Lemma create_too_few nr dt t : List.length t < 2 ->
  create_integration_time_intervals nr dt t = Raise ValueError.
Proof. destruct t as [|? [|? ?]]; simpl; auto; lia. Qed.

Lemma create_bad_settings nr dt t : (nr = None <-> dt = None) ->
  create_integration_time_intervals nr dt t = Raise ValueError.
Proof.
  intro H. destruct t as [|t0 [|t1 t]]; auto.
  destruct (snoc_inv (t1 :: t)) as [m [x E]]; [discriminate|]. rewrite E, create_eq.
  unfold checkpoint_times. destruct nr, dt; auto;
    [discriminate (proj2 H eq_refl)|discriminate (proj1 H eq_refl)].
Qed.

Lemma intervals_for_total t0 ts cp1 cps : ts <> [] ->
  exists r, intervals_for Qccompare (t0 :: ts) (t0 :: cp1 :: cps) = Ok r.
Proof.
  intro H. rewrite (intervals_for_ok Qccompare qc_cmp_eq) by (auto; discriminate). eauto.
Qed.

Lemma create_never_raises nr dt t0 ts tl :
  good_settings nr dt -> (t0 < tl)%Qc ->
  exists r, create_integration_time_intervals nr dt (t0 :: ts ++ [tl]) = Ok r.
Proof.
  intros G H. destruct (settings_grid _ _ _ _ G H) as [cp [E [m [-> S]]]].
  rewrite create_eq, E. cbn [bind].
  destruct (m ++ [tl]) as [|c cs] eqn:Em; [destruct m; discriminate|].
  apply intervals_for_total. destruct ts; discriminate.
Qed.

Lemma create_negative_nr n t0 ts tl : (t0 < tl)%Qc -> (n < 0)%Z ->
  create_integration_time_intervals (Some n) None (t0 :: ts ++ [tl])
  = Raise (if (n =? -1)%Z then ValueError else if (n =? -2)%Z then IndexError else RuntimeError).
Proof.
  intros H Hn. rewrite create_eq. unfold checkpoint_times, linspace.
  destruct (Z.eqb_spec n (-1)).
  - subst. simpl. unfold set_last. simpl.
    destruct (t0 ?= tl)%Qc eqn:E; auto. apply qc_cmp_eq in E. subst.
    destruct (Qclt_not_eq _ _ H); auto.
  - destruct (Z.eqb_spec n (-2)).
    + subst. reflexivity.
    + destruct (Z.ltb_spec (n + 2) 0); [reflexivity|lia].
Qed.

Lemma create_negative_interval dt t0 ts tl : (t0 < tl)%Qc -> (dt <= 0)%Qc ->
  create_integration_time_intervals None (Some dt) (t0 :: ts ++ [tl]) = Raise RuntimeError.
Proof.
  intros H Hd. rewrite create_eq. unfold checkpoint_times, arange.
  destruct (Qc_eq_bool dt 0) eqn:E; auto. apply qc_eq_bool_false in E.
  assert ((dt ?= 0)%Qc = Lt) as ->.
  { apply Qclt_alt. destruct (Qcle_lt_or_eq _ _ Hd); auto. congruence. }
  assert ((tl ?= t0)%Qc = Gt) as -> by (apply Qcgt_alt; auto). reflexivity.
Qed.

(** * Checkpointed integration of flows *)

Lemma mask_select_map {X Y} (g : X -> Y) l : forall fs, List.length l = List.length fs ->
  mask_select (map g l) fs = Ok (map g (flagged1 l fs)).
Proof.
  induction l as [|x l IH]; intros [|f fs] H; simpl in *; try lia; auto.
  rewrite IH by lia. cbn [bind]. destruct f; reflexivity.
Qed.

Lemma mask_select_length {X} (r : list X) : forall fs s,
  mask_select r fs = Ok s -> List.length r = List.length fs.
Proof.
  induction r as [|x r IH]; intros [|f fs] s H; simpl in *; try discriminate; auto.
  destruct (mask_select r fs) eqn:E; [|discriminate]. f_equal. eapply IH; eauto.
Qed.

Section Flow.
Context {X : Type}.
Variable odeint : bool -> string -> opts -> X -> list Qc -> result (list X).
Variable odesolver : opts -> X -> result X.
Variable i : integrator.
Variable h : heap.
(** The solver follows the flow [phi] on every increasing time vector. *)
Variable phi : Qc -> Qc -> X -> X.
Hypothesis phi_comp : forall a b c x, (a <= b)%Qc -> (b <= c)%Qc -> phi b c (phi a b x) = phi a c x.
Hypothesis phi_start : forall a x, phi a a x = x.
Hypothesis lib : i_library i = "odeint".
Hypothesis follows : forall x t0 ts, StronglySorted Qclt (t0 :: ts) ->
  odeint (i_adjoint i) (i_name i) (heap_get h (i_options i)) x (t0 :: ts)
  = Ok (map (fun s => phi t0 s x) (t0 :: ts)).

Lemma loop_flow t0 x0 : forall ints cps a outs overall,
  chained (a :: cps) ints -> (t0 <= a)%Qc -> StronglySorted Qcle (a :: cps) ->
  Forall2 (fun i o => List.length i = List.length o) ints outs ->
  Forall (StronglySorted Qclt) ints ->
  checkpoint_loop odeint odesolver h i overall (phi t0 a x0) (combine ints outs)
  = (h, Ok (match ints, overall with
            | [], _ => overall
            | _, None => Some (map (fun s => phi t0 s x0) (flagged ints outs))
            | _, Some o => Some (o ++ map (fun s => phi t0 s x0) (flagged ints outs))
            end)).
Proof.
  induction ints as [|it ints IH]; intros cps a outs overall C Ha Scp P F; [reflexivity|].
  inversion P as [|? o ? outs' L P']; subst. inversion F as [|? ? Sit F']; subst.
  destruct cps as [|b cps]; [destruct C|]. destruct C as [[m Em] C].
  simpl combine. cbn [checkpoint_loop]. unfold checkpoint_step, integrate_direct.
  rewrite lib. cbn [String.eqb Ascii.eqb Bool.eqb fst snd].
  replace (String.eqb "odeint" "odeint") with true by reflexivity.
  rewrite Em in Sit |- *. rewrite follows by exact Sit. cbn [bind].
  assert (Hab : (a <= b)%Qc).
  { apply StronglySorted_inv in Scp as [_ Fa]. inversion Fa; auto. }
  assert (Eg : map (fun s => phi a s (phi t0 a x0)) (a :: m ++ [b])
             = map (fun s => phi t0 s x0) (a :: m ++ [b])).
  { apply map_ext_in. intros s Hs. apply phi_comp; auto.
    apply StronglySorted_inv in Sit as [_ Fa]. destruct Hs as [<-|Hs]; [apply Qcle_refl|].
    rewrite Forall_forall in Fa. apply Qclt_le_weak. auto. }
  rewrite Eg.
  assert (El : last_item (map (fun s => phi t0 s x0) (a :: m ++ [b])) = Ok (phi t0 b x0)).
  { change (a :: m ++ [b]) with ((a :: m) ++ [b]). rewrite map_app. apply last_item_snoc. }
  rewrite El. cbn [bind]. rewrite mask_select_map by (rewrite <- Em; auto). cbn [bind].
  rewrite (IH cps); auto.
  - destruct ints as [|i2 ints].
    + unfold flagged. destruct outs'; [|inversion P']. simpl combine. cbn [flat_map].
      rewrite app_nil_r. cbn [fst snd]. destruct overall; reflexivity.
    + destruct overall; do 3 f_equal; unfold flagged; simpl combine; cbn [flat_map fst snd];
        rewrite !map_app; rewrite ?app_assoc; reflexivity.
  - eapply Qcle_trans; eauto.
  - apply StronglySorted_inv in Scp. tauto.
Qed.

Lemma checkpointed_flow x0 t0 ts tl :
  good_settings (i_nr_of_checkpoints i) (i_checkpointing_time_interval i) ->
  StronglySorted Qclt (t0 :: ts ++ [tl]) ->
  integrate odeint odesolver h i x0 (t0 :: ts ++ [tl])
  = (h, Ok (Some (map (fun s => phi t0 s x0) (t0 :: ts ++ [tl])))).
Proof.
  intros G S.
  assert (H : (t0 < tl)%Qc).
  { apply StronglySorted_inv in S as [_ F]. rewrite Forall_forall in F. apply F.
    apply in_or_app; right; left; auto. }
  assert (Sle : StronglySorted Qcle (t0 :: ts ++ [tl])).
  { eapply sorted_weaken; [|exact S]. intros x y. apply Qclt_le_weak. }
  destruct (create_exact _ _ _ _ _ G H Sle) as [cp [ints [outs [_ [Gr [E [Fl [C [P [_ L]]]]]]]]]].
  unfold integrate.
  assert (I : integrate_checkpointed odeint odesolver h i x0 (t0 :: ts ++ [tl])
              = (h, Ok (Some (map (fun s => phi t0 s x0) (t0 :: ts ++ [tl]))))).
  { unfold integrate_checkpointed. rewrite E.
    rewrite <- (phi_start t0 x0) at 1.
    destruct Gr as [m [-> Scp]].
    rewrite (loop_flow t0 x0 ints (m ++ [tl]) t0 outs None); auto.
    - destruct ints as [|i1 ints]; [destruct m; destruct C|].
      rewrite Fl, filter_strict by auto. reflexivity.
    - apply Qcle_refl.
    - eapply sorted_weaken; [|exact Scp]. intros x y. apply Qclt_le_weak. }
  destruct G as [[n [En Ed]]|[d [En [Ed _]]]]; rewrite En, ?Ed; exact I.
Qed.

Lemma direct_flow x0 t0 ts :
  i_nr_of_checkpoints i = None -> i_checkpointing_time_interval i = None ->
  StronglySorted Qclt (t0 :: ts) ->
  integrate odeint odesolver h i x0 (t0 :: ts)
  = (h, Ok (Some (map (fun s => phi t0 s x0) (t0 :: ts)))).
Proof.
  intros E1 E2 S. unfold integrate. rewrite E1, E2. unfold integrate_direct. rewrite lib.
  replace (String.eqb "odeint" "odeint") with true by reflexivity.
  rewrite follows by exact S. reflexivity.
Qed.
End Flow.

(** * Construction *)

(** The combinations the documentation (gi.py:44-45) names. *)
Definition documented : list (string * string) :=
  [("odeint", "dopri5"); ("odeint", "adams"); ("odeint", "euler"); ("odeint", "midpoint");
   ("odeint", "rk4"); ("odeint", "explicit_adams"); ("odeint", "fixed_adams");
   ("anode", "rk2"); ("anode", "rk4")].

(** Defaults: odeint, and dopri5 resp. rk2. *)
Definition chosen_library (l : option string) : string :=
  match l with Some x => x | None => "odeint" end.
Definition chosen_name (l : option string) (n : option string) : string :=
  match n with
  | Some x => x
  | None => if String.eqb (chosen_library l) "odeint" then "dopri5" else "rk2"
  end.

(** The odeint integrators with a fixed step size. *)
Definition fixed_step (l n : string) : Prop :=
  l = "odeint" /\ In n ["euler"; "midpoint"; "rk4"; "explicit_adams"; "fixed_adams"].

Local Arguments str_in : simpl never.

Lemma str_in_spec s l : str_in s l = true <-> In s l.
Proof.
  unfold str_in. rewrite existsb_exists. split.
  - intros [x [Hx E]]. apply String.eqb_eq in E. subst; auto.
  - intro H. exists s. split; auto. apply String.eqb_refl.
Qed.

Lemma str_in_false s l : str_in s l = false <-> ~ In s l.
Proof. rewrite <- str_in_spec. destruct (str_in s l); split; intros; congruence. Qed.

Lemma documented_spec l n :
  In (l, n) documented <-> In l available_libraries /\ In n (available_integrators l).
Proof.
  unfold documented, available_libraries. split.
  - intro H. simpl in H.
    repeat destruct H as [H|H]; try (injection H as <- <-; simpl; tauto); destruct H.
  - intros [[<-|[<-|[]]] H]; simpl in H;
      repeat destruct H as [<-|H]; simpl; try tauto; destruct H.
Qed.

Lemma heap_get_set_same h a d : a < List.length h -> heap_get (heap_set h a d) a = d.
Proof.
  revert a; induction h as [|x h IH]; intros [|a] H; simpl in *; try lia; auto.
  apply IH; lia.
Qed.

Lemma heap_get_set_other h a b d : a <> b -> heap_get (heap_set h a d) b = heap_get h b.
Proof.
  revert a b; induction h as [|x h IH]; intros [|a] [|b] H; simpl; auto; try congruence.
  apply IH. congruence.
Qed.

Lemma heap_set_length h a d : List.length (heap_set h a d) = List.length h.
Proof. revert a; induction h as [|x h IH]; intros [|a]; simpl; auto. Qed.

Definition step_size_added (l n : string) (step : option Qc) (d : opts) : opts :=
  match step with
  | Some s =>
      if String.eqb l "odeint" && negb (str_in n ["dopri5"; "adams"]) && negb (sd_mem "step_size" d)
      then pd_set "step_size" (ONum s) d else d
  | None => d
  end.

Lemma new_ok h lib name adj o step nr dt :
  In (chosen_library lib, chosen_name lib name) documented ->
  (forall a, o = Some a -> a < List.length h) ->
  exists h' i, new_integrator h lib name adj o step nr dt = (h', Ok i) /\
    i_library i = chosen_library lib /\ i_name i = chosen_name lib name /\
    i_adjoint i = adj /\ i_step_size i = step /\ i_nr_of_checkpoints i = nr /\
    i_checkpointing_time_interval i = dt /\
    i_options i = match o with Some a => a | None => List.length h end /\
    heap_get h' (i_options i)
    = step_size_added (i_library i) (i_name i) step
        (match o with Some a => heap_get h a | None => [] end) /\
    List.length h <= List.length h' /\
    forall b, b <> i_options i -> heap_get h' b = heap_get h b.
Proof.
  intros Hd Ha. apply documented_spec in Hd as [Hl Hn].
  unfold new_integrator. fold (chosen_library lib).
  apply str_in_spec in Hl as Hl'. rewrite Hl'. cbn [negb].
  assert (En : match name with
               | Some n => n
               | None => hd "" (available_integrators (chosen_library lib))
               end = chosen_name lib name).
  { unfold chosen_name. destruct name; auto. unfold available_integrators.
    destruct (String.eqb (chosen_library lib) "odeint"); reflexivity. }
  rewrite En. apply str_in_spec in Hn as Hn'. rewrite Hn'. cbn [negb].
  set (L := chosen_library lib) in *. set (N := chosen_name lib name) in *.
  destruct o as [a|].
  - specialize (Ha a eq_refl). eexists. eexists. split; [reflexivity|]. simpl.
    unfold step_size_added.
    destruct step as [s|]; [|repeat split; auto].
    destruct (String.eqb L "odeint"); simpl; [|repeat split; auto].
    destruct (negb (str_in N ["dopri5"; "adams"])); simpl; [|repeat split; auto].
    destruct (negb (sd_mem "step_size" (heap_get h a))); simpl; [|repeat split; auto].
    repeat split; auto.
    + apply heap_get_set_same; auto.
    + rewrite heap_set_length; auto.
    + intros b Hb. apply heap_get_set_other; auto.
  - assert (G : heap_get (h ++ [[]]) (List.length h) = []).
    { unfold heap_get. rewrite app_nth2, Nat.sub_diag by lia. reflexivity. }
    assert (Go : forall b, b <> List.length h -> heap_get (h ++ [[]]) b = heap_get h b).
    { intros b Hb. unfold heap_get. destruct (Nat.lt_ge_cases b (List.length h)).
      - rewrite app_nth1; auto.
      - rewrite app_nth2 by lia. rewrite (nth_overflow h) by lia.
        destruct (b - List.length h) as [|[|k]] eqn:Eb; simpl; auto. }
    eexists. eexists. split; [reflexivity|]. simpl. unfold step_size_added.
    destruct step as [s|]; [|repeat split; auto; rewrite app_length; simpl; lia].
    destruct (String.eqb L "odeint"); simpl; [|repeat split; auto; rewrite app_length; simpl; lia].
    destruct (negb (str_in N ["dopri5"; "adams"])); simpl;
      [|repeat split; auto; rewrite app_length; simpl; lia].
    rewrite G. simpl. repeat split; auto.
    + apply heap_get_set_same. rewrite app_length; simpl; lia.
    + rewrite heap_set_length, app_length; simpl; lia.
    + intros b Hb. rewrite heap_get_set_other by auto. auto.
Qed.

Lemma new_rejects h lib name adj o step nr dt :
  ~ In (chosen_library lib, chosen_name lib name) documented ->
  new_integrator h lib name adj o step nr dt = (h, Raise ValueError).
Proof.
  intro Hd. rewrite documented_spec in Hd. unfold new_integrator. fold (chosen_library lib).
  destruct (str_in (chosen_library lib) available_libraries) eqn:El; cbn [negb]; auto.
  apply str_in_spec in El.
  assert (En : match name with
               | Some n => n
               | None => hd "" (available_integrators (chosen_library lib))
               end = chosen_name lib name).
  { unfold chosen_name. destruct name; auto. unfold available_integrators.
    destruct (String.eqb (chosen_library lib) "odeint"); reflexivity. }
  rewrite En.
  destruct (str_in (chosen_name lib name) (available_integrators (chosen_library lib))) eqn:En';
    cbn [negb]; auto.
  apply str_in_spec in En'. tauto.
Qed.

Lemma pd_get_set_same' {A} k (v : A) d : sd_get k (pd_set k v d) = Some v.
Proof.
  induction d as [|[k' v'] d IH]; simpl; [rewrite String.eqb_refl; auto|].
  destruct (String.eqb k k') eqn:E; simpl; rewrite E; auto.
Qed.

Lemma pd_get_set_other' {A} k k' (v : A) d : k <> k' -> sd_get k (pd_set k' v d) = sd_get k d.
Proof.
  intro H. induction d as [|[k2 v2] d IH]; simpl.
  - destruct (String.eqb_spec k k'); congruence.
  - destruct (String.eqb_spec k' k2); simpl.
    + subst. destruct (String.eqb_spec k k2); congruence.
    + destruct (String.eqb k k2); auto.
Qed.

Lemma fixed_step_bool l n : In (l, n) documented ->
  (fixed_step l n <-> String.eqb l "odeint" && negb (str_in n ["dopri5"; "adams"]) = true).
Proof.
  intro H. simpl in H. unfold fixed_step.
  repeat (destruct H as [H|H]; [injection H as <- <-; simpl; split; intros; try discriminate;
    try (split; [reflexivity|]; simpl; tauto); try reflexivity;
    try (destruct H as [? H]; try discriminate; simpl in H;
         repeat (destruct H as [H|H]; [discriminate|]); destruct H)|]).
  destruct H.
Qed.

(** What ends up under every option key of the constructed integrator. *)
Lemma step_size_added_get l n step d k : In (l, n) documented ->
  (k <> "step_size" -> sd_get k (step_size_added l n step d) = sd_get k d) /\
  (forall v, sd_get "step_size" d = Some v -> step_size_added l n step d = d) /\
  (sd_get "step_size" d = None -> forall s, step = Some s -> fixed_step l n ->
     sd_get "step_size" (step_size_added l n step d) = Some (ONum s)) /\
  (~ fixed_step l n \/ step = None -> step_size_added l n step d = d).
Proof.
  intro Hd. unfold step_size_added. pose proof (fixed_step_bool l n Hd) as FB.
  repeat split.
  - intro Hk. destruct step; auto.
    match goal with |- context [if ?c then _ else _] => destruct c end; auto.
    apply pd_get_set_other'; auto.
  - intros v Hv. destruct step; auto. unfold sd_mem. rewrite Hv. simpl.
    rewrite andb_false_r. reflexivity.
  - intros Hn s -> Hf. apply FB in Hf. rewrite Hf. unfold sd_mem. rewrite Hn. simpl. apply pd_get_set_same'.
  - intros [H| ->]; auto. destruct step; auto. rewrite FB in H. apply not_true_is_false in H. rewrite H. reflexivity.
Qed.

(** * The anode guard *)

Section Anode.
Context {X : Type}.
Variable odeint : bool -> string -> opts -> X -> list Qc -> result (list X).
Variable odesolver : opts -> X -> result X.

Definition anode_times (t : list Qc) : Prop :=
  t = [1%Qc] \/ exists a b, t = [a; b] /\ (b - a = 1)%Qc.

Lemma anode_proceeds h i x0 t : anode_times t ->
  exists d, integrate_anode odesolver h i x0 t
    = (heap_set h (i_options i) d, res <- odesolver d x0 ;; Ok [res]) /\
    sd_get "Nt" d = Some (OInt 10) /\
    sd_get "method" d = Some (OStr (if String.eqb (i_name i) "rk2" then "RK2" else "RK4")) /\
    forall k, k <> "Nt" -> k <> "method" -> sd_get k d = sd_get k (heap_get h (i_options i)).
Proof.
  intro Ht. eexists. split; [|split; [|split]].
  - unfold integrate_anode. destruct Ht as [->|[a [b [-> E]]]].
    + replace (Qc_eq_bool 1 1) with true by reflexivity. reflexivity.
    + apply qc_eq_bool_true in E. rewrite E. reflexivity.
  - rewrite pd_get_set_other' by discriminate. apply pd_get_set_same'.
  - apply pd_get_set_same'.
  - intros k H1 H2. rewrite !pd_get_set_other' by auto. reflexivity.
Qed.

Lemma anode_refuses h i x0 t : ~ anode_times t -> t <> [] ->
  integrate_anode odesolver h i x0 t = (h, Raise ValueError).
Proof.
  intros Ht Hn. unfold integrate_anode. destruct t as [|a [|b [|c t]]]; auto; try congruence.
  - destruct (Qc_eq_bool a 1) eqn:E; auto. apply qc_eq_bool_true in E. subst.
    destruct Ht. left; auto.
  - destruct (Qc_eq_bool (b - a)%Qc 1) eqn:E; auto. apply qc_eq_bool_true in E.
    destruct Ht. right. eauto.
Qed.

Lemma anode_one_point h i x0 t h' res :
  integrate_anode odesolver h i x0 t = (h', Ok res) -> List.length res = 1.
Proof.
  unfold integrate_anode.
  match goal with |- context [match ?g with Ok _ => _ | Raise _ => _ end] => destruct g end;
    [|discriminate].
  intro H. injection H as _ H. destruct (odesolver _ x0); [|discriminate].
  injection H as <-. reflexivity.
Qed.

Lemma create_two_points nr dt t ints outs :
  create_integration_time_intervals nr dt t = Ok (ints, outs) ->
  Forall2 (fun i o => 2 <= List.length i /\ List.length i = List.length o) ints outs.
Proof.
  unfold create_integration_time_intervals. destruct t as [|t0 [|t1 t]]; try discriminate.
  destruct (last_item _); [|discriminate]. cbn [bind].
  destruct (checkpoint_times _ _ _ _) as [cp|]; [|discriminate]. cbn [bind].
  unfold intervals_for. destruct cp as [|c0 cp]; [discriminate|].
  destruct (t0 ?= c0)%Qc; try discriminate. destruct cp as [|c1 cp]; [discriminate|].
  intro H. injection H as H.
  pose proof (loop_two_points Qccompare (t1 :: t) (c1 :: cp) [t0] [true]) as P.
  cbv zeta in P. unfold Qccompare in P. 
  match goal with H : ?l = _ |- _ => change l with
    (interval_loop Qccompare (t1 :: t) (c1 :: cp) [t0] [true] [] []) in H end.
  unfold Qccompare in H. rewrite H in P. apply P; auto. discriminate.
Qed.

Lemma anode_checkpoint_loop h i x chunks overall :
  i_library i <> "odeint" ->
  Forall (fun c => 2 <= List.length (fst c) /\ List.length (fst c) = List.length (snd c)) chunks ->
  chunks <> [] ->
  exists h' e, checkpoint_loop odeint odesolver h i overall x chunks = (h', Raise e).
Proof.
  intros L F N. destruct chunks as [|[it o] chunks]; [congruence|].
  inversion F as [|? ? [F1 F2] _]; subst. simpl in F1, F2.
  cbn [checkpoint_loop]. unfold checkpoint_step, integrate_direct.
  destruct (String.eqb_spec (i_library i) "odeint"); [congruence|]. cbn [fst snd].
  destruct (integrate_anode odesolver h i x it) as [h1 [res|e]] eqn:E; [|do 2 eexists; reflexivity].
  apply anode_one_point in E. destruct res as [|r [|]]; try discriminate. cbn [bind last_item rev app].
  destruct (mask_select [r] o) as [s|e] eqn:Em; [|do 2 eexists; reflexivity].
  apply mask_select_length in Em. simpl in Em. lia.
Qed.

Lemma anode_checkpointing h i x0 t h' r :
  i_library i <> "odeint" ->
  ~ (i_nr_of_checkpoints i = None /\ i_checkpointing_time_interval i = None) ->
  integrate odeint odesolver h i x0 t = (h', Ok r) -> r = None.
Proof.
  intros L N. unfold integrate.
  assert (H : integrate_checkpointed odeint odesolver h i x0 t = (h', Ok r) -> r = None).
  { unfold integrate_checkpointed.
    destruct (create_integration_time_intervals _ _ t) as [[ints outs]|] eqn:E; [|discriminate].
    apply create_two_points in E. destruct (combine ints outs) as [|c cs] eqn:Ec.
    - simpl. congruence.
    - assert (F : Forall (fun c => 2 <= List.length (fst c) /\ List.length (fst c) = List.length (snd c))
                    (c :: cs)).
      { rewrite <- Ec. clear - E. induction E; simpl; constructor; auto. }
      destruct (anode_checkpoint_loop h i x0 (c :: cs) None L F) as [h2 [e E2]]; [discriminate|].
      rewrite E2. discriminate. }
  destruct (i_nr_of_checkpoints i), (i_checkpointing_time_interval i); auto. tauto.
Qed.
(** For increasing times there is at least one interval, so anode with
    checkpointing always raises. *)
Lemma anode_checkpointing_raises h i x0 t0 ts tl :
  i_library i <> "odeint" ->
  good_settings (i_nr_of_checkpoints i) (i_checkpointing_time_interval i) ->
  (t0 < tl)%Qc -> StronglySorted Qcle (t0 :: ts ++ [tl]) ->
  exists h' e, integrate odeint odesolver h i x0 (t0 :: ts ++ [tl]) = (h', Raise e).
Proof.
  intros L G H S.
  destruct (create_exact _ _ _ _ _ G H S) as [cp [ints [outs [_ [[m [-> _]] [E [_ [C _]]]]]]]].
  pose proof (create_two_points _ _ _ _ _ E) as P.
  assert (I : exists h' e, integrate_checkpointed odeint odesolver h i x0 (t0 :: ts ++ [tl]) = (h', Raise e)).
  { unfold integrate_checkpointed. rewrite E. apply anode_checkpoint_loop; auto.
    - clear - P. induction P; simpl; constructor; auto.
    - destruct P; [destruct m; destruct C|discriminate]. }
  unfold integrate. destruct G as [[n [En Ed]]|[d [En [Ed _]]]]; rewrite En, ?Ed; exact I.
Qed.
End Anode.

(** * Statements used by the property file *)

Lemma checkpointed_equals_direct (X : Type)
    (odeint : bool -> string -> opts -> X -> list Qc -> result (list X))
    (odesolver : opts -> X -> result X) (phi : Qc -> Qc -> X -> X) h i j x0 t0 ts tl :
  (forall a x, phi a a x = x) ->
  (forall a b c x, (a <= b)%Qc -> (b <= c)%Qc -> phi b c (phi a b x) = phi a c x) ->
  (forall x s0 ss, StronglySorted Qclt (s0 :: ss) ->
     odeint (i_adjoint i) (i_name i) (heap_get h (i_options i)) x (s0 :: ss)
     = Ok (map (fun s => phi s0 s x) (s0 :: ss))) ->
  i_library i = "odeint" -> i_library j = "odeint" ->
  i_adjoint j = i_adjoint i -> i_name j = i_name i -> i_options j = i_options i ->
  i_nr_of_checkpoints i = None -> i_checkpointing_time_interval i = None ->
  good_settings (i_nr_of_checkpoints j) (i_checkpointing_time_interval j) ->
  StronglySorted Qclt (t0 :: ts ++ [tl]) ->
  integrate odeint odesolver h j x0 (t0 :: ts ++ [tl])
  = integrate odeint odesolver h i x0 (t0 :: ts ++ [tl]) /\
  integrate odeint odesolver h i x0 (t0 :: ts ++ [tl])
  = (h, Ok (Some (map (fun s => phi t0 s x0) (t0 :: ts ++ [tl])))).
Proof.
  intros Hs Hc Hf Li Lj Ea En Eo N1 N2 G S.
  assert (D : integrate odeint odesolver h i x0 (t0 :: ts ++ [tl])
    = (h, Ok (Some (map (fun s => phi t0 s x0) (t0 :: ts ++ [tl]))))).
  { apply direct_flow; auto. }
  split; auto. rewrite D. apply checkpointed_flow; auto.
  intros. rewrite Ea, En, Eo. apply Hf; auto.
Qed.

(** One explicit Euler step per requested time for x' = x. *)
Fixpoint euler_steps (t0 : Qc) (x : Qc) (ts : list Qc) : list Qc :=
  match ts with
  | [] => []
  | t :: r => let y := (x + (t - t0) * x)%Qc in y :: euler_steps t y r
  end.
Definition euler_solver (_ : bool) (_ : string) (_ : opts) (x : Qc) (ts : list Qc)
  : result (list Qc) :=
  match ts with [] => Raise IndexError | t0 :: r => Ok (x :: euler_steps t0 x r) end.

Lemma checkpointing_changes_euler :
  exists h i j x0 t h1 h2 r1 r2,
    i_library i = "odeint" /\
    j = mkIntegrator (i_library i) (i_name i) (i_adjoint i) (i_options i) (i_step_size i) (Some 1%Z) None /\
    integrate euler_solver (fun _ x => Ok x) h i x0 t = (h1, Ok (Some r1)) /\
    integrate euler_solver (fun _ x => Ok x) h j x0 t = (h2, Ok (Some r2)) /\ r1 <> r2.
Proof.
  exists [[]], (mkIntegrator "odeint" "euler" false 0 None None None).
  eexists. exists 1%Qc, [0%Qc; 1%Qc]. do 4 eexists.
  split; [reflexivity|]. split; [reflexivity|].
  split; [vm_compute; reflexivity|]. split; [vm_compute; reflexivity|]. discriminate.
Qed.

Lemma times_lost :
  (exists n t r, create_integration_time_intervals (Some n) None t = Ok r /\
     (0 <= n)%Z /\ 2 <= List.length t /\ StronglySorted (fun a b => b < a)%Qc t /\
     exists x, In x t /\ ~ In x (flagged (fst r) (snd r))) /\
  (exists n t r, create_integration_time_intervals (Some n) None t = Ok r /\
     (0 <= n)%Z /\ 2 <= List.length t /\ StronglySorted Qcle t /\
     List.length (flagged (fst r) (snd r)) < List.length t).
Proof.
  split.
  - exists 1%Z, [1%Qc; 0%Qc], ([], []). split; [vm_compute; reflexivity|].
    split; [lia|]. split; [simpl; lia|]. split.
    + repeat constructor.
    + exists 0%Qc. split; [right; left; reflexivity|]. intros [].
  - exists 0%Z, [0%Qc; 1%Qc; 1%Qc]. eexists. split; [vm_compute; reflexivity|].
    split; [lia|]. split; [simpl; lia|]. split.
    + repeat constructor; unfold Qcle; simpl; discriminate.
    + vm_compute. lia.
Qed.

Lemma options_shared :
  exists h a s1 s2 h1 h2 i1 i2,
    new_integrator h None (Some "rk4") false (Some a) (Some s1) None None = (h1, Ok i1) /\
    new_integrator h1 None (Some "rk4") false (Some a) (Some s2) None None = (h2, Ok i2) /\
    heap_get h2 a <> heap_get h a /\ s1 <> s2 /\
    sd_get "step_size" (heap_get h2 (i_options i2)) = Some (ONum s1).
Proof.
  exists [[]], 0, (Q2Qc (1 # 2)), (Q2Qc (1 # 10)). do 4 eexists.
  split; [vm_compute; reflexivity|]. split; [vm_compute; reflexivity|].
  split; [discriminate|]. split; [intro H; discriminate|]. vm_compute. reflexivity.
Qed.

(** The effect on the caller's dictionaries, exactly. *)
Lemma constructor_effect h lib name adj o step nr dt h' i :
  (forall a, o = Some a -> a < List.length h) ->
  new_integrator h lib name adj o step nr dt = (h', Ok i) ->
  (forall b, b < List.length h -> o <> Some b -> heap_get h' b = heap_get h b) /\
  (forall a, o = Some a ->
     (heap_get h' a = heap_get h a \/
      exists s, step = Some s /\ fixed_step (i_library i) (i_name i) /\
        sd_get "step_size" (heap_get h a) = None /\
        sd_get "step_size" (heap_get h' a) = Some (ONum s) /\
        forall k, k <> "step_size" -> sd_get k (heap_get h' a) = sd_get k (heap_get h a))).
Proof.
  intros Ha E.
  assert (Hd : In (chosen_library lib, chosen_name lib name) documented).
  { destruct (in_dec (fun p q : string * string =>
      ltac:(decide equality; apply string_dec)) (chosen_library lib, chosen_name lib name) documented); auto.
    rewrite new_rejects in E by auto. discriminate. }
  destruct (new_ok h lib name adj o step nr dt Hd Ha) as
    [h2 [i2 [E2 [EL [EN [_ [_ [_ [_ [EO [G [_ O]]]]]]]]]]]].
  rewrite E in E2. injection E2 as <- <-. split.
  - intros b Hb Ho. apply O. rewrite EO. destruct o; [congruence|lia].
  - intros a ->. rewrite EO in G.
    destruct (step_size_added_get (i_library i) (i_name i) step (heap_get h a) "step_size") as
      [_ [P1 [P2 P3]]]; [rewrite EL, EN; auto|].
    destruct (sd_get "step_size" (heap_get h a)) as [v|] eqn:Ev.
    + left. rewrite G. eapply P1; eauto.
    + destruct step as [s|]; [|left; rewrite G; apply P3; auto].
      destruct (bool_dec (String.eqb (i_library i) "odeint"
                && negb (str_in (i_name i) ["dopri5"; "adams"])) true) as [B|B].
      * assert (FS : fixed_step (i_library i) (i_name i)).
        { apply fixed_step_bool; auto. rewrite EL, EN; auto. }
        right. exists s. split; auto. split; auto. split; auto.
        rewrite G. split; [apply P2; auto|].
        intros k Hk. apply step_size_added_get; auto. rewrite EL, EN; auto.
      * left. rewrite G. apply P3. left. rewrite fixed_step_bool; auto. rewrite EL, EN; auto.
Qed.

(** Constructor contract in one statement. *)
Lemma constructor_contract h lib name adj o step nr dt :
  (forall a, o = Some a -> a < List.length h) ->
  (~ In (chosen_library lib, chosen_name lib name) documented ->
     new_integrator h lib name adj o step nr dt = (h, Raise ValueError)) /\
  (In (chosen_library lib, chosen_name lib name) documented ->
   exists h' i, new_integrator h lib name adj o step nr dt = (h', Ok i) /\
     i_library i = chosen_library lib /\ i_name i = chosen_name lib name /\
     let given := match o with Some a => heap_get h a | None => [] end in
     let used := heap_get h' (i_options i) in
     (forall k, k <> "step_size" -> sd_get k used = sd_get k given) /\
     (forall v, sd_get "step_size" given = Some v -> sd_get "step_size" used = Some v) /\
     (sd_get "step_size" given = None ->
        (forall s, step = Some s -> fixed_step (i_library i) (i_name i) ->
           sd_get "step_size" used = Some (ONum s)) /\
        (step = None \/ ~ fixed_step (i_library i) (i_name i) -> sd_get "step_size" used = None))).
Proof.
  intro Ha. split; [apply new_rejects|]. intro Hd.
  destruct (new_ok h lib name adj o step nr dt Hd Ha) as
    [h2 [i2 [E2 [EL [EN [_ [_ [_ [_ [EO [G [_ O]]]]]]]]]]]].
  exists h2, i2. split; auto. split; auto. split; auto. cbv zeta. rewrite G.
  assert (Hd' : In (i_library i2, i_name i2) documented) by (rewrite EL, EN; auto).
  split; [|split].
  - intros k Hk. apply step_size_added_get; auto.
  - intros v Hv. destruct (step_size_added_get (i_library i2) (i_name i2) step
      (match o with Some a => heap_get h a | None => [] end) "step_size" Hd') as [_ [P1 _]].
    rewrite (P1 v Hv). exact Hv.
  - intro Hn. destruct (step_size_added_get (i_library i2) (i_name i2) step
      (match o with Some a => heap_get h a | None => [] end) "step_size" Hd') as [_ [_ [P2 P3]]].
    split; [intros; apply P2; auto|]. intro H. rewrite P3; auto. tauto.
Qed.

Lemma any_grid_covers t0 ts a tl cp :
  StronglySorted Qcle (t0 :: ts ++ [tl]) -> last (t0 :: ts) t0 = a -> (a < tl)%Qc ->
  is_grid t0 tl cp ->
  exists ints outs, intervals_for Qccompare (t0 :: ts ++ [tl]) cp = Ok (ints, outs) /\
    flagged ints outs = t0 :: ts ++ [tl].
Proof.
  intros S Ea Ha G. destruct (intervals_exact _ _ _ _ S G) as [ints [outs [E [F _]]]].
  exists ints, outs. split; auto. rewrite F.
  assert (exists l, t0 :: ts = l ++ [a]) as [l El].
  { exists (removelast (t0 :: ts)). subst a. apply app_removelast_last. discriminate. }
  change (t0 :: ts ++ [tl]) with ((t0 :: ts) ++ [tl]) in *. rewrite El in *.
  rewrite <- app_assoc in *. apply filter_all_before; auto.
Qed.

Lemma create_returned_times nr dt t0 ts tl :
  good_settings nr dt -> (t0 < tl)%Qc -> StronglySorted Qcle (t0 :: ts ++ [tl]) ->
  exists ints outs,
    create_integration_time_intervals nr dt (t0 :: ts ++ [tl]) = Ok (ints, outs) /\
    flagged ints outs
    = filter (fun x => match Qccompare x tl with Lt => true | _ => false end) (t0 :: ts ++ [tl])
      ++ [tl].
Proof.
  intros G H S. destruct (create_exact _ _ _ _ _ G H S) as [cp [ints [outs P]]].
  exists ints, outs. tauto.
Qed.

Lemma anode_never_checkpointed (X : Type) odeint (odesolver : opts -> X -> result X) h i x0 t :
  i_library i <> "odeint" ->
  ~ (i_nr_of_checkpoints i = None /\ i_checkpointing_time_interval i = None) ->
  (forall h' r, integrate odeint odesolver h i x0 t = (h', Ok r) -> r = None) /\
  (forall t0 ts tl, t = t0 :: ts ++ [tl] ->
     good_settings (i_nr_of_checkpoints i) (i_checkpointing_time_interval i) ->
     (t0 < tl)%Qc -> StronglySorted Qcle t ->
     exists h' e, integrate odeint odesolver h i x0 t = (h', Raise e)).
Proof.
  intros L N. split.
  - intros h' r. apply anode_checkpointing; auto.
  - intros t0 ts tl -> G H S. apply anode_checkpointing_raises; auto.
Qed.

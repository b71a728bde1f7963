(** Proofs about the interval construction, over an abstract total order. *)
From Coq Require Import List Arith Lia Bool Sorting.Sorted.
From Verif Require Import Base IntegratorModel IntegratorSpec.
Import ListNotations.

Lemma StronglySorted_snoc {T} (R : T -> T -> Prop) l x :
  StronglySorted R l -> Forall (fun y => R y x) l -> StronglySorted R (l ++ [x]).
Proof.
  induction l as [|y l IH]; simpl; intros S F; [repeat constructor|].
  apply StronglySorted_inv in S as [S Fy]. inversion F; subst.
  constructor; auto. apply Forall_app; auto.
Qed.

Lemma combine_snoc {A B} (l1 : list A) (l2 : list B) a b :
  length l1 = length l2 -> combine (l1 ++ [a]) (l2 ++ [b]) = combine l1 l2 ++ [(a, b)].
Proof.
  revert l2; induction l1 as [|x l1 IH]; intros [|y l2] H; simpl in *; try lia; auto.
  f_equal. apply IH; lia.
Qed.

Lemma flagged1_snoc {T} (l : list T) fs x f :
  length l = length fs -> flagged1 (l ++ [x]) (fs ++ [f]) = flagged1 l fs ++ (if f : bool then [x] else []).
Proof.
  intro H. unfold flagged1. rewrite combine_snoc by auto. rewrite filter_app, map_app.
  destruct f; reflexivity.
Qed.

Section Order.
Context {T : Type}.
Variable cmp : T -> T -> comparison.
Hypothesis cmp_eq : forall a b, cmp a b = Eq <-> a = b.
Hypothesis cmp_opp : forall a b, cmp b a = CompOpp (cmp a b).
Hypothesis cmp_trans : forall a b c, cmp a b = Lt -> cmp b c = Lt -> cmp a c = Lt.

Let lt a b := cmp a b = Lt.
Let le a b := cmp a b <> Gt.

Lemma cmp_refl a : cmp a a = Eq.
Proof. apply cmp_eq; auto. Qed.

Lemma cmp_gt a b : cmp a b = Gt -> lt b a.
Proof. unfold lt. intro H. rewrite cmp_opp, H. reflexivity. Qed.

Lemma cmp_lt_irrefl a : ~ lt a a.
Proof. unfold lt. rewrite cmp_refl. discriminate. Qed.

Lemma cmp_lt_le_trans a b c : lt a b -> le b c -> lt a c.
Proof.
  unfold lt, le. intros H1 H2. destruct (cmp b c) eqn:E; try congruence.
  - apply cmp_eq in E. subst; auto.
  - eauto.
Qed.

Lemma cmp_le_antisym a b : le a b -> le b a -> a = b.
Proof.
  unfold le. rewrite (cmp_opp a b). destruct (cmp a b) eqn:E; simpl; try congruence.
  intros _ _. apply cmp_eq; auto.
Qed.

Lemma cmp_lt_le a b : lt a b -> le a b.
Proof. unfold lt, le. congruence. Qed.

Definition ltb a b : bool := match cmp a b with Lt => true | _ => false end.

(** The accumulated intervals are never touched again. *)
Lemma loop_acc ts : forall cps ct co ints outs,
  interval_loop cmp ts cps ct co ints outs
  = (ints ++ fst (interval_loop cmp ts cps ct co [] []),
     outs ++ snd (interval_loop cmp ts cps ct co [] [])).
Proof.
  induction ts as [|t ts IHt]; intros cps.
  - destruct cps; simpl; intros; rewrite !app_nil_r; auto.
  - induction cps as [|c cps IHc]; intros ct co ints outs.
    + simpl. rewrite !app_nil_r; auto.
    + simpl. destruct (cmp c t) eqn:E.
      * rewrite IHt. symmetry. rewrite IHt. simpl. rewrite <- !app_assoc. reflexivity.
      * simpl in IHc. rewrite IHc. symmetry. rewrite IHc. simpl. rewrite <- !app_assoc. reflexivity.
      * rewrite IHt. reflexivity.
Qed.

(** Unfolding one iteration with the accumulators split off. *)
Lemma loop_step t ts c cps ct co :
  interval_loop cmp (t :: ts) (c :: cps) ct co [] []
  = match cmp c t with
    | Gt => interval_loop cmp ts (c :: cps) (ct ++ [t]) (co ++ [true]) [] []
    | Lt => let r := interval_loop cmp (t :: ts) cps [c] [false] [] [] in
            ((ct ++ [c]) :: fst r, (co ++ [false]) :: snd r)
    | Eq => let r := interval_loop cmp ts cps [c] [false] [] [] in
            ((ct ++ [c]) :: fst r, (co ++ [true]) :: snd r)
    end.
Proof.
  simpl. destruct (cmp c t) eqn:E; auto.
  - rewrite loop_acc. reflexivity.
  - change (interval_loop cmp (t :: ts) cps [c] [false] [ct ++ [c]] [co ++ [false]]
            = (let r := interval_loop cmp (t :: ts) cps [c] [false] [] [] in
               ((ct ++ [c]) :: fst r, (co ++ [false]) :: snd r))).
    rewrite loop_acc. reflexivity.
Qed.

Lemma loop_nil_cps ts ct co : interval_loop cmp ts [] ct co [] [] = ([], []).
Proof. destruct ts; reflexivity. Qed.

(** The output of the loop, exactly: all remaining requested times before the
    last one, then the last one once. *)
Lemma loop_flagged tl : forall ts cps ct co,
  length ct = length co ->
  StronglySorted le ts -> StronglySorted lt (cps ++ [tl]) ->
  In tl ts -> Forall (fun t => le t tl) ts ->
  let r := interval_loop cmp ts (cps ++ [tl]) ct co [] [] in
  flagged (fst r) (snd r) = flagged1 ct co ++ filter (fun t => ltb t tl) ts ++ [tl].
Proof.
  induction ts as [|t ts IHt]; [simpl; tauto|].
  intros cps. induction cps as [|c cps IHc]; intros ct co L Sts Scp Hin F.
  - simpl app. rewrite loop_step. inversion F as [|? ? Ft F']; subst.
    apply StronglySorted_inv in Sts as [Sts Fs].
    destruct (cmp tl t) eqn:E.
    + apply cmp_eq in E. subst t. rewrite loop_nil_cps. cbn [fst snd].
      unfold flagged. simpl. rewrite app_nil_r. rewrite flagged1_snoc by auto. f_equal.
      unfold ltb at 1. rewrite cmp_refl.
      replace (filter (fun t => ltb t tl) ts) with (@nil T); auto.
      symmetry. clear - Fs F' cmp_opp cmp_eq.
      induction ts as [|x ts IH]; simpl; auto. inversion Fs; inversion F'; subst.
      assert (tl = x) by (apply cmp_le_antisym; auto). subst x.
      unfold ltb. rewrite cmp_refl. auto.
    + exfalso. unfold le in Ft. rewrite cmp_opp, E in Ft. simpl in Ft. congruence.
    + apply cmp_gt in E. specialize (IHt [] (ct ++ [t]) (co ++ [true])). cbn [app] in IHt.
      cbn zeta in *. rewrite IHt; auto.
      * rewrite flagged1_snoc by auto. simpl. unfold ltb at 2. rewrite E. rewrite <- app_assoc. reflexivity.
      * rewrite !app_length; simpl; lia.
      * destruct Hin; auto. subst. destruct (cmp_lt_irrefl _ E).
  - simpl app in *. apply StronglySorted_inv in Scp as [Scp Fc].
    inversion F as [|? ? Ft F']; subst.
    assert (Hc : lt c tl).
    { rewrite Forall_forall in Fc. apply Fc. apply in_or_app; right; left; auto. }
    rewrite loop_step. destruct (cmp c t) eqn:E.
    + apply cmp_eq in E. subst t. apply StronglySorted_inv in Sts as [Sts Fs]. cbn zeta. cbn [fst snd].
      unfold flagged. simpl. specialize (IHt cps [c] [false]). unfold flagged in IHt. cbn zeta in IHt.
      rewrite IHt; auto.
      * rewrite flagged1_snoc by auto. simpl. unfold ltb at 2. rewrite Hc. rewrite <- app_assoc. reflexivity.
      * destruct Hin; auto. subst. destruct (cmp_lt_irrefl _ Hc).
    + cbn zeta. cbn [fst snd]. unfold flagged. simpl.
      unfold flagged in IHc. cbn zeta in IHc. rewrite IHc; auto.
      rewrite flagged1_snoc by auto. simpl. rewrite app_nil_r. reflexivity.
    + apply cmp_gt in E. apply StronglySorted_inv in Sts as [Sts Fs].
      assert (Ht : lt t tl) by (unfold lt in *; eauto).
      specialize (IHt (c :: cps) (ct ++ [t]) (co ++ [true])). simpl app in IHt. cbn zeta in *.
      rewrite IHt; auto.
      * rewrite flagged1_snoc by auto. simpl. unfold ltb at 2. rewrite Ht. rewrite <- app_assoc. reflexivity.
      * rewrite !app_length; simpl; lia.
      * constructor; auto.
      * destruct Hin; auto. subst. destruct (cmp_lt_irrefl _ Ht).
Qed.

(** The chaining of the intervals. *)
Lemma loop_chained tl : forall ts cps a m co,
  StronglySorted lt (cps ++ [tl]) ->
  In tl ts -> Forall (fun t => le t tl) ts -> length (a :: m) = length co ->
  let r := interval_loop cmp ts (cps ++ [tl]) (a :: m) co [] [] in
  chained (a :: cps ++ [tl]) (fst r) /\
  Forall2 (fun i o => length i = length o) (fst r) (snd r).
Proof.
  induction ts as [|t ts IHt]; [simpl; tauto|].
  intros cps. induction cps as [|c cps IHc]; intros a m co Scp Hin F L.
  - simpl app. rewrite loop_step. inversion F as [|? ? Ft F']; subst.
    destruct (cmp tl t) eqn:E.
    + rewrite loop_nil_cps. simpl. split; [split; [exists m; reflexivity|exact I]|].
      constructor; [|constructor]. simpl. rewrite !app_length. simpl in *. lia.
    + exfalso. unfold le in Ft. rewrite cmp_opp, E in Ft. simpl in Ft. congruence.
    + apply cmp_gt in E. apply (IHt [] a (m ++ [t]) (co ++ [true])); auto.
      * destruct Hin; auto. subst. destruct (cmp_lt_irrefl _ E).
      * simpl in *. rewrite !app_length; simpl; lia.
  - simpl app in *. pose proof Scp as Scp0. apply StronglySorted_inv in Scp as [Scp Fc].
    inversion F as [|? ? Ft F']; subst.
    assert (Hc : lt c tl).
    { rewrite Forall_forall in Fc. apply Fc. apply in_or_app; right; left; auto. }
    assert (Lc : forall b, length ((a :: m) ++ [c]) = length (co ++ [b])).
    { intro. rewrite !app_length; simpl in *; lia. }
    rewrite loop_step. destruct (cmp c t) eqn:E.
    + apply cmp_eq in E. subst t. cbn zeta. cbn [fst snd].
      destruct (IHt cps c [] [false]) as [C P]; auto.
      { destruct Hin; auto. subst. destruct (cmp_lt_irrefl _ Hc). }
      split; [|constructor; auto].
      destruct (cps ++ [tl]) as [|y ys] eqn:Ey; [destruct cps; discriminate|].
      split; [exists m; reflexivity|exact C].
    + cbn zeta. cbn [fst snd].
      destruct (IHc c [] [false]) as [C P]; auto.
      split; [|constructor; auto].
      destruct (cps ++ [tl]) as [|y ys] eqn:Ey; [destruct cps; discriminate|].
      split; [exists m; reflexivity|exact C].
    + apply cmp_gt in E.
      assert (Ht : lt t tl) by (unfold lt in *; eauto).
      apply (IHt (c :: cps) a (m ++ [t]) (co ++ [true])); auto.
      * destruct Hin; auto. subst. destruct (cmp_lt_irrefl _ Ht).
      * simpl in *. rewrite !app_length; simpl; lia.
Qed.

(** Monotonicity inside each interval. *)
Lemma loop_sorted (R : T -> T -> Prop) (R_lt : forall a b, lt a b -> R a b)
    (R_trans : forall a b c, lt a b -> R b c -> R a c) : forall ts cps ct co,
  StronglySorted R ts -> StronglySorted lt cps ->
  StronglySorted R ct -> (forall x y, In x ct -> In y ts -> R x y) ->
  (forall x y, In x ct -> In y cps -> R x y) ->
  Forall (StronglySorted R) (fst (interval_loop cmp ts cps ct co [] [])).
Proof.
  induction ts as [|t ts IHt]; [intros []; simpl; constructor|].
  intros cps. induction cps as [|c cps IHc]; intros ct co Sts Scp Sct H1 H2.
  - simpl. constructor.
  - assert (Snew : StronglySorted R (ct ++ [c])).
    { apply StronglySorted_snoc; auto. apply Forall_forall. intros; apply H2; auto. left; auto. }
    pose proof Sts as Sts0. apply StronglySorted_inv in Sts as [Sts Fs]. rewrite Forall_forall in Fs.
    pose proof Scp as Scp0. apply StronglySorted_inv in Scp as [Scp Fc]. rewrite Forall_forall in Fc.
    rewrite loop_step. destruct (cmp c t) eqn:E; cbn zeta; cbn [fst].
    + apply cmp_eq in E. subst t. constructor; auto. apply IHt; auto.
      * repeat constructor.
      * intros x y [<-|[]]; auto.
      * intros x y [<-|[]]; auto.
    + constructor; auto. apply IHc; auto.
      * repeat constructor.
      * intros x y [<-|[]] [<-|Hy]; [apply R_lt; auto|]. apply R_trans with t; auto.
      * intros x y [<-|[]] Hy. auto.
    + apply cmp_gt in E. apply IHt; auto.
      * apply StronglySorted_snoc; auto. apply Forall_forall. intros; apply H1; auto. left; auto.
      * intros x y Hx Hy. apply in_app_or in Hx. destruct Hx as [Hx|[<-|[]]]; auto.
        apply H1; auto. right; auto.
      * intros x y Hx Hy. apply in_app_or in Hx. destruct Hx as [Hx|[<-|[]]]; auto.
        destruct Hy as [<-|Hy]; auto. apply R_lt. unfold lt in *. eauto.
Qed.

(** Whatever the times and checkpoints are, intervals have at least two points
    and one flag per point. *)
Lemma loop_two_points : forall ts cps ct co,
  ct <> [] -> length ct = length co ->
  let r := interval_loop cmp ts cps ct co [] [] in
  Forall2 (fun i o => 2 <= length i /\ length i = length o) (fst r) (snd r).
Proof.
  induction ts as [|t ts IHt]; [intros []; simpl; constructor|].
  intros cps. induction cps as [|c cps IHc]; intros ct co N L.
  - simpl. constructor.
  - rewrite loop_step.
    assert (Lc : forall x b, length (ct ++ [x]) = length (co ++ [b])).
    { intros. rewrite !app_length; simpl in *; lia. }
    assert (2 <= length (ct ++ [c])).
    { destruct ct; [congruence|]. rewrite app_length; simpl; lia. }
    destruct (cmp c t) eqn:E; cbn zeta; cbn [fst snd].
    + constructor; auto. apply IHt; auto. discriminate.
    + constructor; auto. apply IHc; auto. discriminate.
    + apply IHt; auto. destruct ct; discriminate.
Qed.

Definition times_ok (t : list T) (t0 tl : T) : Prop :=
  exists ts, t = t0 :: ts /\ In tl ts /\ StronglySorted le t /\ Forall (fun x => le x tl) t.

Lemma intervals_for_ok t0 ts cps : ts <> [] -> cps <> [] ->
  intervals_for cmp (t0 :: ts) (t0 :: cps) = Ok (interval_loop cmp ts cps [t0] [true] [] []).
Proof.
  intros H1 H2. unfold intervals_for. rewrite cmp_refl.
  destruct ts; [congruence|]. destruct cps; [congruence|]. reflexivity.
Qed.

Lemma intervals_for_exact t cps t0 tl :
  times_ok t t0 tl -> StronglySorted lt (t0 :: cps ++ [tl]) ->
  exists ints outs,
    intervals_for cmp t (t0 :: cps ++ [tl]) = Ok (ints, outs) /\
    flagged ints outs = filter (fun x => ltb x tl) t ++ [tl] /\
    chained (t0 :: cps ++ [tl]) ints /\
    Forall2 (fun i o => length i = length o) ints outs /\
    Forall (StronglySorted le) ints /\
    (StronglySorted lt t -> Forall (StronglySorted lt) ints).
Proof.
  intros [ts [-> [Hin [S F]]]] Scp.
  rewrite intervals_for_ok by (destruct ts; [destruct Hin|discriminate] || destruct cps; discriminate).
  pose proof Scp as Scp0. pose proof S as S0.
  apply StronglySorted_inv in Scp as [Scp Fc]. apply StronglySorted_inv in S as [S Fs].
  rewrite Forall_forall in Fc.
  inversion F as [|? ? F0 F']; subst.
  destruct (interval_loop cmp ts (cps ++ [tl]) [t0] [true] [] []) as [ints outs] eqn:E.
  exists ints, outs. split; auto.
  assert (H0 : lt t0 tl) by (apply Fc; apply in_or_app; right; left; auto).
  assert (Fs' : forall y, In y ts -> le t0 y) by (apply Forall_forall; auto).
  split; [|split; [|split; [|split]]].
  - pose proof (loop_flagged tl ts cps [t0] [true] eq_refl S Scp Hin F') as P.
    rewrite E in P. simpl in P. rewrite P. simpl. unfold ltb at 2. rewrite H0. reflexivity.
  - pose proof (loop_chained tl ts cps t0 [] [true] Scp Hin F' eq_refl) as P.
    rewrite E in P. apply P.
  - pose proof (loop_chained tl ts cps t0 [] [true] Scp Hin F' eq_refl) as P.
    rewrite E in P. apply P.
  - pose proof (loop_sorted le cmp_lt_le) as P.
    specialize (P (fun a b c H1 H2 => cmp_lt_le _ _ (cmp_lt_le_trans _ _ _ H1 H2))
                  ts (cps ++ [tl]) [t0] [true] S Scp).
    rewrite E in P. apply P; [repeat constructor| |].
    + intros x y [<-|[]] Hy; auto.
    + intros x y [<-|[]] Hy. apply cmp_lt_le. auto.
  - intro Slt. apply StronglySorted_inv in Slt as [Slt Fl].
    pose proof (loop_sorted lt (fun _ _ H => H)) as P.
    specialize (P (fun a b c H1 H2 => cmp_trans _ _ _ H1 H2) ts (cps ++ [tl]) [t0] [true] Slt Scp).
    rewrite E in P. apply P; [repeat constructor| |].
    + intros x y [<-|[]] Hy. rewrite Forall_forall in Fl; auto.
    + intros x y [<-|[]] Hy. auto.
Qed.

Lemma filter_before_last ts a tl : StronglySorted le (ts ++ [a; tl]) -> lt a tl ->
  filter (fun x => ltb x tl) (ts ++ [a; tl]) ++ [tl] = ts ++ [a; tl].
Proof.
  induction ts as [|x ts IH]; simpl; intros S L.
  - unfold ltb at 1. rewrite L. unfold ltb at 1. rewrite cmp_refl. reflexivity.
  - apply StronglySorted_inv in S as [S F]. rewrite Forall_forall in F.
    assert (le x a) by (apply F; apply in_or_app; right; left; auto).
    assert (lt x tl).
    { unfold le in H. destruct (cmp x a) eqn:E; try congruence.
      - apply cmp_eq in E; subst; auto.
      - unfold lt in *. eauto. }
    unfold ltb at 1. rewrite H0. simpl. f_equal. auto.
Qed.
End Order.

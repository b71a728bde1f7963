From Coq Require Import List String ZArith QArith Reals Bool Lia Permutation.
From Verif Require Import Base BaseFacts RecordModel FunctionalModel SpiralModel LoaderModel SeedModel SeedSpec.
Import ListNotations.
Open Scope list_scope.
Open Scope nat_scope.

Section Orders.
Context {G : Type}.
Variable base_seed : G -> G.
Variable randperm : nat -> G -> list nat * G.

Definition due (a : fargs) (itr : Z) : bool :=
  ((itr mod a_test_freq a =? 0) || ((itr mod a_viz_freq a =? 0) || (itr =? a_niters a)))%Z.

Fixpoint ord_list (a : fargs) (g : G) (itrs : list Z) : list (list nat) :=
  match itrs with
  | [] => []
  | itr :: itrs => let (o, g) := randperm 500 (base_seed g) in o :: ord_list a (if due a itr then base_seed g else g) itrs
  end.

Definition usable (a : fargs) : Prop := a_test_freq a <> 0%Z /\ a_viz_freq a <> 0%Z.

Lemma evaluate_events : forall a itr, usable a -> exists e,
  sfm_evaluate a itr = Ok e /\ forall g, fold_left (after_event G base_seed) e g = if due a itr then base_seed g else g.
Proof.
  intros a itr [T V]. unfold sfm_evaluate, multiple_of, due.
  destruct (Z.eqb_spec (a_test_freq a) 0) as [?|_]; [contradiction|].
  destruct (Z.eqb_spec (a_viz_freq a) 0) as [?|_]; [contradiction|].
  unfold py_or. cbn [bind].
  destruct (itr mod a_test_freq a =? 0)%Z, (itr mod a_viz_freq a =? 0)%Z, (itr =? a_niters a)%Z, (a_viz a), (a_save_figures a);
    cbn [orb bind app try_except plateau_step]; eexists; (split; [reflexivity|]); intros g; reflexivity.
Qed.

Lemma orders_fold : forall a itrs os g, usable a -> exists g',
  foldM (order_epoch G base_seed randperm a) itrs (os, g) = Ok (os ++ ord_list a g itrs, g').
Proof.
  induction itrs as [|itr itrs IH]; intros os g U.
  - exists g. cbn. rewrite app_nil_r. reflexivity.
  - destruct (evaluate_events a itr U) as [e [E F]]. cbn [foldM ord_list]. unfold order_epoch at 1.
    destruct (randperm 500 (base_seed g)) as [o g1]. rewrite E. cbn [bind]. rewrite F.
    destruct (IH (os ++ [o]) (if due a itr then base_seed g1 else g1) U) as [g' ->].
    exists g'. rewrite <- app_assoc. reflexivity.
Qed.

Lemma orders_are : forall a g, usable a ->
  sfm_orders G base_seed randperm a g = Ok (ord_list a g (zrange (a_niters a + 1))).
Proof.
  intros a g U. unfold sfm_orders. destruct (orders_fold a (zrange (a_niters a + 1)) [] g U) as [g' ->]. reflexivity.
Qed.

Lemma due_agree : forall a a' itr,
  (evaluated (a_niters a) (a_test_freq a) (a_viz_freq a) itr <-> evaluated (a_niters a') (a_test_freq a') (a_viz_freq a') itr) ->
  due a itr = due a' itr.
Proof.
  assert (S : forall a itr, due a itr = true <-> evaluated (a_niters a) (a_test_freq a) (a_viz_freq a) itr).
  { intros a itr. unfold due, evaluated. rewrite !orb_true_iff, !Z.eqb_eq. reflexivity. }
  intros a a' itr E. rewrite <- !S in E. destruct (due a itr), (due a' itr); try reflexivity.
  - symmetry. apply E. reflexivity.
  - apply E. reflexivity.
Qed.

Lemma ord_prefix : forall a a' k s n m g, k < n -> k < m ->
  (forall i, s <= i < s + k -> due a (Z.of_nat i) = due a' (Z.of_nat i)) ->
  firstn (S k) (ord_list a g (map Z.of_nat (seq s n))) = firstn (S k) (ord_list a' g (map Z.of_nat (seq s m))).
Proof.
  induction k as [|k IH]; intros s n m g N M D.
  - destruct n, m; try lia. cbn [seq map ord_list]. destruct (randperm 500 (base_seed g)). reflexivity.
  - destruct n, m; try lia. cbn [seq map ord_list]. destruct (randperm 500 (base_seed g)) as [o g1].
    rewrite (D s) by lia. cbn [firstn]. f_equal.
    apply (IH (S s) n m); [lia|lia|]. intros i I. apply D. lia.
Qed.

Lemma orders_prefix : forall a a' g os os' k, usable a -> usable a' ->
  sfm_orders G base_seed randperm a g = Ok os -> sfm_orders G base_seed randperm a' g = Ok os' ->
  (Z.of_nat k <= a_niters a)%Z -> (Z.of_nat k <= a_niters a')%Z ->
  (forall i, (0 <= i < Z.of_nat k)%Z ->
     (evaluated (a_niters a) (a_test_freq a) (a_viz_freq a) i <-> evaluated (a_niters a') (a_test_freq a') (a_viz_freq a') i)) ->
  firstn (S k) os = firstn (S k) os'.
Proof.
  intros a a' g os os' k U U' E E' K K' D.
  rewrite (orders_are a g U) in E. rewrite (orders_are a' g U') in E'.
  assert (os = ord_list a g (zrange (a_niters a + 1))) by congruence.
  assert (os' = ord_list a' g (zrange (a_niters a' + 1))) by congruence. subst os os'.
  apply ord_prefix; [lia|lia|]. intros i I. apply due_agree. apply D. lia.
Qed.

Lemma ord_length : forall a itrs g, List.length (ord_list a g itrs) = List.length itrs.
Proof.
  induction itrs as [|i itrs IH]; intros g; [reflexivity|]. cbn [ord_list].
  destruct (randperm 500 (base_seed g)). cbn [List.length]. rewrite IH. reflexivity.
Qed.

Lemma ord_permutations : (forall n g, Permutation (fst (randperm n g)) (seq 0 n)) ->
  forall a itrs g, Forall (fun o => Permutation o (seq 0 500)) (ord_list a g itrs).
Proof.
  intros P a. induction itrs as [|i itrs IH]; intros g; [constructor|]. cbn [ord_list].
  pose proof (P 500 (base_seed g)) as Q. destruct (randperm 500 (base_seed g)) as [o g1]. constructor; [exact Q|apply IH].
Qed.

Lemma orders_complete : (forall n g, Permutation (fst (randperm n g)) (seq 0 n)) ->
  forall a g, usable a -> (0 <= a_niters a)%Z -> exists os,
    sfm_orders G base_seed randperm a g = Ok os /\ List.length os = Z.to_nat (a_niters a + 1) /\
    Forall (fun o => Permutation o (seq 0 500)) os.
Proof.
  intros P a g U N. rewrite (orders_are a g U). eexists. split; [reflexivity|]. split.
  - rewrite ord_length. unfold zrange. rewrite map_length, seq_length. reflexivity.
  - apply ord_permutations, P.
Qed.
End Orders.

Section Windows.
Context {T X G : Type}.
Variable draw : nat -> G -> list nat * G.
Notation ld := (loader T X).
Notation ds := (dataset T X).

(** Without online mode nothing is drawn. *)
Lemma fetch_offline : forall (s : ds) l g, s_online T X s = false -> snd (fetch T X G draw s l g) = g.
Proof.
  intros s l g O. revert g. induction l as [|i l IH]; intros g; [reflexivity|]. cbn [fetch].
  assert (E : exists r, getitem T X G draw s (IInt i) g = (r, g) /\ forall x s', r = Ok (x, s') -> s' = s).
  { unfold getitem. rewrite O. cbn [negb].
    destruct (attribute (s_y0 T X s)) as [u0|]; cbn [bind]; [|eexists; split; [reflexivity|intros; discriminate]].
    destruct (attribute (s_y T X s)) as [u1|]; cbn [bind]; [|eexists; split; [reflexivity|intros; discriminate]].
    destruct (pick X u0 u1 (IInt i)); cbn [bind]; [|eexists; split; [reflexivity|intros; discriminate]].
    eexists; split; [reflexivity|]. intros x s' Q. congruence. }
  destruct E as [r [-> K]].
  destruct r as [[[a b|a b] s']|e]; cbn [snd]; try reflexivity.
  rewrite (K _ _ eq_refl). pose proof (IH g) as I. destruct (fetch T X G draw s l g) as [[[r s2]|e] g2]; cbn [snd] in *; assumption.
Qed.

Lemma fetch_keeps : forall (s : ds) l g r s' g', fetch T X G draw s l g = (Ok (r, s'), g') -> s_online T X s' = s_online T X s.
Proof.
  intros s l. revert s. induction l as [|i l IH]; intros s g r s' g' E; cbn [fetch] in E; [congruence|].
  destruct (getitem T X G draw s (IInt i) g) as [[[[a b|a b] s1]|e] g1] eqn:Q; try discriminate.
  destruct (fetch T X G draw s1 l g1) as [[[r2 s2]|e] g2] eqn:F; try discriminate.
  assert (s2 = s') by congruence. subst s2. rewrite (IH _ _ _ _ _ F). clear IH F E.
  unfold getitem in Q. destruct (s_online T X s) eqn:O; cbn [negb] in Q.
  - destruct (get_batch_g T X G draw (s_data T X s) 1 (s_batch_time T X s) (s_distance_based T X s) g) as [[[[y0 t] y]|e] g3]; try discriminate.
    destruct (pick X y0 y (IInt 0)); cbn [bind] in Q; try discriminate.
    match type of Q with (Ok (_, ?d), _) = _ => assert (s1 = d) by congruence end. subst s1. reflexivity.
  - destruct (attribute (s_y0 T X s)) as [u0|]; cbn [bind] in Q; try discriminate.
    destruct (attribute (s_y T X s)) as [u1|]; cbn [bind] in Q; try discriminate.
    destruct (pick X u0 u1 (IInt i)); cbn [bind] in Q; try discriminate.
    assert (s1 = s) by congruence. subst s1. exact O.
Qed.

Lemma one_batch_offline : forall (s : ds) l g, s_online T X s = false -> snd (one_batch T X G draw s l g) = g.
Proof.
  intros s l g O. unfold one_batch. pose proof (fetch_offline s l g O) as F.
  destruct (fetch T X G draw s l g) as [[[r s2]|e] g2]; exact F.
Qed.

Lemma one_batch_keeps : forall (s : ds) l g y0 t y s' g', one_batch T X G draw s l g = (Ok (y0, t, y, s'), g') ->
  s_online T X s' = s_online T X s.
Proof.
  intros s l g y0 t y s' g' E. unfold one_batch in E.
  destruct (fetch T X G draw s l g) as [[[r s2]|e] g2] eqn:F; [|discriminate].
  destruct (transpose_rows X (map snd r)); cbn [bind] in E; [|discriminate].
  destruct (attribute (s_t T X s2)); cbn [bind] in E; [|discriminate].
  assert (s2 = s') by congruence. subst s2. apply (fetch_keeps _ _ _ _ _ _ F).
Qed.

Lemma batches_offline : forall ls (s : ds) g, s_online T X s = false -> snd (batches T X G draw s ls g) = g.
Proof.
  induction ls as [|l ls IH]; intros s g O; [reflexivity|]. cbn [batches].
  pose proof (one_batch_offline s l g O) as F.
  destruct (one_batch T X G draw s l g) as [[[[[y0 t] y] s1]|e] g1] eqn:E; cbn [snd] in F; subst g1; [|reflexivity].
  pose proof (IH s1 g) as I. rewrite (one_batch_keeps _ _ _ _ _ _ _ _ E) in I. specialize (I O).
  destruct (batches T X G draw s1 ls g) as [[[r s2]|e] g2]; exact I.
Qed.

Lemma first_batch_offline : forall (l : ld) g, s_online T X (l_dataset T X l) = false -> snd (first_batch T X G draw l g) = g.
Proof.
  intros l g O. unfold first_batch, iterate.
  match goal with |- context [batches T X G draw ?s ?ls g] => pose proof (batches_offline ls s g O) as B; destruct (batches T X G draw s ls g) as [[[[|b r] s2]|e] g2] end;
    exact B.
Qed.

(** In online mode only the number of samples asked for counts. *)
Lemma fetch_online : forall (s : ds) l l' g, s_online T X s = true -> List.length l = List.length l' ->
  fetch T X G draw s l g = fetch T X G draw s l' g.
Proof.
  intros s l. revert s. induction l as [|i l IH]; intros s [|j l'] g O L; cbn in L; try discriminate; [reflexivity|].
  assert (E : getitem T X G draw s (IInt i) g = getitem T X G draw s (IInt j) g).
  { unfold getitem. rewrite O. reflexivity. }
  cbn [fetch]. rewrite <- E.
  destruct (getitem T X G draw s (IInt i) g) as [[[[a b|a b] s1]|e] g1] eqn:Q; try reflexivity.
  rewrite (IH s1 l' g1); [reflexivity| |lia].
  assert (K : fetch T X G draw s [i] g = (Ok ([(a, b)], s1), g1)) by (cbn [fetch]; rewrite Q; reflexivity).
  rewrite (fetch_keeps _ _ _ _ _ _ K). exact O.
Qed.

Lemma batches_online : forall ls ls' (s : ds) g, s_online T X s = true -> map (@List.length nat) ls = map (@List.length nat) ls' ->
  batches T X G draw s ls g = batches T X G draw s ls' g.
Proof.
  induction ls as [|l ls IH]; intros [|l' ls'] s g O L; cbn in L; try discriminate; [reflexivity|].
  injection L as L1 L2. cbn [batches].
  assert (E : one_batch T X G draw s l g = one_batch T X G draw s l' g).
  { unfold one_batch. rewrite (fetch_online s l l' g O L1). reflexivity. }
  rewrite <- E. destruct (one_batch T X G draw s l g) as [[[[[y0 t] y] s1]|e] g1] eqn:Q; [|reflexivity].
  rewrite (IH ls' s1 g1); [reflexivity| |exact L2].
  rewrite (one_batch_keeps _ _ _ _ _ _ _ _ Q). exact O.
Qed.

Lemma batches_keep : forall ls (s : ds) g r s' g', batches T X G draw s ls g = (Ok (r, s'), g') -> s_online T X s' = s_online T X s.
Proof.
  induction ls as [|l ls IH]; intros s g r s' g' E; cbn [batches] in E; [congruence|].
  destruct (one_batch T X G draw s l g) as [[[[[y0 t] y] s1]|e] g1] eqn:Q; [|discriminate].
  destruct (batches T X G draw s1 ls g1) as [[[r2 s2]|e] g2] eqn:B; [|discriminate].
  assert (s2 = s') by congruence. subst s2. rewrite (IH _ _ _ _ _ B). apply (one_batch_keeps _ _ _ _ _ _ _ _ Q).
Qed.

Lemma index_batches_lengths : forall b o o', List.length o = List.length o' ->
  map (@List.length nat) (index_batches b o) = map (@List.length nat) (index_batches b o').
Proof.
  intros b o o' L. unfold index_batches. rewrite !map_map, L. apply map_ext. intros i.
  rewrite !firstn_length, !skipn_length, L. reflexivity.
Qed.

Lemma iterate_online : forall (l : ld) o o' g, s_online T X (l_dataset T X l) = true -> List.length o = List.length o' ->
  iterate T X G draw l o g = iterate T X G draw l o' g.
Proof.
  intros l o o' g O L. unfold iterate. apply batches_online; [exact O|].
  destruct (l_shuffle T X l); apply index_batches_lengths; [exact L|reflexivity].
Qed.

(** What an epoch trains on, and the state of numpy's generator afterwards. *)
Lemma epoch_windows : forall a (eval test train : ld) h o itr g bs train' h' g',
  s_online T X (l_dataset T X eval) = false -> s_online T X (l_dataset T X test) = false ->
  window_epoch T X G draw a eval test train h o itr g = (Ok (bs, train', h'), g') ->
  exists s, iterate T X G draw train o g = (Ok (bs, s), g')
    /\ train' = mkLoader T X s (l_batch_size T X train) (l_shuffle T X train)
    /\ h' = (h || negb (Nat.eqb (List.length bs) 0))%bool.
Proof.
  intros a eval test train h o itr g bs train' h' g' OE OT E. unfold window_epoch in E.
  destruct (iterate T X G draw train o g) as [[[bs1 s]|e] g1]; [|discriminate].
  match type of E with context [py_or ?x ?y] => destruct (py_or x y) as [d|e] end; [|discriminate].
  set (hl := (h || negb (Nat.eqb (List.length bs1) 0))%bool) in *.
  assert (F : exists r, (if d then if hl then first_batch T X G draw eval g1 else (Raise NameError, g1) else (Ok tt, g1)) = (r, g1)).
  { destruct d; [|eexists; reflexivity]. destruct hl; [|eexists; reflexivity].
    pose proof (first_batch_offline eval g1 OE) as F. destruct (first_batch T X G draw eval g1) as [r g2]. cbn [snd] in F. subst g2.
    eexists; reflexivity. }
  destruct F as [r F]. rewrite F in E. destruct r as [u|e]; [|discriminate].
  destruct (multiple_of itr (w_viz_freq a)) as [show|e]; [|discriminate].
  assert (F2 : exists r, (if show then first_batch T X G draw test g1 else (Ok tt, g1)) = (r, g1)).
  { destruct show; [|eexists; reflexivity].
    pose proof (first_batch_offline test g1 OT) as F2. destruct (first_batch T X G draw test g1) as [r g2]. cbn [snd] in F2. subst g2.
    eexists; reflexivity. }
  destruct F2 as [r F2]. rewrite F2 in E. destruct r as [u2|e]; [|discriminate].
  injection E as Q1 Q2 Q3 Q4. rewrite <- Q1, <- Q2, <- Q3, <- Q4. exists s. split; [reflexivity|]. split; reflexivity.
Qed.

Lemma epochs_windows : forall a a' (eval test eval' test' : ld) o o' itrs,
  s_online T X (l_dataset T X eval) = false -> s_online T X (l_dataset T X test) = false ->
  s_online T X (l_dataset T X eval') = false -> s_online T X (l_dataset T X test') = false ->
  (forall i, List.length (o i) = List.length (o' i)) ->
  forall (train : ld) h g l l' g' g'', s_online T X (l_dataset T X train) = true ->
  window_epochs T X G draw a eval test o train h itrs g = (Ok l, g') ->
  window_epochs T X G draw a' eval' test' o' train h itrs g = (Ok l', g'') -> l = l' /\ g' = g''.
Proof.
  intros a a' eval test eval' test' o o' itrs OE OT OE' OT' L.
  induction itrs as [|i itrs IH]; intros train h g l l' g' g'' O E E'; cbn [window_epochs] in E, E'; [split; congruence|].
  destruct (window_epoch T X G draw a eval test train h (o i) i g) as [[[[bs t1] h1]|e] g1] eqn:Q; [|discriminate].
  destruct (window_epoch T X G draw a' eval' test' train h (o' i) i g) as [[[[bs' t1'] h1']|e] g1'] eqn:Q'; [|discriminate].
  apply epoch_windows in Q as [s [I [-> ->]]]; [|assumption|assumption].
  apply epoch_windows in Q' as [s' [I' [-> ->]]]; [|assumption|assumption].
  rewrite (iterate_online train (o i) (o' i) g O (L i)) in I.
  assert (bs' = bs) by congruence. assert (s' = s) by congruence. assert (g1' = g1) by congruence. subst bs' s' g1'.
  assert (OS : s_online T X s = true).
  { unfold iterate in I. rewrite (batches_keep _ _ _ _ _ _ I). exact O. }
  match type of E with context [window_epochs T X G draw a eval test o ?t ?hh itrs g1] =>
    destruct (window_epochs T X G draw a eval test o t hh itrs g1) as [[l1|e] g2] eqn:W end; [|discriminate].
  match type of E' with context [window_epochs T X G draw a' eval' test' o' ?t ?hh itrs g1] =>
    destruct (window_epochs T X G draw a' eval' test' o' t hh itrs g1) as [[l1'|e] g2'] eqn:W' end; [|discriminate].
  destruct (IH (mkLoader T X s (l_batch_size T X train) (l_shuffle T X train)) _ _ _ _ _ _ OS W W') as [-> ->]. split; congruence.
Qed.

Lemma loaders_online : forall bt bs dd lr d n1 n2 n3 n4 g train eval short test g',
  LoaderModel.get_function_data_loaders T X G draw bt bs dd lr d n1 n2 n3 n4 g = (Ok (train, eval, short, test), g') ->
  s_online T X (l_dataset T X train) = true /\ s_online T X (l_dataset T X eval) = false /\ s_online T X (l_dataset T X test) = false.
Proof.
  assert (D : forall lr d nr bt db v on g r g', LoaderModel.function_dataset T X G draw lr d nr bt db v on g = (Ok r, g') ->
              s_online T X r = on).
  { intros lr d nr bt db v on g r g' E. unfold LoaderModel.function_dataset in E. destruct on; cbn [negb] in E.
    - assert (r = mkDataset T X d v lr true db bt nr None None None) by congruence. subst r. reflexivity.
    - destruct (create_data T X G draw d v lr db bt nr g) as [[[[y0 t] y]|e] g2]; [|discriminate].
      assert (r = mkDataset T X d v lr false db bt nr (Some y0) (Some t) (Some y)) by congruence. subst r. reflexivity. }
  assert (L : forall s z b l, data_loader T X s z b = Ok l -> l_dataset T X l = s).
  { intros s z b l E. unfold data_loader in E. destruct (z <=? 0)%Z; [discriminate|]. injection E as <-. reflexivity. }
  intros bt bs dd lr d n1 n2 n3 n4 g train eval short test g' E. unfold LoaderModel.get_function_data_loaders in E.
  destruct (LoaderModel.function_dataset T X G draw lr d n1 bt (negb dd) false true g) as [[s1|e] g1] eqn:F1; [|discriminate].
  destruct (data_loader T X s1 bs true) as [l1|e] eqn:L1; [|discriminate].
  destruct (LoaderModel.function_dataset T X G draw lr d n2 bt (negb dd) false false g1) as [[s2|e] g2] eqn:F2; [|discriminate].
  destruct (data_loader T X s2 (Z.of_nat n2) false) as [l2|e] eqn:L2; [|discriminate].
  destruct (LoaderModel.function_dataset T X G draw lr d n3 bt (negb dd) false false g2) as [[s3|e] g3] eqn:F3; [|discriminate].
  destruct (data_loader T X s3 (Z.of_nat n3) false) as [l3|e] eqn:L3; [|discriminate].
  match type of E with context [LoaderModel.function_dataset T X G draw lr d ?n bt ?db true false g3] =>
    destruct (LoaderModel.function_dataset T X G draw lr d n bt db true false g3) as [[s4|e] g4] eqn:F4 end; [|discriminate].
  match type of E with context [data_loader T X s4 ?z false] => destruct (data_loader T X s4 z false) as [l4|e] eqn:L4 end; [|discriminate].
  assert (l1 = train) by congruence. assert (l2 = eval) by congruence. assert (l4 = test) by congruence. subst.
  rewrite (L _ _ _ _ L1), (L _ _ _ _ L2), (L _ _ _ _ L4).
  split; [apply (D _ _ _ _ _ _ _ _ _ _ F1)|]. split; [apply (D _ _ _ _ _ _ _ _ _ _ F2)|apply (D _ _ _ _ _ _ _ _ _ _ F4)].
Qed.

(** The options which count. *)
Definition same_sampling (a a' : sargs) : Prop :=
  w_batch_time a = w_batch_time a' /\ w_batch_size a = w_batch_size a' /\
  w_disable_distance_based a = w_disable_distance_based a' /\ w_long_range a = w_long_range a' /\
  w_custom_init a = w_custom_init a' /\ (w_custom_init a = true -> w_particles a = w_particles a') /\ w_niters a = w_niters a'.

Lemma windows_same : forall a a' d o o' g l l' g' g'', same_sampling a a' ->
  (forall i, List.length (o i) = List.length (o' i)) ->
  spiral_windows T X G draw a d o g = (Ok l, g') -> spiral_windows T X G draw a' d o' g = (Ok l', g'') ->
  l = l' /\ g' = g''.
Proof.
  intros a a' d o o' g l l' g' g'' [E1 [E2 [E3 [E4 [E5 [E6 E7]]]]]] L W W'. unfold spiral_windows in W, W'.
  rewrite <- E1, <- E2, <- E3, <- E4, <- E5, <- E7 in W'.
  match type of W with context [LoaderModel.get_function_data_loaders T X G draw ?q1 ?q2 ?q3 ?q4 d ?q5 ?q6 ?q7 ?q8 g] =>
    destruct (LoaderModel.get_function_data_loaders T X G draw q1 q2 q3 q4 d q5 q6 q7 q8 g) as [[[[[train eval] short] test]|e] g1] eqn:Q end;
    [|discriminate].
  apply loaders_online in Q as [OT [OE OV]].
  match type of W with context [get_batch_g T X G draw d ?q1 (w_batch_time a) ?q3 g1] =>
    destruct (get_batch_g T X G draw d q1 (w_batch_time a) q3 g1) as [[b|e] g2] end; [|discriminate].
  destruct (w_custom_init a).
  - rewrite <- (E6 eq_refl) in W'.
    destruct (get_batch_g T X G draw d (w_particles a) 1 true g2) as [[c|e] g3]; [|discriminate].
    apply (epochs_windows a a' eval test eval test o o' _ OE OV OE OV L train false g3 _ _ _ _ OT W W').
  - apply (epochs_windows a a' eval test eval test o o' _ OE OV OE OV L train false g2 _ _ _ _ OT W W').
Qed.
(** The windows of the first epochs do not depend on how many epochs follow. *)
Lemma epochs_prefix : forall a a' (eval test eval' test' : ld) o o' itrs more,
  s_online T X (l_dataset T X eval) = false -> s_online T X (l_dataset T X test) = false ->
  s_online T X (l_dataset T X eval') = false -> s_online T X (l_dataset T X test') = false ->
  (forall i, List.length (o i) = List.length (o' i)) ->
  forall (train : ld) h g l l' g' g'', s_online T X (l_dataset T X train) = true ->
  window_epochs T X G draw a eval test o train h itrs g = (Ok l, g') ->
  window_epochs T X G draw a' eval' test' o' train h (itrs ++ more) g = (Ok l', g'') -> l = firstn (List.length itrs) l'.
Proof.
  intros a a' eval test eval' test' o o' itrs more OE OT OE' OT' L.
  induction itrs as [|i itrs IH]; intros train h g l l' g' g'' O E E'; cbn [window_epochs] in E; [injection E as <- _; reflexivity|].
  change ((i :: itrs) ++ more) with (i :: (itrs ++ more)) in E'. cbn [window_epochs] in E'.
  destruct (window_epoch T X G draw a eval test train h (o i) i g) as [[[[bs t1] h1]|e] g1] eqn:Q; [|discriminate].
  destruct (window_epoch T X G draw a' eval' test' train h (o' i) i g) as [[[[bs' t1'] h1']|e] g1'] eqn:Q'; [|discriminate].
  apply epoch_windows in Q as [s [I [-> ->]]]; [|assumption|assumption].
  apply epoch_windows in Q' as [s' [I' [-> ->]]]; [|assumption|assumption].
  rewrite (iterate_online train (o i) (o' i) g O (L i)) in I.
  assert (bs' = bs) by congruence. assert (s' = s) by congruence. assert (g1' = g1) by congruence. subst bs' s' g1'.
  assert (OS : s_online T X s = true).
  { unfold iterate in I. rewrite (batches_keep _ _ _ _ _ _ I). exact O. }
  match type of E with context [window_epochs T X G draw a eval test o ?t ?hh itrs g1] =>
    destruct (window_epochs T X G draw a eval test o t hh itrs g1) as [[l1|e] g2] eqn:W end; [|discriminate].
  match type of E' with context [window_epochs T X G draw a' eval' test' o' ?t ?hh ?is g1] =>
    destruct (window_epochs T X G draw a' eval' test' o' t hh is g1) as [[l1'|e] g2'] eqn:W' end; [|discriminate].
  pose proof (IH (mkLoader T X s (l_batch_size T X train) (l_shuffle T X train)) _ _ _ _ _ _ OS W W') as R.
  injection E as <- _. injection E' as <- _. cbn [List.length firstn]. rewrite R. reflexivity.
Qed.

Lemma zrange_app n m : (n <= m)%Z -> exists more, zrange m = zrange n ++ more.
Proof.
  intros H. exists (map Z.of_nat (seq (Z.to_nat n) (Z.to_nat m - Z.to_nat n))). unfold zrange. rewrite <- map_app.
  replace (Z.to_nat m) with (Z.to_nat n + (Z.to_nat m - Z.to_nat n)) at 1 by lia. rewrite seq_app. reflexivity.
Qed.

Lemma windows_prefix : forall a a' d o o' g l l' g' g'',
  w_batch_time a = w_batch_time a' /\ w_batch_size a = w_batch_size a' /\
  w_disable_distance_based a = w_disable_distance_based a' /\ w_long_range a = w_long_range a' /\
  w_custom_init a = w_custom_init a' /\ (w_custom_init a = true -> w_particles a = w_particles a') /\ (w_niters a <= w_niters a')%Z ->
  (forall i, List.length (o i) = List.length (o' i)) ->
  spiral_windows T X G draw a d o g = (Ok l, g') -> spiral_windows T X G draw a' d o' g = (Ok l', g'') ->
  l = firstn (Z.to_nat (w_niters a + 1)) l'.
Proof.
  intros a a' d o o' g l l' g' g'' [E1 [E2 [E3 [E4 [E5 [E6 E7]]]]]] L W W'. unfold spiral_windows in W, W'.
  rewrite <- E1, <- E2, <- E3, <- E4, <- E5 in W'.
  match type of W with context [LoaderModel.get_function_data_loaders T X G draw ?q1 ?q2 ?q3 ?q4 d ?q5 ?q6 ?q7 ?q8 g] =>
    destruct (LoaderModel.get_function_data_loaders T X G draw q1 q2 q3 q4 d q5 q6 q7 q8 g) as [[[[[train eval] short] test]|e] g1] eqn:Q end;
    [|discriminate].
  apply loaders_online in Q as [OT [OE OV]].
  match type of W with context [get_batch_g T X G draw d ?q1 (w_batch_time a) ?q3 g1] =>
    destruct (get_batch_g T X G draw d q1 (w_batch_time a) q3 g1) as [[b|e] g2] end; [|discriminate].
  destruct (zrange_app (w_niters a + 1) (w_niters a' + 1) ltac:(lia)) as [more M]. rewrite M in W'.
  replace (Z.to_nat (w_niters a + 1)) with (List.length (zrange (w_niters a + 1))) by (unfold zrange; rewrite map_length, seq_length; reflexivity).
  destruct (w_custom_init a).
  - rewrite <- (E6 eq_refl) in W'.
    destruct (get_batch_g T X G draw d (w_particles a) 1 true g2) as [[c|e] g3]; [|discriminate].
    apply (epochs_prefix a a' eval test eval test o o' _ _ OE OV OE OV L train false g3 _ _ _ _ OT W W').
  - apply (epochs_prefix a a' eval test eval test o o' _ _ OE OV OE OV L train false g2 _ _ _ _ OT W W').
Qed.
End Windows.

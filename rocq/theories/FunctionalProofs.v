(** Proofs about the main loops of simple_functional_mapping_example.py and spiral.py. *)
From Coq Require Import String.
From Coq Require Import List ZArith QArith Bool Lia.
From Verif Require Import Base FunctionalModel FunctionalSpec.
Import ListNotations.
Open Scope list_scope.
Open Scope Z_scope.

Lemma particles_used_iff : forall a, particles_used a = true <-> has_particles a.
Proof.
  intros a. unfold particles_used, has_particles.
  destruct (a_particle_free_rnn a), (a_particle_free_time a); cbn; intuition congruence.
Qed.

Lemma multiple_of_spec : forall k f b, multiple_of k f = Ok b -> b = true <-> (f | k).
Proof.
  intros k f b. unfold multiple_of. destruct (f =? 0) eqn:E; [discriminate|].
  apply Z.eqb_neq in E. intros H. injection H as <-. rewrite Z.eqb_eq.
  split; [now apply Z.mod_divide | now apply Z.mod_divide].
Qed.

Lemma multiple_of_ok : forall k f, f <> 0 -> exists b, multiple_of k f = Ok b.
Proof. intros k f H. unfold multiple_of. destruct (Z.eqb_spec f 0); [contradiction|]. eauto. Qed.

Lemma py_or_spec : forall x y b (P Q : Prop),
  (forall c, x = Ok c -> c = true <-> P) -> (forall c, y = Ok c -> c = true <-> Q) ->
  py_or x y = Ok b -> b = true <-> P \/ Q.
Proof.
  intros [c|e] y b P Q HP HQ; cbn; [|discriminate]. specialize (HP c eq_refl).
  destruct c; intros H.
  - injection H as <-. intuition.
  - specialize (HQ b H). split; [intros Hb; right; now apply HQ|].
    intros [p|q]; [apply HP in p; discriminate | now apply HQ].
Qed.

Lemma due_spec : forall a k b,
  py_or (multiple_of k (a_test_freq a))
    (py_or (multiple_of k (a_viz_freq a)) (Ok (k =? a_niters a))) = Ok b -> b = true <-> due a k.
Proof.
  intros a k b. apply py_or_spec.
  - intros c. apply multiple_of_spec.
  - intros c. apply py_or_spec.
    + intros c'. apply multiple_of_spec.
    + intros c' H. injection H as <-. apply Z.eqb_eq.
Qed.

Lemma only_if_bool : forall (b : bool) (P : Prop) e, (b = true <-> P) -> only_if P e (if b then [e] else []).
Proof.
  intros [] P e H; [left | right]; split; try reflexivity; [now apply H|].
  intros p. apply H in p. discriminate.
Qed.

(** An epoch loop whose state is a flag determined by the epoch, plus the log. *)
Lemma fold_days : forall (St : Type) (f : St * list event -> Z -> result (St * list event))
    (inv : Z -> St -> Prop) (day : Z -> list event -> Prop),
  (forall k s log s' log', 0 <= k -> inv k s -> f (s, log) k = Ok (s', log') ->
     inv (k + 1) s' /\ exists d, log' = log ++ d /\ day k d) ->
  forall m n s log s' log', inv (Z.of_nat n) s ->
    foldM f (map Z.of_nat (seq n m)) (s, log) = Ok (s', log') ->
    exists days, log' = log ++ concat days /\ length days = m /\
      forall k d, nth_error days k = Some d -> day (Z.of_nat (n + k)) d.
Proof.
  intros St f inv day Hf m. induction m as [|m IH]; intros n s log s' log' Hi H; cbn [seq map foldM] in H.
  - injection H as <- <-. exists []. rewrite app_nil_r. repeat split. intros [|k] d E; discriminate.
  - destruct (f (s, log) (Z.of_nat n)) as [[s1 log1]|e] eqn:E; [|discriminate]. cbn [bind] in H.
    destruct (Hf _ _ _ _ _ (Nat2Z.is_nonneg n) Hi E) as [Hi1 [d [-> Hd]]].
    replace (Z.of_nat n + 1) with (Z.of_nat (S n)) in Hi1 by lia.
    destruct (IH (S n) _ _ _ _ Hi1 H) as [days [-> [Hl Hdays]]].
    exists (d :: days). cbn [concat length]. rewrite app_assoc. repeat split; [lia|].
    intros [|k] d' Ek; cbn in Ek.
    + injection Ek as <-. now rewrite Nat.add_0_r.
    + replace (n + S k)%nat with (S n + k)%nat by lia. now apply Hdays.
Qed.

(** The value of the flag before epoch [k]. *)
Definition flag_before (a : fargs) (p : bool) (k : Z) (s : bool) : Prop :=
  s = true <-> (p = true /\ a_freezing a = true /\ (a_unfreeze_at a < 0 \/ k <= a_unfreeze_at a)).

Lemma flag_step : forall a k s, 0 <= k -> flag_before a (particles_used a) k s ->
  let s' := if particles_used a && a_freezing a && (k =? a_unfreeze_at a) then false else s in
  flag_before a (particles_used a) (k + 1) s' /\ (s' = true <-> q1_fixed a k).
Proof.
  intros a k s Hk H. unfold flag_before, q1_fixed in *. rewrite <- particles_used_iff.
  destruct (particles_used a), (a_freezing a); cbn; try (destruct s; intuition congruence).
  destruct (Z.eqb_spec k (a_unfreeze_at a)).
  - split; split; intros; try discriminate; lia.
  - rewrite H. split; split; intros; intuition lia.
Qed.

Lemma evaluate_day : forall a k e, sfm_evaluate a k = Ok e -> exists ev sc sh,
  e = ev ++ sc ++ sh /\
  only_if (due a k) (Evaluate k) ev /\
  only_if (a_test_freq a | k) (Sched k) sc /\
  only_if ((a_viz a = true \/ a_save_figures a = true) /\
           ((a_viz_freq a | k) \/ k = a_niters a)) (Show k) sh.
Proof.
  intros a k e. unfold sfm_evaluate.
  destruct (py_or _ _) as [[]|] eqn:ED; cbn [bind]; try discriminate.
  - apply due_spec in ED. assert (D : due a k) by now apply ED. clear ED.
    destruct (multiple_of k (a_test_freq a)) as [t|] eqn:ET; cbn [bind]; [|discriminate].
    pose proof (multiple_of_spec _ _ _ ET) as HT.
    replace (if t then try_except (plateau_step None) (plateau_step (Some k)) else Ok [])
      with (Ok (if t then [Sched k] else [])) by (destruct t; reflexivity).
    cbn [bind].
    destruct (a_viz a || a_save_figures a) eqn:EV.
    + destruct (py_or (multiple_of k (a_viz_freq a)) _) as [sh|] eqn:ES; cbn [bind]; [|discriminate].
      intros H. injection H as <-.
      exists [Evaluate k], (if t then [Sched k] else []), (if sh then [Show k] else []).
      split; [reflexivity|]. split; [left; now split|]. split; [now apply only_if_bool|].
      apply only_if_bool.
      assert (HS : sh = true <-> (a_viz_freq a | k) \/ k = a_niters a).
      { revert ES. apply py_or_spec; [intros c; apply multiple_of_spec|].
        intros c H. injection H as <-. apply Z.eqb_eq. }
      rewrite HS. apply orb_true_iff in EV. tauto.
    + cbn [bind]. intros H. injection H as <-.
      exists [Evaluate k], (if t then [Sched k] else []), [].
      split; [reflexivity|]. split; [left; now split|]. split; [now apply only_if_bool|].
      right. split; [|reflexivity]. apply orb_false_iff in EV. destruct EV. intuition congruence.
  - intros H. injection H as <-. apply due_spec in ED.
    assert (D : ~ due a k) by (intros D; apply ED in D; discriminate).
    exists [], [], []. split; [reflexivity|]. unfold due in D.
    repeat split; right; split; try reflexivity; tauto.
Qed.

Lemma sfm_main_days : forall a log, sfm_main a = Ok log ->
  ~ baseline a /\ 0 < a_batch_size a /\ made_of (sfm_day a (500 / a_batch_size a)) (a_niters a + 1) log
  \/ a_niters a < 0 /\ log = [].
Proof.
  intros a log. unfold sfm_main, len_loader. destruct (Z.leb_spec (a_batch_size a) 0) as [|Hb]; [discriminate|].
  cbn [bind].
  destruct (g_use_shooting (select a)) eqn:ES.
  - assert (NB : ~ baseline a).
    { unfold baseline, select in *.
      destruct (a_use_rnn a), (a_use_double_resnet_rnn a), (a_use_updown a), (a_use_simple_resnet a),
        (a_use_double_resnet a), (a_use_neural_ode a); try discriminate ES; intuition discriminate. }
    unfold setup_params. rewrite ES. cbn [negb bind read_global g_weight_decay g_uses_particles].
    destruct (foldM _ _ _) as [[s' log']|e] eqn:E; [|discriminate]. cbn [bind snd]. intros H. injection H as <-.
    left. split; [exact NB|]. split; [exact Hb|].
    unfold zrange in E.
    eapply (fold_days bool _ (flag_before a (particles_used a)) (sfm_day a (500 / a_batch_size a))) in E.
    + destruct E as [days [-> [Hl Hd]]]. exists days. cbn [app]. repeat split; assumption.
    + intros k s lg s1 lg1 Hk Hi. unfold sfm_epoch. cbn [g_uses_particles read_global bind].
      destruct (flag_step a k s Hk Hi) as [F1 F2].
      set (s2 := if particles_used a && a_freezing a && (k =? a_unfreeze_at a) then false else s) in *.
      unfold sfm_train. destruct (_ && (0 <? 500 / a_batch_size a)); [discriminate|]. cbn [bind].
      destruct (sfm_evaluate a k) as [ev|] eqn:EE; [|discriminate]. cbn [bind].
      intros H. injection H as <- <-. split; [exact F1|].
      destruct (evaluate_day _ _ _ EE) as (v & sc & sh & -> & H1 & H2 & H3).
      exists (repeat (Train k s2) (Z.to_nat (500 / a_batch_size a)) ++ v ++ sc ++ sh).
      split; [reflexivity|]. exists s2, v, sc, sh. tauto.
    + unfold flag_before. change (Z.of_nat 0) with 0.
      destruct (particles_used a), (a_freezing a); intuition (try congruence); lia.
  - assert (NP : g_uses_particles (select a) = None).
    { unfold select. destruct (a_use_rnn a), (a_use_double_resnet_rnn a), (a_use_updown a), (a_use_simple_resnet a),
        (a_use_double_resnet a), (a_use_neural_ode a); reflexivity. }
    destruct (setup_params a (select a)) as [g|] eqn:EG; [|discriminate]. cbn [bind].
    assert (g = select a) as ->.
    { revert EG. unfold setup_params. rewrite ES. cbn [negb].
      destruct (a_use_neural_ode a), (g_func (select a)), (g_net (select a)); congruence. }
    destruct (read_global (g_weight_decay (select a))); [|discriminate]. cbn [bind]. rewrite NP.
    unfold zrange. destruct (Z.to_nat (a_niters a + 1)) as [|n] eqn:EN.
    + cbn. intros H. injection H as <-. right. split; [lia|reflexivity].
    + cbn [seq map foldM sfm_epoch]. rewrite NP. discriminate.
Qed.

Lemma sfm_baseline_raises : forall a, baseline a -> 0 < a_batch_size a -> 0 <= a_niters a ->
  sfm_main a = Raise (if a_use_neural_ode a
                        && (a_use_rnn a || a_use_double_resnet_rnn a || a_use_updown a
                            || a_use_simple_resnet a || a_use_double_resnet a)
                      then AttributeError else NameError).
Proof.
  intros a HB Hb Hn. unfold sfm_main, len_loader. destruct (Z.leb_spec (a_batch_size a) 0) as [|_]; [lia|].
  cbn [bind]. unfold zrange. destruct (Z.to_nat (a_niters a + 1)) as [|n] eqn:EN; [lia|].
  cbn [seq map foldM]. unfold baseline in HB. unfold setup_params, select.
  destruct (a_use_rnn a), (a_use_double_resnet_rnn a), (a_use_updown a), (a_use_simple_resnet a),
    (a_use_double_resnet a), (a_use_neural_ode a); try reflexivity; intuition discriminate.
Qed.

Lemma foldM_total : forall (St A : Type) (f : St -> A -> result St),
  (forall s x, exists s', f s x = Ok s') -> forall l s, exists s', foldM f l s = Ok s'.
Proof.
  intros St A f Hf l. induction l as [|x l IH]; intros s; cbn.
  - eauto.
  - destruct (Hf s x) as [s1 ->]. cbn. apply IH.
Qed.

Lemma sfm_shooting_runs : forall a, ~ baseline a -> 0 < a_batch_size a ->
  a_test_freq a <> 0 -> a_viz_freq a <> 0 ->
  (a_clamp_range a = true -> has_particles a \/ 500 < a_batch_size a) ->
  exists log, sfm_main a = Ok log.
Proof.
  intros a NB Hb Ht Hv Hc. unfold sfm_main, len_loader. destruct (Z.leb_spec (a_batch_size a) 0) as [|_]; [lia|].
  cbn [bind].
  assert (ES : g_use_shooting (select a) = true).
  { unfold baseline, select in *. destruct (a_use_rnn a), (a_use_double_resnet_rnn a), (a_use_updown a),
      (a_use_simple_resnet a), (a_use_double_resnet a), (a_use_neural_ode a); try reflexivity; exfalso; tauto. }
  unfold setup_params. rewrite ES. cbn [negb bind read_global g_weight_decay g_uses_particles].
  match goal with |- context [foldM ?f ?l ?s] => assert (exists s', foldM f l s = Ok s') as [s' ->] end.
  - apply foldM_total. intros [s lg] k. unfold sfm_epoch. cbn [g_uses_particles read_global bind].
    assert (T : forall fr, sfm_train a (mkGlobals true (g_net (select a)) (g_func (select a)) (Some 0%Q) (Some (particles_used a)))
                  (500 / a_batch_size a) k fr = Ok (repeat (Train k fr) (Z.to_nat (500 / a_batch_size a)))).
    { intros fr. unfold sfm_train. cbn [g_use_shooting]. rewrite andb_true_r.
      destruct (a_clamp_range a); [|reflexivity]. destruct (Hc eq_refl) as [P|P].
      - apply particles_used_iff in P. now rewrite P.
      - rewrite (Z.div_small 500) by lia. now rewrite !andb_false_r. }
    rewrite T. cbn [bind].
    assert (E : exists e, sfm_evaluate a k = Ok e).
    { unfold sfm_evaluate. destruct (multiple_of_ok k _ Ht) as [t ->], (multiple_of_ok k _ Hv) as [v ->].
      destruct t, v, (k =? a_niters a), (a_viz a || a_save_figures a); cbn; eauto. }
    destruct E as [e ->]. cbn [bind]. eauto.
  - cbn [bind]. eauto.
Qed.

(** Options that make the run fail although shooting was asked for. *)
Lemma sfm_clamp_raises : forall a, ~ baseline a -> 0 < a_batch_size a <= 500 -> 0 <= a_niters a ->
  a_clamp_range a = true -> ~ has_particles a -> sfm_main a = Raise KeyError.
Proof.
  intros a NB Hb Hn Hc HP. unfold sfm_main, len_loader. destruct (Z.leb_spec (a_batch_size a) 0) as [|_]; [lia|].
  cbn [bind].
  assert (ES : g_use_shooting (select a) = true).
  { unfold baseline, select in *. destruct (a_use_rnn a), (a_use_double_resnet_rnn a), (a_use_updown a),
      (a_use_simple_resnet a), (a_use_double_resnet a), (a_use_neural_ode a); try reflexivity; exfalso; tauto. }
  unfold setup_params. rewrite ES. cbn [negb bind read_global g_weight_decay g_uses_particles].
  unfold zrange. destruct (Z.to_nat (a_niters a + 1)) as [|n] eqn:EN; [lia|].
  cbn [seq map foldM]. unfold sfm_epoch at 1. cbn [g_uses_particles read_global bind].
  unfold sfm_train. rewrite Hc. cbn [g_use_shooting].
  assert (particles_used a = false) as ->.
  { destruct (particles_used a) eqn:E; [|reflexivity]. apply particles_used_iff in E. contradiction. }
  assert (0 < 500 / a_batch_size a) by (apply Z.div_str_pos; lia).
  destruct (Z.ltb_spec 0 (500 / a_batch_size a)); [reflexivity|lia].
Qed.

Lemma spiral_main_days : forall a log, spiral_main a = Ok log ->
  made_of (spiral_day a (100 / a_batch_size a)) (a_niters a + 1) log.
Proof.
  intros a log. unfold spiral_main, len_loader. destruct (Z.leb_spec (a_batch_size a) 0) as [|Hb]; [discriminate|].
  cbn [bind]. destruct (foldM _ _ _) as [[[s' hl'] log']|e] eqn:E; [|discriminate]. cbn [bind snd].
  intros H. injection H as <-. unfold zrange in E.
  eapply (fold_days (bool * bool) _ (fun k s => flag_before a (particles_used a) k (fst s))
            (spiral_day a (100 / a_batch_size a))) in E.
  - destruct E as [days [-> [Hl Hd]]]. exists days. cbn [app]. repeat split; assumption.
  - intros k [s hl] lg [s1 hl1] lg1 Hk Hi. cbn [fst] in Hi. unfold spiral_epoch.
    destruct (flag_step a k s Hk Hi) as [F1 F2].
    replace (a_freezing a && (k =? a_unfreeze_at a) && particles_used a)
      with (particles_used a && a_freezing a && (k =? a_unfreeze_at a))
      by (destruct (particles_used a), (a_freezing a), (k =? a_unfreeze_at a); reflexivity).
    set (s2 := if particles_used a && a_freezing a && (k =? a_unfreeze_at a) then false else s) in *.
    destruct (py_or _ _) as [dd|] eqn:ED; [|discriminate]. cbn [bind]. apply due_spec in ED.
    destruct (hl || (0 <? 100 / a_batch_size a)) eqn:EH.
    + cbn [plateau_step try_except bind].
      replace (if dd then Ok [Evaluate k; Sched k] else Ok [])
        with (Ok ((if dd then [Evaluate k] else []) ++ (if dd then [Sched k] else []))) by (destruct dd; reflexivity).
      cbn [bind]. destruct (multiple_of k (a_viz_freq a)) as [sh|] eqn:EV; [|discriminate]. cbn [bind].
      intros H. injection H as <- <- <-. split; [exact F1|].
      eexists. split; [reflexivity|]. exists s2, (if dd then [Evaluate k] else []), (if dd then [Sched k] else []),
        (if sh then [Show k] else []).
      split; [now rewrite <- app_assoc|]. split; [exact F2|].
      repeat split; apply only_if_bool; try exact ED. now apply multiple_of_spec.
    + destruct dd; [discriminate|]. cbn [bind]. destruct (multiple_of k (a_viz_freq a)) as [sh|] eqn:EV; [|discriminate].
      cbn [bind]. intros H. injection H as <- <- <-. split; [exact F1|].
      eexists. split; [reflexivity|]. exists s2, [], [], (if sh then [Show k] else []).
      split; [reflexivity|]. split; [exact F2|].
      split; [apply (only_if_bool false); exact ED|]. split; [apply (only_if_bool false); exact ED|].
      apply only_if_bool. now apply multiple_of_spec.
  - cbn [fst]. unfold flag_before. change (Z.of_nat 0) with 0.
    destruct (particles_used a), (a_freezing a); cbn; intuition (try congruence); lia.
Qed.

Lemma spiral_runs : forall a, 0 < a_batch_size a <= 100 -> a_test_freq a <> 0 -> a_viz_freq a <> 0 ->
  exists log, spiral_main a = Ok log.
Proof.
  intros a Hb Ht Hv. unfold spiral_main, len_loader. destruct (Z.leb_spec (a_batch_size a) 0) as [|_]; [lia|].
  cbn [bind]. match goal with |- context [foldM ?f ?l ?s] => assert (exists s', foldM f l s = Ok s') as [s' ->] end.
  - apply foldM_total. intros [[s hl] lg] k. unfold spiral_epoch.
    assert (0 < 100 / a_batch_size a) by (apply Z.div_str_pos; lia).
    destruct (Z.ltb_spec 0 (100 / a_batch_size a)); [|lia]. rewrite orb_true_r.
    destruct (multiple_of_ok k _ Ht) as [t ->], (multiple_of_ok k _ Hv) as [v ->].
    destruct t, v, (k =? a_niters a); cbn; eauto.
  - cbn [bind]. eauto.
Qed.

Lemma spiral_large_batch : forall a, 100 < a_batch_size a -> 0 <= a_niters a -> a_test_freq a <> 0 ->
  spiral_main a = Raise NameError.
Proof.
  intros a Hb Hn Ht. unfold spiral_main, len_loader. destruct (Z.leb_spec (a_batch_size a) 0) as [|_]; [lia|].
  cbn [bind]. rewrite (Z.div_small 100) by lia. unfold zrange.
  destruct (Z.to_nat (a_niters a + 1)) as [|n] eqn:EN; [lia|]. cbn [seq map foldM].
  unfold spiral_epoch at 1. unfold multiple_of. destruct (Z.eqb_spec (a_test_freq a) 0); [contradiction|].
  change (Z.of_nat 0) with 0. rewrite Z.mod_0_l by assumption. reflexivity.
Qed.

Lemma made_of_in : forall day n log e, made_of day n log -> In e log ->
  exists k d, 0 <= k < n /\ day k d /\ In e d.
Proof.
  intros day n log e (days & -> & Hl & Hd) He. apply in_concat in He. destruct He as (d & Hin & He).
  apply In_nth_error in Hin. destruct Hin as [k Hk]. exists (Z.of_nat k), d.
  assert (k < length days)%nat by (apply nth_error_Some; congruence).
  split; [lia|]. split; [now apply Hd|assumption].
Qed.

Lemma made_of_all : forall day n log k, made_of day n log -> 0 <= k < n ->
  exists d, day k d /\ forall e, In e d -> In e log.
Proof.
  intros day n log k (days & -> & Hl & Hd) Hk.
  destruct (nth_error days (Z.to_nat k)) as [d|] eqn:E.
  - exists d. split; [replace k with (Z.of_nat (Z.to_nat k)) by lia; now apply Hd|].
    intros e He. apply in_concat. exists d. split; [now apply nth_error_In in E|assumption].
  - apply nth_error_None in E. lia.
Qed.

Lemma only_if_train : forall P e l k b, only_if P e l -> In (Train k b) l -> e = Train k b.
Proof. intros P e l k b [[_ ->]|[_ ->]]; cbn; tauto. Qed.

Lemma day_train : forall k fixed nb P1 P2 P3 ev sc sh i b,
  only_if P1 (Evaluate k) ev -> only_if P2 (Sched k) sc -> only_if P3 (Show k) sh ->
  In (Train i b) (repeat (Train k fixed) nb ++ ev ++ sc ++ sh) -> i = k /\ b = fixed.
Proof.
  intros k fixed nb P1 P2 P3 ev sc sh i b H1 H2 H3. rewrite !in_app_iff. intros [H|[H|[H|H]]].
  - apply repeat_spec in H. injection H as -> ->. now split.
  - apply (only_if_train _ _ _ _ _ H1) in H. discriminate.
  - apply (only_if_train _ _ _ _ _ H2) in H. discriminate.
  - apply (only_if_train _ _ _ _ _ H3) in H. discriminate.
Qed.

Lemma sfm_frozen : forall a log k b, sfm_main a = Ok log -> In (Train k b) log ->
  0 <= k <= a_niters a /\ (b = true <-> q1_fixed a k).
Proof.
  intros a log k b H Hin. destruct (sfm_main_days a log H) as [(_ & _ & M)|[_ ->]]; [|destruct Hin].
  destruct (made_of_in _ _ _ _ M Hin) as (i & d & Hi & (fx & ev & sc & sh & -> & Hf & H1 & H2 & H3) & He).
  destruct (day_train _ _ _ _ _ _ _ _ _ _ _ H1 H2 H3 He) as [-> ->]. split; [lia|exact Hf].
Qed.

Lemma spiral_frozen : forall a log k b, spiral_main a = Ok log -> In (Train k b) log ->
  0 <= k <= a_niters a /\ (b = true <-> q1_fixed a k).
Proof.
  intros a log k b H Hin. pose proof (spiral_main_days a log H) as M.
  destruct (made_of_in _ _ _ _ M Hin) as (i & d & Hi & (fx & ev & sc & sh & -> & Hf & H1 & H2 & H3) & He).
  destruct (day_train _ _ _ _ _ _ _ _ _ _ _ H1 H2 H3 He) as [-> ->]. split; [lia|exact Hf].
Qed.

(** The full schedule of sfm.py for a run that trains. *)
Lemma sfm_schedule : forall a log, sfm_main a = Ok log ->
  made_of (sfm_day a (500 / a_batch_size a)) (a_niters a + 1) log.
Proof.
  intros a log H. destruct (sfm_main_days a log H) as [(_ & _ & M)|[Hn ->]]; [exact M|].
  exists []. repeat split; [cbn; lia|]. intros [|k] d E; discriminate.
Qed.

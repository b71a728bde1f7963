From Coq Require Import List String ZArith QArith Reals Bool Lia Lra Permutation.
From Verif Require Import Base BaseFacts ArgparseModel ExperimentModel RecordModel SphereModel FunctionalDataModel FunctionalModel
  SpiralModel LoaderModel SeedModel SeedSpec.
Import ListNotations.
Open Scope string_scope.
Open Scope list_scope.
Open Scope nat_scope.

(** Two runs of the first part either both raise, or are the same. *)
Lemma then_fst : forall H A B (m : eff (H := H) A) (k : A -> eff (H := H) B) g g',
  (exists e h h', m g = (Raise e, h) /\ m g' = (Raise e, h')) \/ m g = m g' ->
  fst (then_ m k g) = fst (then_ m k g').
Proof.
  intros H A B m k g g' [[e [h [h' [E E']]]]|E]; unfold then_.
  - rewrite E, E'. reflexivity.
  - rewrite E. reflexivity.
Qed.

Section Generators.
Context {Gp Gn Gt : Type}.
Variable py_seed : Z -> Gp.
Variable np_seed : Z -> Gn.
Variable torch_seed : Z -> Gt.
Notation gs := (gens Gp Gn Gt).
Notation seeding := (setup_random_seed Gp Gn Gt py_seed np_seed torch_seed).
Notation fresh s := (mkGens Gp Gn Gt (py_seed s) (np_seed s) (torch_seed s)).

Lemma seeding_none : forall g, seeding (-1) g = (Ok tt, g).
Proof. reflexivity. Qed.

Lemma seeding_usable : forall s g, usable_seed s -> seeding s g = (Ok tt, fresh s).
Proof.
  intros s g [L U]. unfold setup_random_seed.
  destruct (Z.eqb_spec s (-1)); [lia|].
  unfold then_, set_py, set_np, set_torch. cbn [g_np g_torch g_py].
  replace (0 <=? s)%Z with true by (symmetry; apply Z.leb_le; lia).
  replace (s <? 2 ^ 32)%Z with true by (symmetry; apply Z.ltb_lt; lia).
  reflexivity.
Qed.

Lemma seeding_unusable : forall s g, s <> (-1)%Z -> ~ usable_seed s ->
  seeding s g = (Raise ValueError, mkGens Gp Gn Gt (py_seed s) (g_np _ _ _ g) (g_torch _ _ _ g)).
Proof.
  intros s g N U. unfold setup_random_seed.
  destruct (Z.eqb_spec s (-1)); [lia|].
  destruct ((0 <=? s)%Z && (s <? 2 ^ 32)%Z) eqn:E.
  - exfalso. apply U. apply andb_prop in E as [E1 E2]. apply Z.leb_le in E1. apply Z.ltb_lt in E2. split; assumption.
  - reflexivity.
Qed.

Lemma usable_dec : forall s, usable_seed s \/ ~ usable_seed s.
Proof. intros s. unfold usable_seed. lia. Qed.

Section First.
Context {A : Type}.
Variable rest : pdict argval -> eff (H := gs) A.
Notation main := (seeded_first Gp Gn Gt py_seed np_seed torch_seed rest).
Notation some := (fun a : A => give (H := gs) (Some a)).

Lemma start_accepted : forall p (m : pdict argval -> eff (H := gs) A) words ns, parse_args p words = Some ns ->
  start Gp Gn Gt p m words = then_ (m ns) some.
Proof. intros p m words ns E. unfold start. rewrite E. reflexivity. Qed.

Lemma main_seed : forall ns seed g, int_of "seed" ns = Ok seed ->
  main ns g = then_ (seeding seed) (fun _ => rest ns) g.
Proof. intros ns seed g E. unfold seeded_first, pure. unfold then_ at 1. rewrite E. reflexivity. Qed.

Lemma run_exactly : forall p words ns seed g, parse_args p words = Some ns -> int_of "seed" ns = Ok seed ->
  (seed = (-1)%Z -> start Gp Gn Gt p main words g = then_ (rest ns) some g)
  /\ (usable_seed seed -> start Gp Gn Gt p main words g = then_ (rest ns) some (fresh seed))
  /\ (seed <> (-1)%Z -> ~ usable_seed seed ->
      start Gp Gn Gt p main words g = (Raise ValueError, mkGens Gp Gn Gt (py_seed seed) (g_np _ _ _ g) (g_torch _ _ _ g))).
Proof.
  intros p words ns seed g P I. rewrite (start_accepted _ _ _ _ P).
  unfold then_ at 1 3 5. rewrite (main_seed _ _ _ I). unfold then_ at 1 3 5.
  repeat split.
  - intros ->. rewrite seeding_none. reflexivity.
  - intros U. rewrite (seeding_usable _ _ U). reflexivity.
  - intros N U. rewrite (seeding_unusable _ _ N U). reflexivity.
Qed.

Lemma run_reproducible : forall p words ns seed, parse_args p words = Some ns -> int_of "seed" ns = Ok seed ->
  seed <> (-1)%Z -> reproducible (start Gp Gn Gt p main words).
Proof.
  intros p words ns seed P I N g g'.
  destruct (run_exactly p words ns seed g P I) as [_ [A1 B1]].
  destruct (run_exactly p words ns seed g' P I) as [_ [A2 B2]].
  destruct (usable_dec seed) as [U|U].
  - rewrite (A1 U), (A2 U). reflexivity.
  - rewrite (B1 N U), (B2 N U). reflexivity.
Qed.
End First.

Section Circles.
Variable uniform : Gp -> R * Gp.
Variable randn : nat -> Gt -> list R * Gt.
Notation data := (cc_data Gp Gn Gt uniform randn).
Context {A : Type}.
Variable rest : pdict argval -> list (list R * R) * list (list R * R) -> eff (H := gs) A.
Notation main := (cc_main Gp Gn Gt py_seed np_seed torch_seed uniform randn rest).

Lemma cc_reproduced : forall words ns seed p g g', parse_args p words = Some ns -> int_of "seed" ns = Ok seed ->
  seed <> (-1)%Z -> fst (data g) = fst (data g') ->
  fst (start Gp Gn Gt p main words g) = fst (start Gp Gn Gt p main words g').
Proof.
  intros words ns seed p g g' P I N D. rewrite (start_accepted _ _ _ _ P).
  apply then_fst. cbv beta delta [cc_main then_ pure].
  destruct (data g) as [r h], (data g') as [r' h']. cbn [fst] in D. subst r'.
  destruct r as [d|e]; [|left; eexists; eexists; eexists; split; reflexivity].
  destruct (bs <- int_of "batch_size" ns ;; (if (bs <=? 0)%Z then Raise ValueError else Ok tt)) as [[]|e];
    [|left; eexists; eexists; eexists; split; reflexivity].
  rewrite I.
  destruct (usable_dec seed) as [U|U].
  - rewrite !(seeding_usable _ _ U). right. reflexivity.
  - rewrite !(seeding_unusable _ _ N U). left; eexists; eexists; eexists; split; reflexivity.
Qed.

(** Drawing points reads and changes the generators of Python and torch only. *)
Definition only_py_torch {B} (m : eff (H := gs) B) : Prop := forall a b c c',
  fst (m (mkGens _ _ _ a b c)) = fst (m (mkGens _ _ _ a c' c)) /\
  g_py _ _ _ (snd (m (mkGens _ _ _ a b c))) = g_py _ _ _ (snd (m (mkGens _ _ _ a c' c))) /\
  g_torch _ _ _ (snd (m (mkGens _ _ _ a b c))) = g_torch _ _ _ (snd (m (mkGens _ _ _ a c' c))).

Lemma only_give : forall B (x : B), only_py_torch (give x).
Proof. intros B x a b c c'. repeat split. Qed.
Lemma only_pure : forall B (r : result B), only_py_torch (pure r).
Proof. intros B r a b c c'. repeat split. Qed.
Lemma only_then : forall B C (m : eff (H := gs) B) (k : B -> eff (H := gs) C),
  only_py_torch m -> (forall x, only_py_torch (k x)) -> only_py_torch (then_ m k).
Proof.
  intros B C m k M K a b c c'. destruct (M a b c c') as [E [E1 E2]]. unfold then_.
  destruct (m (mkGens _ _ _ a b c)) as [r [x y z]], (m (mkGens _ _ _ a c' c)) as [r' [x' y' z']].
  cbn [fst snd g_py g_torch] in E, E1, E2. subst r' x' z'.
  destruct r as [v|e]; [apply K|repeat split].
Qed.
Lemma only_draw_py : forall B (f : Gp -> B * Gp), only_py_torch (draw_py _ _ _ f).
Proof. intros B f a b c c'. unfold draw_py. cbn [g_py]. destruct (f a). repeat split. Qed.
Lemma only_draw_torch : forall B (f : Gt -> B * Gt), only_py_torch (draw_torch _ _ _ f).
Proof. intros B f a b c c'. unfold draw_torch. cbn [g_torch]. destruct (f c). repeat split. Qed.

Lemma only_point : forall dim range, only_py_torch (draw_point Gp Gn Gt uniform randn dim range).
Proof.
  intros. unfold draw_point. apply only_then; [apply only_draw_py|intros u].
  apply only_then; [apply only_pure|intros _]. apply only_then; [apply only_draw_torch|intros d; apply only_pure].
Qed.
Lemma only_points : forall n dim range label, only_py_torch (draw_points Gp Gn Gt uniform randn n dim range label).
Proof.
  induction n as [|n IH]; intros; [apply only_give|]. cbn [draw_points].
  apply only_then; [apply only_point|intros p]. apply only_then; [apply IH|intros l; apply only_give].
Qed.
Lemma only_sphere : forall dim r1 r2 n1 n2, only_py_torch (draw_sphere Gp Gn Gt uniform randn dim r1 r2 n1 n2).
Proof.
  intros. unfold draw_sphere. apply only_then; [apply only_points|intros p].
  apply only_then; [apply only_points|intros l; apply only_give].
Qed.
Lemma only_data : only_py_torch data.
Proof.
  unfold cc_data. apply only_then; [apply only_sphere|intros p].
  apply only_then; [apply only_sphere|intros l; apply only_give].
Qed.

Lemma data_from : forall g g', g_py _ _ _ g = g_py _ _ _ g' -> g_torch _ _ _ g = g_torch _ _ _ g' -> fst (data g) = fst (data g').
Proof.
  intros [a b c] [a' b' c'] E1 E2. cbn [g_py g_torch] in E1, E2. subst a' c'. apply only_data.
Qed.
End Circles.

Section Mapping.
Variable rand : nat -> Gt -> list R * Gt.
Notation dataset := (draw_dataset Gp Gn Gt rand).

Lemma draw_dataset_size : forall bs bs' n u x f, (0 < bs)%Z -> (0 < bs')%Z -> dataset bs n u x f = dataset bs' n u x f.
Proof.
  intros. unfold draw_dataset.
  replace (bs <=? 0)%Z with false by (symmetry; apply Z.leb_gt; lia).
  replace (bs' <=? 0)%Z with false by (symmetry; apply Z.leb_gt; lia). reflexivity.
Qed.

Lemma draw_dataset_ok : forall bs n u x f g, (0 < bs)%Z -> f = "cubic" \/ f = "quadratic" ->
  exists d h, dataset bs n u x f g = (Ok d, h).
Proof.
  intros bs n u x f g B F. unfold draw_dataset.
  replace (bs <=? 0)%Z with false by (symmetry; apply Z.leb_gt; lia).
  unfold then_ at 1.
  destruct u.
  - unfold give at 1. destruct F as [-> | ->]; eexists; eexists; reflexivity.
  - unfold draw_torch. destruct (rand n (g_torch _ _ _ g)) as [l c].
    destruct F as [-> | ->]; eexists; eexists; reflexivity.
Qed.

Lemma sfm_data_ok : forall bs x f g, (0 < bs)%Z -> f = "cubic" \/ f = "quadratic" ->
  exists d h, sfm_data Gp Gn Gt rand bs x f g = (Ok d, h).
Proof.
  intros bs x f g B F. unfold sfm_data.
  destruct (draw_dataset_ok bs 500 false x f g B F) as [d1 [h1 E1]].
  destruct (draw_dataset_ok 1000 (Z.to_nat 1000) false x f h1 eq_refl F) as [d2 [h2 E2]].
  destruct (draw_dataset_ok 1000 (Z.to_nat 1000) true x f h2 eq_refl F) as [d3 [h3 E3]].
  destruct (draw_dataset_ok 50 50 true x f h3 eq_refl F) as [d4 [h4 E4]].
  exists (d1, d3, d2, d4), h4.
  unfold then_ at 1. rewrite E1. unfold then_ at 1. rewrite E2. unfold then_ at 1. rewrite E3.
  unfold then_ at 1. rewrite E4. reflexivity.
Qed.

Lemma sfm_data_size : forall bs bs' x f, (0 < bs)%Z -> (0 < bs')%Z ->
  sfm_data Gp Gn Gt rand bs x f = sfm_data Gp Gn Gt rand bs' x f.
Proof.
  intros bs bs' x f B B'. unfold sfm_data.
  now rewrite (draw_dataset_size bs bs' 500 false x f B B').
Qed.

Lemma sfm_same_data : forall seed x f, usable_seed seed -> f = "cubic" \/ f = "quadratic" ->
  exists d h, forall A (rest : pdict argval -> _ -> eff (H := gs) A) ns bs g,
    int_of "seed" ns = Ok seed -> int_of "batch_size" ns = Ok bs -> (0 < bs)%Z ->
    pd_get "xrange" ns = Some (ANum x) -> text_of "fcn" ns = Ok f ->
    sfm_main Gp Gn Gt py_seed np_seed torch_seed rand rest ns g = rest ns d h.
Proof.
  intros seed x f U F.
  destruct (sfm_data_ok 1 (Q2R x) f (fresh seed) eq_refl F) as [d [h E]].
  exists d, h. intros A rest ns bs g I B P X T.
  unfold sfm_main. rewrite (main_seed _ _ _ _ I). unfold then_ at 1. rewrite (seeding_usable _ _ U).
  unfold then_ at 1, pure. rewrite B, X, T. cbn [bind].
  unfold then_. rewrite (sfm_data_size bs 1 _ _ P eq_refl), E. reflexivity.
Qed.
End Mapping.
End Generators.

(** Properties C124 and C127: seeds, and what evaluations do to the training. *)
From Coq Require Import List String ZArith QArith Reals Bool Permutation Lia.
From Verif Require Import Base ArgparseModel ExperimentModel RecordModel FunctionalModel SpiralModel LoaderModel CirclesModel
  SeedModel SeedSpec SeedProofs SeedProofs2 SeedProofs3 SeedExamples.
Import ListNotations.
Open Scope string_scope.
Open Scope list_scope.
Open Scope nat_scope.

(** C124, as expected by a user: with --seed, the outcome of a program does not depend on what was drawn before.
    False for cc.py: the data are drawn before the seed is set. *)
Theorem C124_circles_refuted : exists (Gp Gn Gt : Type) (py_seed : Z -> Gp) (np_seed : Z -> Gn) (torch_seed : Z -> Gt)
    (uniform : Gp -> R * Gp) (randn : nat -> Gt -> list R * Gt) (A : Type)
    (rest : pdict argval -> list (list R * R) * list (list R * R) -> eff (H := gens Gp Gn Gt) A) words ns seed,
  parse_args cc_parser words = Some ns /\ int_of "seed" ns = Ok seed /\ usable_seed seed /\
  ~ reproducible (start Gp Gn Gt cc_parser (cc_main Gp Gn Gt py_seed np_seed torch_seed uniform randn rest) words).
Proof.
  destruct zeros_parsed as [ns [P [S _]]].
  exists nat, nat, nat, w_seed, w_seed, w_seed, w_uniform, w_randn, (list (list R * R)), show_training, zeros, ns, 0%Z.
  split; [exact P|]. split; [exact S|]. split; [split; [lia|reflexivity]|].
  intros F. exact (circles_differ (F (mkGens _ _ _ 0 0 0) (mkGens _ _ _ 1 0 0))).
Qed.
Print Assumptions C124_circles_refuted.

(** C124 asks that with the same seed the same is trained on, whatever the model.  False for spiral.py with
    --custom_parameter_initialization: the number of particles shifts what numpy draws during the training. *)
Theorem C124_particles_refuted : exists (draw : nat -> nat -> list nat * nat) d order g l l' g' g'',
  spiral_windows nat nat nat draw (spiral_args true 1 1 1) d order g = (Ok l, g') /\
  spiral_windows nat nat nat draw (spiral_args true 2 1 1) d order g = (Ok l', g'') /\ l <> l'.
Proof.
  exists count_draw, line_data, natural, 0. eexists. eexists. eexists. eexists.
  split; [vm_compute; reflexivity|]. split; [vm_compute; reflexivity|]. discriminate.
Qed.
Print Assumptions C124_particles_refuted.

(** C124 for rot.py, balls.py, spiral.py and sfm.py, exactly: without a seed the rest runs with the generators as they
    are; with a usable seed it runs with generators which depend on the seed alone; other seeds are refused. *)
Theorem C124_exactly_partial : forall (Gp Gn Gt : Type) (py_seed : Z -> Gp) (np_seed : Z -> Gn) (torch_seed : Z -> Gt) (A : Type)
    (rest : pdict argval -> eff (H := gens Gp Gn Gt) A) p words ns seed g,
  parse_args p words = Some ns -> int_of "seed" ns = Ok seed ->
  let run := start Gp Gn Gt p (seeded_first Gp Gn Gt py_seed np_seed torch_seed rest) words in
  (seed = (-1)%Z -> run g = then_ (rest ns) (fun a => give (Some a)) g)
  /\ (usable_seed seed ->
      run g = then_ (rest ns) (fun a => give (Some a)) (mkGens _ _ _ (py_seed seed) (np_seed seed) (torch_seed seed)))
  /\ (seed <> (-1)%Z -> ~ usable_seed seed ->
      run g = (Raise ValueError, mkGens _ _ _ (py_seed seed) (g_np _ _ _ g) (g_torch _ _ _ g))).
Proof. exact (fun Gp Gn Gt => run_exactly). Qed.
Print Assumptions C124_exactly_partial.

(** So any seed but -1 makes these programs reproducible. *)
Theorem C124_reproducible_partial : forall (Gp Gn Gt : Type) (py_seed : Z -> Gp) (np_seed : Z -> Gn) (torch_seed : Z -> Gt) (A : Type)
    (rest : pdict argval -> eff (H := gens Gp Gn Gt) A) p words ns seed,
  parse_args p words = Some ns -> int_of "seed" ns = Ok seed -> seed <> (-1)%Z ->
  reproducible (start Gp Gn Gt p (seeded_first Gp Gn Gt py_seed np_seed torch_seed rest) words).
Proof. exact (fun Gp Gn Gt => run_reproducible). Qed.
Print Assumptions C124_reproducible_partial.

(** C124 for cc.py: with a seed, the outcome depends on what was drawn before only by the data. *)
Theorem C124_circles_partial : forall (Gp Gn Gt : Type) (py_seed : Z -> Gp) (np_seed : Z -> Gn) (torch_seed : Z -> Gt)
    (uniform : Gp -> R * Gp) (randn : nat -> Gt -> list R * Gt) (A : Type)
    (rest : pdict argval -> list (list R * R) * list (list R * R) -> eff (H := gens Gp Gn Gt) A) words ns seed p g g',
  parse_args p words = Some ns -> int_of "seed" ns = Ok seed -> seed <> (-1)%Z ->
  fst (cc_data Gp Gn Gt uniform randn g) = fst (cc_data Gp Gn Gt uniform randn g') ->
  fst (start Gp Gn Gt p (cc_main Gp Gn Gt py_seed np_seed torch_seed uniform randn rest) words g)
  = fst (start Gp Gn Gt p (cc_main Gp Gn Gt py_seed np_seed torch_seed uniform randn rest) words g').
Proof. exact (fun Gp Gn Gt py_seed np_seed torch_seed uniform randn A => cc_reproduced py_seed np_seed torch_seed uniform randn). Qed.
Print Assumptions C124_circles_partial.

(** The data of cc.py depend on the generators of Python and torch, not on that of numpy. *)
Theorem C124_circles_data_partial : forall (Gp Gn Gt : Type) (uniform : Gp -> R * Gp) (randn : nat -> Gt -> list R * Gt)
    (g g' : gens Gp Gn Gt),
  g_py _ _ _ g = g_py _ _ _ g' -> g_torch _ _ _ g = g_torch _ _ _ g' ->
  fst (cc_data Gp Gn Gt uniform randn g) = fst (cc_data Gp Gn Gt uniform randn g').
Proof. exact (fun Gp Gn Gt uniform randn => data_from uniform randn). Qed.
Print Assumptions C124_circles_data_partial.

(** C124 for the data of sfm.py: they depend on --seed, --xrange and --fcn only; so all experiments which agree in these
    work on the same data, and with the same generators from there on. *)
Theorem C124_mapping_partial : forall (Gp Gn Gt : Type) (py_seed : Z -> Gp) (np_seed : Z -> Gn) (torch_seed : Z -> Gt)
    (rand : nat -> Gt -> list R * Gt) seed x f,
  usable_seed seed -> f = "cubic" \/ f = "quadratic" ->
  exists d h, forall A (rest : pdict argval -> _ -> eff (H := gens Gp Gn Gt) A) ns bs g,
    int_of "seed" ns = Ok seed -> int_of "batch_size" ns = Ok bs -> (0 < bs)%Z ->
    pd_get "xrange" ns = Some (ANum x) -> text_of "fcn" ns = Ok f ->
    sfm_main Gp Gn Gt py_seed np_seed torch_seed rand rest ns g = rest ns d h.
Proof. exact (fun Gp Gn Gt py_seed np_seed torch_seed rand => sfm_same_data py_seed np_seed torch_seed rand). Qed.
Print Assumptions C124_mapping_partial.

(** C127, as expected by a user: how often a run is evaluated does not change what it is trained on.  False for sfm.py:
    starting an evaluation draws from the generator which shuffles the training samples. *)
Theorem C127_order_refuted : exists (G : Type) (base_seed : G -> G) (randperm : nat -> G -> list nat * G) g os os',
  (forall n g, Permutation (fst (randperm n g)) (seq 0 n)) /\
  sfm_orders G base_seed randperm (mapping_args 1) g = Ok os /\
  sfm_orders G base_seed randperm (mapping_args 2) g = Ok os' /\ os <> os'.
Proof.
  exists nat, S, count_perm, 0. eexists. eexists. split; [|split; [apply orders_are; split; discriminate|split; [apply orders_are; split; discriminate|]]].
  - intros n g. unfold count_perm. cbn [fst]. destruct (Nat.even g); [apply Permutation_refl|apply Permutation_sym, Permutation_rev].
  - intros F. apply (f_equal (fun l => hd 7 (nth 2 l []))) in F. vm_compute in F. discriminate F.
Qed.
Print Assumptions C127_order_refuted.

(** C127 for sfm.py: as long as evaluations have happened after the same epochs, epochs visit the samples in the same
    order, whatever the other options are. *)
Theorem C127_order_partial : forall (G : Type) (base_seed : G -> G) (randperm : nat -> G -> list nat * G) a a' g os os' k,
  a_test_freq a <> 0%Z /\ a_viz_freq a <> 0%Z -> a_test_freq a' <> 0%Z /\ a_viz_freq a' <> 0%Z ->
  sfm_orders G base_seed randperm a g = Ok os -> sfm_orders G base_seed randperm a' g = Ok os' ->
  (Z.of_nat k <= a_niters a)%Z -> (Z.of_nat k <= a_niters a')%Z ->
  (forall i, (0 <= i < Z.of_nat k)%Z ->
     (evaluated (a_niters a) (a_test_freq a) (a_viz_freq a) i <-> evaluated (a_niters a') (a_test_freq a') (a_viz_freq a') i)) ->
  firstn (S k) os = firstn (S k) os'.
Proof. exact (fun G => orders_prefix). Qed.
Print Assumptions C127_order_partial.

(** C127 for sfm.py: in any case each of the niters+1 epochs visits every sample once. *)
Theorem C127_complete_partial : forall (G : Type) (base_seed : G -> G) (randperm : nat -> G -> list nat * G),
  (forall n g, Permutation (fst (randperm n g)) (seq 0 n)) ->
  forall a g, a_test_freq a <> 0%Z /\ a_viz_freq a <> 0%Z -> (0 <= a_niters a)%Z -> exists os,
    sfm_orders G base_seed randperm a g = Ok os /\ List.length os = Z.to_nat (a_niters a + 1) /\
    Forall (fun o => Permutation o (seq 0 500)) os.
Proof. exact (fun G => orders_complete). Qed.
Print Assumptions C127_complete_partial.

(** C127 and C124 for spiral.py: frequencies of evaluation, and the orders which torch draws, do not change the windows
    trained on, nor does the number of particles unless they are placed on the trajectory. *)
Theorem C127_windows_partial : forall (T X G : Type) (draw : nat -> G -> list nat * G) a a' d o o' g l l' g' g'',
  w_batch_time a = w_batch_time a' /\ w_batch_size a = w_batch_size a' /\
  w_disable_distance_based a = w_disable_distance_based a' /\ w_long_range a = w_long_range a' /\
  w_custom_init a = w_custom_init a' /\ (w_custom_init a = true -> w_particles a = w_particles a') /\ w_niters a = w_niters a' ->
  (forall i, List.length (o i) = List.length (o' i)) ->
  spiral_windows T X G draw a d o g = (Ok l, g') -> spiral_windows T X G draw a' d o' g = (Ok l', g'') ->
  l = l' /\ g' = g''.
Proof. exact (fun T X G draw => windows_same draw). Qed.
Print Assumptions C127_windows_partial.

(** A longer run trains on the windows of a shorter one first, in the same order. *)
Theorem C127_prefix_partial : forall (T X G : Type) (draw : nat -> G -> list nat * G) a a' d o o' g l l' g' g'',
  w_batch_time a = w_batch_time a' /\ w_batch_size a = w_batch_size a' /\
  w_disable_distance_based a = w_disable_distance_based a' /\ w_long_range a = w_long_range a' /\
  w_custom_init a = w_custom_init a' /\ (w_custom_init a = true -> w_particles a = w_particles a') /\ (w_niters a <= w_niters a')%Z ->
  (forall i, List.length (o i) = List.length (o' i)) ->
  spiral_windows T X G draw a d o g = (Ok l, g') -> spiral_windows T X G draw a' d o' g = (Ok l', g'') ->
  l = firstn (Z.to_nat (w_niters a + 1)) l'.
Proof. exact (fun T X G draw => windows_prefix draw). Qed.
Print Assumptions C127_prefix_partial.

(** A seed on the command lines of the three programs whose options are modelled; and one which numpy refuses. *)
Example C124_case :
  (exists ns, parse_args spiral_parser ["--seed"; "5"; "--niters"; "3"] = Some ns /\ int_of "seed" ns = Ok 5%Z) /\
  (exists ns, parse_args mapping_parser ["--fcn"; "quadratic"] = Some ns /\ int_of "seed" ns = Ok 1234%Z /\
     int_of "batch_size" ns = Ok 50%Z /\ pd_get "xrange" ns = Some (ANum (15 # 10)) /\ text_of "fcn" ns = Ok "quadratic") /\
  (exists ns, parse_args cc_parser ["--seed"; "-2"] = Some ns /\ int_of "seed" ns = Ok (-2)%Z) /\
  usable_seed 1234 /\ ~ usable_seed (-2).
Proof.
  split; [eexists; split; vm_compute; reflexivity|].
  split; [eexists; split; [|split; [|split; [|split]]]; vm_compute; reflexivity|].
  split; [eexists; split; vm_compute; reflexivity|].
  split; unfold usable_seed; lia.
Qed.

(** A program which draws, from different generators, with and without a seed. *)
Example C124_case_runs :
  let rest := fun _ : pdict argval => draw_torch nat nat nat (fun g => (g, S g)) in
  let run := start nat nat nat spiral_parser (seeded_first nat nat nat Z.to_nat Z.to_nat Z.to_nat rest) in
  fst (run ["--seed"; "5"] (mkGens _ _ _ 0 0 0)) = Ok (Some 5) /\ fst (run ["--seed"; "5"] (mkGens _ _ _ 1 2 3)) = Ok (Some 5) /\
  fst (run [] (mkGens _ _ _ 1 2 3)) = Ok (Some 3) /\ fst (run ["--seed"; "-2"] (mkGens _ _ _ 1 2 3)) = Raise ValueError.
Proof. cbv zeta. repeat split; vm_compute; reflexivity. Qed.

(** Different frequencies with evaluations after the same epochs, and runs of the spiral with different ones. *)
Example C127_case :
  (forall i, (0 <= i < 2)%Z -> (evaluated 2 2 25 i <-> evaluated 2 3 25 i)) /\
  (exists os, sfm_orders nat S count_perm (mapping_args 2) 0 = Ok os /\ sfm_orders nat S count_perm (mapping_args 3) 0 = Ok os) /\
  (exists l g, spiral_windows nat nat nat count_draw (spiral_args false 1 1 1) line_data natural 0 = (Ok l, g) /\
     spiral_windows nat nat nat count_draw (spiral_args false 3 2 5) line_data reversed 0 = (Ok l, g) /\ List.length l = 2).
Proof.
  split.
  - intros i I. unfold evaluated. assert (i = 0 \/ i = 1)%Z as [-> | ->] by lia; vm_compute; split; intros [H|[H|H]]; auto; discriminate.
  - split; [eexists; split; [apply orders_are; split; discriminate|]; rewrite orders_are by (split; discriminate); apply f_equal; reflexivity|].
    eexists. eexists. split; [vm_compute; reflexivity|]. split; [vm_compute; reflexivity|reflexivity].
Qed.

(** A run of two epochs and one of three. *)
Example C127_prefix_case : exists l l' g g',
  spiral_windows nat nat nat count_draw (mkSargs 2 50 false true false 1 1 1 1) line_data natural 0 = (Ok l, g) /\
  spiral_windows nat nat nat count_draw (mkSargs 2 50 false true false 1 2 3 4) line_data reversed 0 = (Ok l', g') /\
  List.length l = 2 /\ List.length l' = 3 /\ l = firstn 2 l'.
Proof. do 4 eexists. split; [vm_compute; reflexivity|]. split; [vm_compute; reflexivity|]. repeat split. Qed.

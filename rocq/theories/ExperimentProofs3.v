(** Which runs the experiment scripts do. *)
From Coq Require Import List String Ascii Arith ZArith QArith Bool Lia.
From Verif Require Import Base SweepModel SweepSpec SweepProofs SweepProofs2 CommandModel ShellSpec CommandSpec CommandProofs
  ArgparseModel ArgparseProofs ExperimentModel ExperimentSpec ExperimentProofs ExperimentProofs2.
Import ListNotations.
Open Scope string_scope.
Open Scope list_scope.
Open Scope nat_scope.

Lemma int_str_inj a b : (0 <= a)%Z -> (0 <= b)%Z -> py_str (VInt a) = py_str (VInt b) -> a = b.
Proof.
  intros A B E. destruct (int_text a A) as (_ & X & _). destruct (int_text b B) as (_ & Y & _). congruence.
Qed.

Lemma int_str_plain a : (0 <= a)%Z -> SweepSpec.plain (py_str (VInt a)).
Proof. intros A. destruct (int_str a A) as (n & -> & _). apply plain_digits. Qed.

Lemma directory_unique prefix args template s s' c c' : shaped c -> shaped c' ->
  output_directory prefix args template s c = output_directory prefix args template s' c' -> s = s' /\ c = c'.
Proof.
  intros (a & b & -> & A & B) (a' & b' & -> & A' & B') E.
  assert (R : forall x y, (0 <= x)%Z -> (0 <= y)%Z -> readable [VInt x; VInt y]).
  { intros x y X Y. split.
    - intros v [<-|[<-|[]]]; apply int_str_plain; assumption.
    - intros v w [<-|[<-|[]]] [<-|[<-|[]]] H; try reflexivity; f_equal; apply int_str_inj; assumption. }
  apply (directory_inj prefix args template [("nr_of_particles", [VInt a; VInt a']); ("inflation_factor", [VInt b; VInt b'])]) in E.
  - exact E.
  - intros k vs [H|[H|[]]]; injection H as <- <-; apply R; assumption.
  - cbn. tauto.
  - cbn. tauto.
Qed.

Section Exact.
Variable leaves : nat -> string -> bool.
Variables (script python : string) (gpu : Z) (dnr : bool) (args : sweep_args).

Definition made (number : nat) (s : sweep) (j : nat * config) : run :=
  mkRun number (fst j) (snd j) (command_of script python gpu args s (fst j) (snd j)).
Definition dir_of (s : sweep) (j : nat * config) : string := output_directory (sw_prefix s) args (sw_template s) (fst j) (snd j).

Lemma run_job_cases number s w j : run_job leaves script python gpu dnr args number s w j =
  if existsb (String.eqb (dir_of s j)) (fst w) && dnr then w
  else (if leaves (List.length (snd w)) (command_of script python gpu args s (fst j) (snd j)) then dir_of s j :: fst w else fst w,
        snd w ++ [made number s j]).
Proof. reflexivity. Qed.

Lemma exists_eqb d l : existsb (String.eqb d) l = true <-> In d l.
Proof.
  rewrite existsb_exists. split.
  - intros (x & X & E). apply String.eqb_eq in E. subst x. exact X.
  - intros H. exists d. split; [exact H|apply String.eqb_refl].
Qed.

(** Jobs with different directories: exactly those without results are run. *)
Lemma jobs_exact number s js : forall w, NoDup (map (dir_of s) js) ->
  snd (fold_left (run_job leaves script python gpu dnr args number s) js w) =
  snd w ++ map (made number s) (filter (fun j => negb (existsb (String.eqb (dir_of s j)) (fst w) && dnr)) js).
Proof.
  induction js as [|j js IH]; intros w D; [cbn; rewrite app_nil_r; reflexivity|].
  cbn [map] in D. inversion D as [|? ? D1 D2]; subst. cbn [fold_left]. rewrite (IH _ D2). rewrite run_job_cases.
  cbn [filter]. destruct (existsb (String.eqb (dir_of s j)) (fst w) && dnr) eqn:E; cbn [negb]; [reflexivity|].
  cbn [fst snd map]. rewrite <- app_assoc. cbn [app]. f_equal. f_equal. f_equal. apply filter_ext_in. intros i I.
  f_equal. f_equal. destruct (leaves _ _); [|reflexivity]. cbn [existsb].
  destruct (String.eqb_spec (dir_of s i) (dir_of s j)) as [X|]; [|reflexivity].
  exfalso. apply D1. rewrite <- X. apply in_map. exact I.
Qed.

(** Everything is run again. *)
Lemma jobs_forced number s js : dnr = false -> forall w,
  snd (fold_left (run_job leaves script python gpu dnr args number s) js w) = snd w ++ map (made number s) js.
Proof.
  intros F. induction js as [|j js IH]; intros w; [cbn; rewrite app_nil_r; reflexivity|].
  cbn [fold_left map]. rewrite IH, run_job_cases, F, andb_false_r. cbn [snd]. rewrite <- app_assoc. reflexivity.
Qed.

Lemma all_jobs_forced l : dnr = false -> forall Ls number w, List.length l = List.length Ls ->
  snd (all_jobs leaves script python gpu dnr args number l Ls w) =
  snd w ++ flat_map (fun x => map (made (fst x) (fst (snd x))) (jobs args (snd (snd x))))
             (combine (seq number (List.length l)) (combine l Ls)).
Proof.
  intros F. induction l as [|s l IH]; intros [|L Ls] number w H; try discriminate; [cbn; rewrite app_nil_r; reflexivity|].
  cbn [all_jobs List.length seq combine flat_map fst snd]. rewrite (IH Ls) by (cbn in H; lia). rewrite (jobs_forced number s _ F).
  rewrite <- app_assoc. reflexivity.
Qed.

(** ** Nothing is forgotten *)
Variables (sweeps : list sweep) (files : list string).

(** Every directory with results had them before or got them from a run. *)
Definition accounted (w : world) : Prop :=
  (forall d, In d (fst w) -> In d files \/ exists r, In r (snd w) /\ directory sweeps args (job_of r) = Some d) /\
  (forall r, In r (snd w) -> shaped (r_config r)).

Definition apart : Prop := forall i i' s s', nth_error sweeps i = Some s -> nth_error sweeps i' = Some s' -> i <> i' ->
  forall x y, (sw_prefix s ++ x)%string <> (sw_prefix s' ++ y)%string.

Lemma directory_job i s j : nth_error sweeps i = Some s -> directory sweeps args (i, fst j, snd j) = Some (dir_of s j).
Proof. intros H. unfold directory. cbn [fst snd]. rewrite H. reflexivity. Qed.

Lemma directory_jobs : apart -> forall i s j r, nth_error sweeps i = Some s -> shaped (snd j) -> shaped (r_config r) ->
  directory sweeps args (job_of r) = Some (dir_of s j) -> job_of r = (i, fst j, snd j).
Proof.
  intros A i s j r N S SR E. unfold directory, job_of in *. cbn [fst snd] in E.
  destruct (nth_error sweeps (r_sweep r)) as [s'|] eqn:N'; [|discriminate]. injection E as E.
  destruct (Nat.eq_dec (r_sweep r) i) as [X|X].
  - rewrite X in *. rewrite N in N'. injection N' as <-. apply directory_unique in E as (E1 & E2); auto. rewrite E1, E2. reflexivity.
  - exfalso. apply (A _ _ _ _ N' N X _ _ E).
Qed.

Lemma job_accounted i s j w : apart -> nth_error sweeps i = Some s -> shaped (snd j) -> accounted w ->
  let w' := run_job leaves script python gpu dnr args i s w j in
  accounted w' /\ (forall r, In r (snd w) -> In r (snd w')) /\
  (In (i, fst j, snd j) (map job_of (snd w')) \/ dnr = true /\ In (dir_of s j) files).
Proof.
  intros A N S (I1 & I2) w'. subst w'. rewrite run_job_cases.
  destruct (existsb (String.eqb (dir_of s j)) (fst w) && dnr) eqn:E.
  - split; [split; assumption|]. split; [auto|]. apply andb_prop in E as (E & D). apply exists_eqb in E.
    destruct (I1 _ E) as [H|(r & R & H)]; [right; auto|]. left.
    rewrite <- (directory_jobs A i s j r N S (I2 r R) H). apply in_map. exact R.
  - cbn [fst snd]. split; [split|split].
    + intros d H. assert (G : d = dir_of s j \/ In d (fst w)) by (destruct (leaves _ _); [destruct H as [<-|H]; auto|auto]).
      destruct G as [->|G].
      * right. exists (made i s j). split; [apply in_or_app; right; left; reflexivity|]. apply (directory_job i s j N).
      * destruct (I1 _ G) as [F|(r & R & F)]; [left; exact F|]. right. exists r. split; [apply in_or_app; left; exact R|exact F].
    + intros r H. apply in_app_iff in H as [H|[<-|[]]]; [apply I2, H|exact S].
    + intros r H. apply in_or_app. left. exact H.
    + left. rewrite map_app. apply in_or_app. right. left. reflexivity.
Qed.

Lemma jobs_accounted i s js : apart -> nth_error sweeps i = Some s -> forall w, Forall (fun j => shaped (snd j)) js -> accounted w ->
  let w' := fold_left (run_job leaves script python gpu dnr args i s) js w in
  accounted w' /\ (forall r, In r (snd w) -> In r (snd w')) /\
  (forall j, In j js -> In (i, fst j, snd j) (map job_of (snd w')) \/ dnr = true /\ In (dir_of s j) files).
Proof.
  intros A N. induction js as [|j js IH]; intros w F I; cbn [fold_left].
  - split; [exact I|]. split; [auto|]. intros j [].
  - inversion F as [|? ? F1 F2]; subst. destruct (job_accounted i s j w A N F1 I) as (I1 & M1 & G1).
    destruct (IH _ F2 I1) as (I2 & M2 & G2). split; [exact I2|]. split; [auto|].
    intros k [<-|K]; [|apply G2, K]. destruct G1 as [G1|G1]; [left|right; exact G1].
    apply in_map_iff in G1 as (r & E & R). apply in_map_iff. exists r. split; [exact E|apply M2, R].
Qed.

Lemma all_accounted l : forall Ls number w, apart ->
  (forall i s, nth_error l i = Some s -> nth_error sweeps (number + i) = Some s) -> Forall (Forall shaped) Ls -> accounted w ->
  let w' := all_jobs leaves script python gpu dnr args number l Ls w in
  (forall r, In r (snd w) -> In r (snd w')) /\
  (forall i s L j, nth_error l i = Some s -> nth_error Ls i = Some L -> In j (jobs args L) ->
     In (number + i, fst j, snd j) (map job_of (snd w')) \/ dnr = true /\ In (dir_of s j) files).
Proof.
  induction l as [|s l IH]; intros Ls number w A N F I.
  { cbn [all_jobs]. split; [auto|]. intros [|i] s L j X; discriminate. }
  destruct Ls as [|L Ls].
  { cbn [all_jobs]. split; [auto|]. intros [|i] s' L j X Y; discriminate. }
  cbn [all_jobs]. inversion F as [|? ? F1 F2]; subst.
  assert (N0 : nth_error sweeps number = Some s) by (rewrite <- (Nat.add_0_r number); apply N; reflexivity).
  destruct (jobs_accounted number s (jobs args L) A N0 w) as (I1 & M1 & G1); [|exact I|].
  { apply Forall_forall. intros j J. apply jobs_in in J as (_ & J). apply (proj1 (Forall_forall _ _) F1 _ J). }
  assert (N1 : forall i s', nth_error l i = Some s' -> nth_error sweeps (S number + i) = Some s').
  { intros i s' X. rewrite <- (N (S i) s' X). f_equal. lia. }
  destruct (IH Ls (S number) _ A N1 F2 I1) as (M2 & G2).
  split; [auto|]. intros [|i] s' L' j X Y J.
  - injection X as <-. injection Y as <-. rewrite Nat.add_0_r. destruct (G1 j J) as [G|G]; [left|right; exact G].
    apply in_map_iff in G as (r & E & R). apply in_map_iff. exists r. split; [exact E|apply M2, R].
  - replace (number + S i) with (S number + i) by lia. apply (G2 i s' L' j X Y J).
Qed.
End Exact.

(** ** The scripts *)
Lemma spiral_apart rnn model : apart (spiral_script rnn model).
Proof.
  intros i i' s s' A B N x y. destruct rnn.
  - destruct i as [|[|[|i]]], i' as [|[|[|i']]]; cbn in A, B; try congruence; try (destruct i; discriminate); try (destruct i'; discriminate);
      injection A as <-; injection B as <-; cbn; discriminate.
  - destruct i as [|i], i' as [|i']; cbn in A, B; try congruence; try (destruct i; discriminate); destruct i'; discriminate.
Qed.
Lemma mapping_apart rnn model fcn : apart (mapping_script rnn model fcn).
Proof.
  intros i i' s s' A B N x y. destruct rnn.
  - destruct i as [|[|[|i]]], i' as [|[|[|i']]]; cbn in A, B; try congruence; try (destruct i; discriminate); try (destruct i'; discriminate);
      injection A as <-; injection B as <-; cbn; discriminate.
  - destruct i as [|i], i' as [|i']; cbn in A, B; try congruence; try (destruct i; discriminate); destruct i'; discriminate.
Qed.

Lemma seeds_of ns gpu path n start model base force : sweep_namespace ns gpu path n start model base force ->
  seeds ns = seq (a_starting_seed_id (args_of ns n start base model)) (a_nr_of_seeds (args_of ns n start base model)).
Proof. intros (_ & _ & A3 & A4 & _). unfold seeds. rewrite A4, A3. reflexivity. Qed.

(** A wanted run belongs to one of the lists. *)
Definition lists_cover (sweeps : list sweep) (Ls : list (list config)) : Prop :=
  forall i s, nth_error sweeps i = Some s -> exists L, nth_error Ls i = Some L /\ forall c, In c (product (sw_values s)) -> In c L.

Lemma spiral_cover rnn model : lists_cover (spiral_script rnn model) (spiral_lists rnn).
Proof.
  intros i s H. destruct rnn.
  - destruct i as [|[|[|i]]]; cbn in H; try (destruct i; discriminate); injection H as <-; eexists; (split; [reflexivity|]);
      intros c C; rewrite ?in_app_iff; auto.
  - destruct i as [|i]; cbn in H; [|destruct i; discriminate]. injection H as <-. eexists. split; [reflexivity|]. auto.
Qed.
Lemma mapping_cover rnn model fcn : lists_cover (mapping_script rnn model fcn) (mapping_lists rnn).
Proof.
  intros i s H. destruct rnn.
  - destruct i as [|[|[|i]]]; cbn in H; try (destruct i; discriminate); injection H as <-; eexists; (split; [reflexivity|]);
      intros c C; rewrite ?in_app_iff; auto.
  - destruct i as [|i]; cbn in H; [|destruct i; discriminate]. injection H as <-. eexists. split; [reflexivity|]. auto.
Qed.

Lemma numbered_in {A} (l : list A) k x : In (k, x) (numbered l) -> nth_error l k = Some x.
Proof.
  unfold numbered. assert (G : forall l a, In (k, x) (combine (seq a (List.length l)) l) -> a <= k /\ nth_error l (k - a) = Some x).
  { clear l. induction l as [|y l IH]; intros a H; [destruct H|]. cbn in H. destruct H as [E|H].
    - injection E as <- <-. split; [lia|]. rewrite Nat.sub_diag. reflexivity.
    - apply IH in H as (L & H). split; [lia|]. replace (k - a) with (S (k - S a)) by lia. exact H. }
  intros H. apply G in H as (_ & H). rewrite Nat.sub_0_r in H. exact H.
Qed.

Lemma wanted_in sweeps ns j : In j (wanted sweeps ns) -> exists s, nth_error sweeps (fst (fst j)) = Some s /\
  In (snd (fst j)) (seeds ns) /\ In (snd j) (product (sw_values s)).
Proof.
  unfold wanted. intros H. apply in_flat_map in H as ([k s] & K & H). cbn [fst snd] in H.
  apply in_flat_map in H as (x & X & H). apply in_map_iff in H as (c & <- & C). cbn [fst snd].
  exists s. split; [apply numbered_in, K|]. split; assumption.
Qed.

(** Every wanted run is done, or its results are there. *)
Lemma all_done leaves script python gpu dnr args sweeps Ls files ns :
  apart sweeps -> lists_cover sweeps Ls -> Forall (Forall shaped) Ls ->
  seeds ns = seq (a_starting_seed_id args) (a_nr_of_seeds args) ->
  forall j, In j (wanted sweeps ns) -> dnr && present sweeps args files j = false ->
  In j (map job_of (snd (all_jobs leaves script python gpu dnr args 0 sweeps Ls (files, [])))).
Proof.
  intros A C F SE j J P. destruct (wanted_in _ _ _ J) as (s & N & S & K). destruct j as [[i seed] c]. cbn [fst snd] in *.
  destruct (C i s N) as (L & NL & CL).
  destruct (all_accounted leaves script python gpu dnr args sweeps files sweeps Ls 0 (files, []) A) as (_ & G).
  - intros i' s' X. exact X.
  - exact F.
  - split; [intros d D; left; exact D|intros r []].
  - destruct (G i s L (seed, c) N NL) as [H|(D & H)].
    + apply jobs_in. split; [rewrite <- SE; exact S|apply CL, K].
    + exact H.
    + exfalso. rewrite D in P. cbn in P. unfold present, directory in P. cbn [fst snd] in P. rewrite N in P.
      apply (proj2 (exists_eqb _ _)) in H. unfold dir_of in H. cbn [fst snd] in H. rewrite H in P. discriminate P.
Qed.

(** One sweep: exactly the wanted runs without results. *)
Lemma flat_map_pairs (L : list config) args (number : nat) : map (fun j : nat * config => (number, fst j, snd j)) (jobs args L) =
  flat_map (fun seed => map (fun c => (number, seed, c)) L) (seq (a_starting_seed_id args) (a_nr_of_seeds args)).
Proof.
  unfold jobs. induction (seq _ _) as [|x l IH]; [reflexivity|]. cbn [flat_map]. rewrite map_app, IH, map_map. reflexivity.
Qed.

Lemma filter_map_comm {A B} (f : A -> B) (p : B -> bool) l : filter p (map f l) = map f (filter (fun a => p (f a)) l).
Proof. induction l as [|a l IH]; [reflexivity|]. cbn. destruct (p (f a)); cbn; rewrite IH; reflexivity. Qed.

Lemma jobs_nodup args L : NoDup L -> NoDup (jobs args L).
Proof.
  intros D. unfold jobs. apply nodup_flat_map.
  - apply seq_NoDup.
  - intros a. apply nodup_map_inj; [intros x y E; congruence|exact D].
  - intros a a' b H H'. apply in_map_iff in H as (x & <- & _). apply in_map_iff in H' as (y & E & _). congruence.
Qed.

Lemma dirs_nodup args s L : NoDup L -> Forall shaped L -> NoDup (map (dir_of args s) (jobs args L)).
Proof.
  intros D F. assert (G : forall l, NoDup l -> (forall j, In j l -> shaped (snd j)) -> NoDup (map (dir_of args s) l)).
  { induction 1 as [|j l N ND IH]; intros S; [constructor|]. cbn [map]. constructor.
    - intros H. apply in_map_iff in H as (k & E & K). apply directory_unique in E as (E1 & E2).
      + apply N. destruct j as [a b], k as [a' b']. cbn in E1, E2. subst. exact K.
      + apply S. right. exact K.
      + apply S. left. reflexivity.
    - apply IH. intros k K. apply S. right. exact K. }
  apply G; [apply jobs_nodup, D|]. intros j J. apply jobs_in in J as (_ & J). apply (proj1 (Forall_forall _ _) F _ J).
Qed.

Lemma single_exact leaves script python gpu dnr args s files ns : NoDup (product (sw_values s)) -> Forall shaped (product (sw_values s)) ->
  seeds ns = seq (a_starting_seed_id args) (a_nr_of_seeds args) ->
  map job_of (snd (all_jobs leaves script python gpu dnr args 0 [s] [product (sw_values s)] (files, []))) =
  filter (fun j => negb (dnr && present [s] args files j)) (wanted [s] ns).
Proof.
  intros D F SE. cbn [all_jobs]. rewrite jobs_exact by (apply dirs_nodup; assumption). cbn [snd fst app].
  rewrite map_map. unfold wanted, numbered. cbn [List.length seq combine flat_map fst snd]. rewrite app_nil_r, SE.
  rewrite <- (flat_map_pairs (product (sw_values s)) args 0), filter_map_comm.
  rewrite (filter_ext (fun j => negb (existsb (String.eqb (dir_of args s j)) files && dnr))
                      (fun a => negb (dnr && present [s] args files (0, fst a, snd a)))).
  - reflexivity.
  - intros j. rewrite andb_comm. reflexivity.
Qed.

Lemma spiral_values_nodup : NoDup (product spiral_values).
Proof. rewrite product_cart. apply cart_nodup. intros k vs [H|[H|[]]]; injection H as <- <-; repeat constructor; cbn; intros H; repeat destruct H as [H|H]; try discriminate H; contradiction. Qed.
Lemma mapping_values_nodup : NoDup (product mapping_values).
Proof. rewrite product_cart. apply cart_nodup. intros k vs [H|[H|[]]]; injection H as <- <-; repeat constructor; cbn; intros H; repeat destruct H as [H|H]; try discriminate H; contradiction. Qed.

Lemma mapping_run python argv ns : parse_args (mapping_sweep_parser python) argv = Some ns ->
  exists gpu path n start model base force fcn, sweep_namespace ns gpu path n start model base force /\ pd_get "fcn" ns = Some (AText fcn) /\
    forall rnn leaves files, mapping_experiments rnn leaves ns files =
      Ok (snd (all_jobs leaves "simple_functional_mapping_example.py" path gpu (negb force) (args_of ns n start base model) 0
                 (mapping_script rnn model fcn) (mapping_lists rnn) (files, []))).
Proof.
  intros E. destruct (mapping_namespace python argv ns E) as (gpu & path & n & start & model & base & force & fcn & S & F & _).
  exists gpu, path, n, start, model, base, force, fcn. split; [exact S|]. split; [exact F|].
  intros rnn leaves files. unfold mapping_experiments.
  assert (X : text_of "shooting_model" ns = Ok model) by (destruct S as (_ & _ & _ & _ & A5 & _); unfold text_of; rewrite A5; reflexivity).
  assert (Y : text_of "fcn" ns = Ok fcn) by (unfold text_of; rewrite F; reflexivity). rewrite X, Y. cbn [bind].
  apply (script_runs leaves _ (mapping_script rnn model fcn) (mapping_lists rnn) ns files _ _ _ _ _ _ _ S (mapping_script_chain rnn model fcn)).
Qed.

(** ** Statements *)

Lemma missing_iff sweeps args ns files force j : forced ns = force ->
  missing sweeps args ns files j = negb (negb force && present sweeps args files j).
Proof. intros <-. unfold missing. destruct (forced ns), (present _ _ _ _); reflexivity. Qed.

Lemma spiral_plain_runs python argv ns leaves files model : parse_args (spiral_sweep_parser python) argv = Some ns ->
  pd_get "shooting_model" ns = Some (AText model) ->
  exists args runs, sweep_args_of ns = Ok args /\ spiral_experiments false leaves ns files = Ok runs /\
    map job_of runs = filter (missing (spiral_sweeps model) args ns files) (wanted (spiral_sweeps model) ns).
Proof.
  intros E M. destruct (spiral_run python argv ns E) as (gpu & path & n & start & model' & base & force & S & _ & R).
  assert (model' = model) as -> by (destruct S as (_ & _ & _ & _ & A5 & _); congruence).
  assert (F : forced ns = force) by (unfold forced; destruct S as (_ & _ & _ & _ & _ & _ & _ & ->); reflexivity).
  exists (args_of ns n start base model). eexists. split; [apply (sweep_args_ok _ _ _ _ _ _ _ _ S)|]. split; [apply R|].
  rewrite (filter_ext _ _ (fun j => missing_iff _ _ _ _ _ j F)). apply (single_exact leaves "spiral.py" path gpu (negb force) (args_of ns n start base model) (mkSweep "spiral_particles_" (spiral_settings model) spiral_values)).
  - apply spiral_values_nodup.
  - apply spiral_values_shaped.
  - apply (seeds_of _ _ _ _ _ _ _ _ S).
Qed.

Lemma mapping_plain_runs python argv ns leaves files model fcn : parse_args (mapping_sweep_parser python) argv = Some ns ->
  pd_get "shooting_model" ns = Some (AText model) -> pd_get "fcn" ns = Some (AText fcn) ->
  exists args runs, sweep_args_of ns = Ok args /\ mapping_experiments false leaves ns files = Ok runs /\
    map job_of runs = filter (missing (mapping_sweeps model fcn) args ns files) (wanted (mapping_sweeps model fcn) ns).
Proof.
  intros E M FC. destruct (mapping_run python argv ns E) as (gpu & path & n & start & model' & base & force & fcn' & S & FC' & R).
  assert (model' = model) as -> by (destruct S as (_ & _ & _ & _ & A5 & _); congruence).
  assert (fcn' = fcn) as -> by congruence.
  assert (F : forced ns = force) by (unfold forced; destruct S as (_ & _ & _ & _ & _ & _ & _ & ->); reflexivity).
  exists (args_of ns n start base model). eexists. split; [apply (sweep_args_ok _ _ _ _ _ _ _ _ S)|]. split; [apply R|].
  rewrite (filter_ext _ _ (fun j => missing_iff _ _ _ _ _ j F)). apply (single_exact leaves "simple_functional_mapping_example.py" path gpu (negb force) (args_of ns n start base model)
    (mkSweep "long_iteration_particles_" (mapping_settings model fcn) mapping_values)).
  - apply mapping_values_nodup.
  - apply mapping_values_shaped.
  - apply (seeds_of _ _ _ _ _ _ _ _ S).
Qed.

Lemma spiral_all_done python argv ns rnn leaves files model : parse_args (spiral_sweep_parser python) argv = Some ns ->
  pd_get "shooting_model" ns = Some (AText model) ->
  exists args runs, sweep_args_of ns = Ok args /\ spiral_experiments rnn leaves ns files = Ok runs /\
    forall j, In j (wanted (spiral_script rnn model) ns) -> missing (spiral_script rnn model) args ns files j = true ->
    In j (map job_of runs).
Proof.
  intros E M. destruct (spiral_run python argv ns E) as (gpu & path & n & start & model' & base & force & S & _ & R).
  assert (model' = model) as -> by (destruct S as (_ & _ & _ & _ & A5 & _); congruence).
  assert (F : forced ns = force) by (unfold forced; destruct S as (_ & _ & _ & _ & _ & _ & _ & ->); reflexivity).
  exists (args_of ns n start base model). eexists. split; [apply (sweep_args_ok _ _ _ _ _ _ _ _ S)|]. split; [apply R|].
  intros j J P. rewrite (missing_iff _ _ _ _ _ j F) in P. apply negb_true_iff in P. revert j J P. apply all_done; [apply spiral_apart|apply spiral_cover|apply spiral_lists_shaped|apply (seeds_of _ _ _ _ _ _ _ _ S)].
Qed.

Lemma mapping_all_done python argv ns rnn leaves files model fcn : parse_args (mapping_sweep_parser python) argv = Some ns ->
  pd_get "shooting_model" ns = Some (AText model) -> pd_get "fcn" ns = Some (AText fcn) ->
  exists args runs, sweep_args_of ns = Ok args /\ mapping_experiments rnn leaves ns files = Ok runs /\
    forall j, In j (wanted (mapping_script rnn model fcn) ns) -> missing (mapping_script rnn model fcn) args ns files j = true ->
    In j (map job_of runs).
Proof.
  intros E M FC. destruct (mapping_run python argv ns E) as (gpu & path & n & start & model' & base & force & fcn' & S & FC' & R).
  assert (model' = model) as -> by (destruct S as (_ & _ & _ & _ & A5 & _); congruence).
  assert (fcn' = fcn) as -> by congruence.
  assert (F : forced ns = force) by (unfold forced; destruct S as (_ & _ & _ & _ & _ & _ & _ & ->); reflexivity).
  exists (args_of ns n start base model). eexists. split; [apply (sweep_args_ok _ _ _ _ _ _ _ _ S)|]. split; [apply R|].
  intros j J P. rewrite (missing_iff _ _ _ _ _ j F) in P. apply negb_true_iff in P. revert j J P. apply all_done; [apply mapping_apart|apply mapping_cover|apply mapping_lists_shaped|apply (seeds_of _ _ _ _ _ _ _ _ S)].
Qed.

Lemma forced_exact leaves script python gpu args sweeps Ls files ns : List.length sweeps = List.length Ls ->
  (forall i s L, nth_error sweeps i = Some s -> nth_error Ls i = Some L -> L = flat_map (fun s => product (sw_values s)) (firstn (S i) sweeps)) ->
  seeds ns = seq (a_starting_seed_id args) (a_nr_of_seeds args) ->
  map job_of (snd (all_jobs leaves script python gpu false args 0 sweeps Ls (files, []))) = accumulated sweeps ns.
Proof.
  intros LL H SE. rewrite (all_jobs_forced leaves script python gpu false args sweeps eq_refl Ls 0 _ LL). cbn [snd app].
  unfold accumulated, numbered. rewrite SE.
  set (lists := fun i => flat_map (fun s => product (sw_values s)) (firstn (S i) sweeps)) in *.
  assert (G : forall l Ls a, List.length l = List.length Ls ->
    (forall i s L, nth_error l i = Some s -> nth_error Ls i = Some L -> L = lists (a + i)) ->
    map job_of (flat_map (fun x => map (made script python gpu args (fst x) (fst (snd x))) (jobs args (snd (snd x))))
      (combine (seq a (List.length l)) (combine l Ls))) =
    flat_map (fun ks => flat_map (fun seed => map (fun c => (fst ks, seed, c)) (lists (fst ks)))
      (seq (a_starting_seed_id args) (a_nr_of_seeds args))) (combine (seq a (List.length l)) l)).
  { clear. induction l as [|s l IH]; intros [|L Ls] a LL H; try discriminate; [reflexivity|].
    cbn [List.length seq combine flat_map fst snd]. rewrite map_app, (IH Ls (S a)).
    - f_equal. rewrite map_map. rewrite <- (flat_map_pairs (lists a) args a).
      rewrite (H 0 s L eq_refl eq_refl), Nat.add_0_r. reflexivity.
    - cbn in LL. lia.
    - intros i s' L' A B. rewrite (H (S i) s' L' A B). f_equal. lia. }
  apply (G sweeps Ls 0 LL). intros i s L A B. apply (H i s L A B).
Qed.

Lemma spiral_forced python argv ns leaves files model : parse_args (spiral_sweep_parser python) argv = Some ns ->
  pd_get "shooting_model" ns = Some (AText model) -> forced ns = true ->
  exists runs, spiral_experiments true leaves ns files = Ok runs /\ map job_of runs = accumulated (spiral_rnn_sweeps model) ns.
Proof.
  intros E M FO. destruct (spiral_run python argv ns E) as (gpu & path & n & start & model' & base & force & S & _ & R).
  assert (model' = model) as -> by (destruct S as (_ & _ & _ & _ & A5 & _); congruence).
  assert (F : forced ns = force) by (unfold forced; destruct S as (_ & _ & _ & _ & _ & _ & _ & ->); reflexivity).
  rewrite FO in F. subst force. eexists. split; [apply R|]. cbn [negb].
  apply forced_exact; [reflexivity| |apply (seeds_of _ _ _ _ _ _ _ _ S)].
  intros i s L A B. destruct i as [|[|[|i]]]; cbn in A, B; try (destruct i; discriminate); injection A as <-; injection B as <-; reflexivity.
Qed.

Lemma mapping_forced python argv ns leaves files model fcn : parse_args (mapping_sweep_parser python) argv = Some ns ->
  pd_get "shooting_model" ns = Some (AText model) -> pd_get "fcn" ns = Some (AText fcn) -> forced ns = true ->
  exists runs, mapping_experiments true leaves ns files = Ok runs /\ map job_of runs = accumulated (mapping_rnn_sweeps model fcn) ns.
Proof.
  intros E M FC FO. destruct (mapping_run python argv ns E) as (gpu & path & n & start & model' & base & force & fcn' & S & FC' & R).
  assert (model' = model) as -> by (destruct S as (_ & _ & _ & _ & A5 & _); congruence).
  assert (fcn' = fcn) as -> by congruence.
  assert (F : forced ns = force) by (unfold forced; destruct S as (_ & _ & _ & _ & _ & _ & _ & ->); reflexivity).
  rewrite FO in F. subst force. eexists. split; [apply R|]. cbn [negb].
  apply forced_exact; [reflexivity| |apply (seeds_of _ _ _ _ _ _ _ _ S)].
  intros i s L A B. destruct i as [|[|[|i]]]; cbn in A, B; try (destruct i; discriminate); injection A as <-; injection B as <-; reflexivity.
Qed.

(** For the examples. *)
Ltac plain_arguments := split; [|split]; intros ? H; injection H as <-; first [apply plain_text; reflexivity|discriminate].

(** The commands of the experiment scripts are understood by the scripts they start. *)
From Coq Require Import List String Ascii Arith ZArith QArith Bool Lia.
From Verif Require Import Base SweepModel SweepSpec SweepProofs SweepProofs2 CommandModel ShellSpec CommandSpec CommandProofs
  ArgparseModel ArgparseProofs ExperimentModel ExperimentSpec.
Import ListNotations.
Open Scope string_scope.
Open Scope list_scope.
Open Scope nat_scope.

(** ** One command *)

(** An entry of an argument dictionary which the parser understands. *)
Definition good (p : parser) (kv : string * pyval) : Prop :=
  ShellSpec.plain (fst kv) /\ fst kv <> "help" /\
  match snd kv with
  | VNone => pd_get (fst kv) p = Some Flag
  | VInt z => (0 <= z)%Z /\ exists d, pd_get (fst kv) p = Some (Value TInt d) \/ pd_get (fst kv) p = Some (Value TFloat d)
  | VStr s => ShellSpec.plain s /\ no_dash s = true /\
      exists c d, pd_get (fst kv) p = Some (Value (TText c) d) /\ match c with Some l => In s l | None => True end
  | _ => False
  end.

(** The words written for an entry. *)
Definition written (kv : string * pyval) : string * option string :=
  (fst kv, match snd kv with VNone => None | v => Some (py_str v) end).

(** The same, without asking for the choice to be one the parser knows. *)
Definition printable (kv : string * pyval) : Prop :=
  ShellSpec.plain (fst kv) /\ match snd kv with VNone => True | VInt z => True | VStr s => ShellSpec.plain s | _ => False end.

Lemma good_printable p kv : good p kv -> printable kv.
Proof. intros (A & _ & B). split; [exact A|]. destruct (snd kv); tauto. Qed.

Lemma printable_prints kv : printable kv -> prints kv (written kv).
Proof.
  destruct kv as [k v]. intros (A & B). unfold prints, written. cbn [fst snd] in *. split; [reflexivity|]. split; [exact A|].
  destruct v; try contradiction.
  - split; [discriminate|]. left. split; [exact B|reflexivity].
  - split; [discriminate|]. left. split; [apply int_plain|reflexivity].
  - reflexivity.
Qed.

Lemma printable_forall kvs : Forall printable kvs -> Forall2 prints kvs (map written kvs).
Proof. induction 1; constructor; auto. apply printable_prints. assumption. Qed.

Lemma help_get p n : n <> "help" -> pd_get n (("help", Help) :: p) = pd_get n p.
Proof. intros N. unfold pd_get. cbn [sd_get]. destruct (String.eqb_spec n "help"); [contradiction|reflexivity]. Qed.

Lemma good_takes p kv : good p kv -> exists a, takes (("help", Help) :: p) (written kv) a /\ means (snd kv) a.
Proof.
  destruct kv as [k v]. intros (A & H & B). cbn [fst snd] in *. unfold takes, written. cbn [fst snd]. rewrite (help_get p k H).
  assert (N : k <> "") by apply A. destruct v as [s|z| |b|]; try contradiction.
  - destruct B as (P & D & c & d & G & C). exists (AText s). split; [|constructor]. split; [exact N|]. exists (TText c), d.
    split; [exact G|]. split; [exact D|]. cbn [py_str convert]. destruct c as [l|]; [|reflexivity].
    rewrite (proj2 (existsb_exists _ l)); [reflexivity|]. exists s. split; [exact C|apply String.eqb_refl].
  - destruct B as (Z0 & d & G). destruct (int_text z Z0) as (D & I & F). destruct G as [G|G].
    + exists (AInt z). split; [|constructor]. split; [exact N|]. exists TInt, d. split; [exact G|]. split; [exact D|].
      cbn [convert]. rewrite I. reflexivity.
    + exists (ANum (inject_Z z)). split; [|constructor]. split; [exact N|]. exists TFloat, d. split; [exact G|]. split; [exact D|].
      cbn [convert]. rewrite F. reflexivity.
  - exists (AFlag true). split; [|constructor]. split; [exact N|]. split; [exact B|reflexivity].
Qed.

Lemma good_values p kvs : Forall (good p) kvs ->
  exists vals, Forall2 (takes (("help", Help) :: p)) (map written kvs) vals /\ Forall2 means (map snd kvs) vals.
Proof.
  induction 1 as [|kv kvs G F (vals & T & M)]; [exists (@nil argval); split; constructor|].
  destruct (good_takes p kv G) as (a & Ta & Ma). exists (a :: vals). split; constructor; assumption.
Qed.

Lemma written_keys kvs : map fst (map written kvs) = map fst kvs.
Proof. rewrite map_map. apply map_ext. reflexivity. Qed.

Lemma forall2_length {A B} (R : A -> B -> Prop) l m : Forall2 R l m -> List.length l = List.length m.
Proof. induction 1; cbn; auto. Qed.

Lemma combine_keys {A B} (l : list A) (m : list B) : List.length l = List.length m -> map fst (combine l m) = l.
Proof. revert m. induction l as [|a l IH]; intros [|b m] H; try discriminate; [reflexivity|]. cbn. rewrite IH; auto. Qed.

Lemma combine_means (kvs : config) (vals : list argval) n v : Forall2 means (map snd kvs) vals -> In (n, v) kvs ->
  exists a, In (n, a) (combine (map fst kvs) vals) /\ means v a.
Proof.
  revert vals. induction kvs as [|[k w] kvs IH]; intros vals M I; [destruct I|]. cbn in M. inversion M as [|? a ? vals' M1 M2]; subst.
  destruct I as [E|I].
  - injection E as -> ->. exists a. split; [left; reflexivity|exact M1].
  - destruct (IH vals' M2 I) as (b & J & K). exists b. split; [right; exact J|exact K].
Qed.

Lemma command_told target script (kvs : config) path gpu log :
  NoDup (map fst kvs) -> Forall (good target) kvs -> ShellSpec.plain script -> ShellSpec.plain path -> optional_plain log ->
  told target script (fun n => pd_get n kvs) (run_command_with_args script kvs path gpu log).
Proof.
  intros D G PS PP PL. destruct (good_values target kvs G) as (vals & T & M).
  exists (option_words (map written kvs)). eexists. split; [|split].
  - apply command_delivered; auto. apply printable_forall. apply (Forall_impl _ (good_printable target)). exact G.
  - unfold parse_args. rewrite <- (app_nil_r (option_words _)). rewrite (parse_options _ _ _ T). reflexivity.
  - rewrite written_keys.
    assert (L : List.length (map fst kvs) = List.length vals).
    { apply forall2_length in T. rewrite <- T, !map_length. reflexivity. }
    split.
    + intros n v E. apply pd_get_in in E. destruct (combine_means kvs vals n v M E) as (a & I & A). exists a. split; [|exact A].
      apply set_all_in; [|exact I]. rewrite combine_keys by exact L. exact D.
    + intros n E. apply set_all_other. rewrite combine_keys by exact L. intros I. apply in_map_iff in I as ([k v] & <- & I).
      cbn in E. rewrite (pd_get_nodup kvs k v D I) in E. discriminate.
Qed.

Lemma option_words_app a b : option_words (a ++ b) = option_words a ++ option_words b.
Proof. unfold option_words. apply flat_map_app. Qed.

Lemma command_refused target script kvs1 n s l d kvs2 path gpu log :
  Forall (good target) kvs1 -> Forall printable kvs2 -> ShellSpec.plain n -> n <> "help" -> ShellSpec.plain s -> no_dash s = true ->
  pd_get n target = Some (Value (TText (Some l)) d) -> ~ In s l ->
  ShellSpec.plain script -> ShellSpec.plain path -> optional_plain log ->
  refused target script (run_command_with_args script (kvs1 ++ (n, VStr s) :: kvs2) path gpu log).
Proof.
  intros G P2 PN NH PV D E NI PS PP PL. destruct (good_values target kvs1 G) as (vals & T & M).
  exists (option_words (map written (kvs1 ++ (n, VStr s) :: kvs2))). split.
  - apply command_delivered; auto. apply printable_forall. apply Forall_app. split.
    + apply (Forall_impl _ (good_printable target)). exact G.
    + constructor; [|exact P2]. split; [exact PN|exact PV].
  - unfold parse_args. rewrite map_app, option_words_app, (parse_options _ _ _ T). cbn [map].
    change (written (n, VStr s)) with (n, Some s).
    change ((n, Some s) :: map written kvs2) with ([(n, Some s)] ++ map written kvs2). rewrite option_words_app.
    apply (parse_stops _ n (TText (Some l)) d s).
    + apply PN.
    + rewrite (help_get target n NH). exact E.
    + exact D.
    + cbn [convert]. destruct (existsb (String.eqb s) l) eqn:X; [|reflexivity].
      apply existsb_exists in X as (x & X & Y). apply String.eqb_eq in Y. subst x. contradiction.
Qed.

(** ** Directories *)
Lemma plain_app a b : ShellSpec.plain a -> all_chars plain_char b = true -> ShellSpec.plain (a ++ b).
Proof.
  intros (N & P) Q. split; [destruct a; [congruence|discriminate]|]. rewrite all_chars_app, P, Q. reflexivity.
Qed.

(** The configurations all sweeps of the scripts make. *)
Definition shaped (c : config) : Prop :=
  exists a b, c = [("nr_of_particles", VInt a); ("inflation_factor", VInt b)] /\ (0 <= a)%Z /\ (0 <= b)%Z.

Lemma chars_of_plain s : ShellSpec.plain s -> all_chars plain_char s = true.
Proof. intros (_ & H). exact H. Qed.

Lemma fmt_chars n : all_chars plain_char (fmt02 n) = true.
Proof.
  unfold fmt02. destruct (Nat.ltb n 10); [change (all_chars plain_char (dec_nat n) = true)|]; apply uint_plain.
Qed.

Lemma name_chars args template seed c : shaped c ->
  all_chars plain_char (py_str (current_fcn args template c)) = true ->
  all_chars plain_char (py_str (current_shooting_model args template c)) = true ->
  all_chars plain_char (experiment_name args template seed c) = true.
Proof.
  intros (a & b & -> & _ & _) F M. unfold experiment_name, create_experiment_name. cbn [fold_left fst snd].
  rewrite !all_chars_app, F, M, fmt_chars.
  rewrite (chars_of_plain _ (int_plain a)), (chars_of_plain _ (int_plain b)). reflexivity.
Qed.

(** A prefix of a directory that is harmless as a value. *)
Definition safe (prefix : string) : Prop := ShellSpec.plain prefix /\ no_dash prefix = true.

Lemma safe_app p s : safe p -> all_chars plain_char s = true -> safe (p ++ s).
Proof.
  intros (P & D) C. split; [apply plain_app; assumption|]. destruct p as [|x p]; [destruct P; congruence|exact D].
Qed.

Lemma directory_safe prefix args template seed c : safe prefix -> ShellSpec.plain (a_output_base_directory args) -> shaped c ->
  all_chars plain_char (py_str (current_fcn args template c)) = true ->
  all_chars plain_char (py_str (current_shooting_model args template c)) = true ->
  safe (output_directory prefix args template seed c).
Proof.
  intros P B S F M. unfold output_directory. apply safe_app; [exact P|]. rewrite !all_chars_app, (chars_of_plain _ B), (name_chars _ _ _ _ S F M). reflexivity.
Qed.

(** ** Arguments of a run *)
Lemma run_args_list template dir seed c : shaped c ->
  (forall k, In k ["nr_of_particles"; "inflation_factor"; "output_directory"; "seed"] -> ~ In k (map fst template)) ->
  run_args template dir seed c = template ++ c ++ [("output_directory", VStr dir); ("seed", VInt (Z.of_nat seed))].
Proof.
  intros (a & b & -> & _ & _) F. unfold run_args, merge_args. cbn [List.length deref nth app fold_left merge_step fst snd heap_set].
  unfold deref. cbn [nth heap_set].
  rewrite (pd_set_fresh "nr_of_particles" (VInt a) template) by (apply F; cbn; tauto).
  rewrite (pd_set_fresh "inflation_factor" (VInt b)).
  2: { rewrite map_app, in_app_iff. cbn. intros [I|[I|[]]]; [|discriminate I]. revert I. apply F. cbn. tauto. }
  rewrite (pd_set_fresh "output_directory").
  2: { rewrite !map_app, !in_app_iff. cbn. intros [[I|[I|[]]]|[I|[]]]; try discriminate I. revert I. apply F. cbn. tauto. }
  rewrite (pd_set_fresh "seed").
  2: { rewrite !map_app, !in_app_iff. cbn. intros [[[I|[I|[]]]|[I|[]]]|[I|[]]]; try discriminate I. revert I. apply F. cbn. tauto. }
  rewrite <- !app_assoc. reflexivity.
Qed.

Lemma get_app {A} k (a b : pdict A) : pd_get k (a ++ b) = match pd_get k a with Some v => Some v | None => pd_get k b end.
Proof. induction a as [|[x v] a IH]; [reflexivity|]. unfold pd_get in *. cbn. destruct (String.eqb k x); [reflexivity|exact IH]. Qed.

Lemma get_absent {A} k (d : pdict A) : ~ In k (map fst d) -> pd_get k d = None.
Proof.
  induction d as [|[x v] d IH]; intros N; [reflexivity|]. unfold pd_get in *. cbn in *.
  destruct (String.eqb_spec k x); [subst; tauto|]. apply IH. tauto.
Qed.

Lemma run_args_settings s dir seed c : shaped c ->
  (forall k, In k ["nr_of_particles"; "inflation_factor"; "output_directory"; "seed"] -> ~ In k (map fst (sw_template s))) ->
  forall n, pd_get n (run_args (sw_template s) dir seed c) = settings s dir seed c n.
Proof.
  intros S F n. rewrite (run_args_list _ _ _ _ S F). rewrite !get_app. unfold settings.
  destruct S as (a & b & -> & _ & _). unfold pd_get. cbn [sd_get].
  destruct (String.eqb_spec n "seed") as [->|N1].
  { rewrite (get_absent "seed") by (apply F; cbn; tauto). reflexivity. }
  destruct (String.eqb_spec n "output_directory") as [->|N2].
  { rewrite (get_absent "output_directory") by (apply F; cbn; tauto). reflexivity. }
  destruct (String.eqb_spec n "nr_of_particles") as [->|N3].
  { rewrite (get_absent "nr_of_particles") by (apply F; cbn; tauto). reflexivity. }
  destruct (String.eqb_spec n "inflation_factor") as [->|N4].
  { rewrite (get_absent "inflation_factor") by (apply F; cbn; tauto). reflexivity. }
  destruct (sd_get n (sw_template s)); reflexivity.
Qed.

(** ** Runs *)
Section Runs.
Variable leaves : nat -> string -> bool.
Variables (script python : string) (gpu : Z) (dnr : bool) (args : sweep_args).

(** The command of a run. *)
Definition command_of (s : sweep) (seed : nat) (c : config) : string :=
  let dir := output_directory (sw_prefix s) args (sw_template s) seed c in
  run_command_with_args script (run_args (sw_template s) dir seed c) python (Some gpu) (Some (dir ++ "/runlog.log")%string).

(** A run of a list of jobs of one sweep. *)
Definition comes_from (number : nat) (s : sweep) (jobs : list (nat * config)) (r : run) : Prop :=
  exists j, In j jobs /\ r = mkRun number (fst j) (snd j) (command_of s (fst j) (snd j)).

Lemma jobs_runs number s jobs : forall w r, In r (snd (fold_left (run_job leaves script python gpu dnr args number s) jobs w)) ->
  In r (snd w) \/ comes_from number s jobs r.
Proof.
  induction jobs as [|j jobs IH]; intros w r H; [left; exact H|]. cbn [fold_left] in H. apply IH in H as [H|(i & I & E)].
  - unfold run_job in H. destruct (existsb _ _ && dnr) eqn:X; [left; exact H|]. cbn [snd] in H. apply in_app_iff in H as [H|[<-|[]]].
    + left. exact H.
    + right. exists j. split; [left; reflexivity|reflexivity].
  - right. exists i. split; [right; exact I|exact E].
Qed.

(** What the sweeps of one process return, in order. *)
Inductive chain : sweep_state -> list sweep -> list (list config) -> Prop :=
  | chain_nil p : chain p [] []
  | chain_cons p s l L Ls p' : sweep_default (sw_values s) p = (SweptList L, p') -> chain p' l Ls -> chain p (s :: l) (L :: Ls).

(** The jobs of a sweep. *)
Definition jobs (L : list config) : list (nat * config) :=
  flat_map (fun seed => map (fun d => (seed, d)) L) (seq (a_starting_seed_id args) (a_nr_of_seeds args)).

Fixpoint all_jobs (number : nat) (l : list sweep) (Ls : list (list config)) (w : world) : world :=
  match l, Ls with
  | s :: l, L :: Ls => all_jobs (S number) l Ls (fold_left (run_job leaves script python gpu dnr args number s) (jobs L) w)
  | _, _ => w
  end.

Lemma chain_runs p l Ls : chain p l Ls -> forall number w,
  exists p', run_sweeps leaves script python gpu dnr args number l (p, w) = Ok (p', all_jobs number l Ls w).
Proof.
  induction 1 as [p|p s l L Ls p' E C IH]; intros number w; [exists p; reflexivity|].
  cbn [run_sweeps all_jobs]. unfold run_sweep. cbn [fst snd]. rewrite E. cbn [bind]. apply IH.
Qed.

Lemma all_jobs_runs l : forall Ls number w r, In r (snd (all_jobs number l Ls w)) -> In r (snd w) \/
  exists i s L, nth_error l i = Some s /\ nth_error Ls i = Some L /\ comes_from (number + i) s (jobs L) r.
Proof.
  induction l as [|s l IH]; intros [|L Ls] number w r H; try (left; exact H).
  cbn [all_jobs] in H. apply IH in H as [H|(i & s' & L' & A & B & C)].
  - apply jobs_runs in H as [H|H]; [left; exact H|]. right. exists 0, s, L. split; [reflexivity|]. split; [reflexivity|].
    rewrite Nat.add_0_r. exact H.
  - right. exists (S i), s', L'. split; [exact A|]. split; [exact B|]. rewrite Nat.add_succ_r. exact C.
Qed.

Lemma jobs_in L j : In j (jobs L) <-> In (fst j) (seq (a_starting_seed_id args) (a_nr_of_seeds args)) /\ In (snd j) L.
Proof.
  destruct j as [a c]. unfold jobs. rewrite in_flat_map. split.
  - intros (x & A & B). apply in_map_iff in B as (y & E & B). injection E as <- <-. split; assumption.
  - intros (A & B). exists a. split; [exact A|]. apply in_map_iff. exists c. split; [reflexivity|exact B].
Qed.
End Runs.

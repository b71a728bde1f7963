(** The main program of cc.py. *)
From Coq Require Import List String ZArith QArith Reals Qreals Lra Bool Lia Arith.
From Verif Require Import Base BaseFacts VecModel VecInit VecFlow RecordModel ArgparseModel ArgparseProofs ExperimentModel ExperimentProofs2
  CirclesModel CirclesSpec CirclesProofs.
Import ListNotations.
Open Scope string_scope.
Open Scope list_scope.
Open Scope nat_scope.

(** ** Batches *)
Section Batches.
Variable bs : nat.
Hypothesis B1 : 1 <= bs.

Lemma points_Z : Z.of_nat num_points = 3000%Z.
Proof. unfold num_points. rewrite Z2Nat.id; [reflexivity|discriminate]. Qed.

Lemma batches_length : List.length (batch_sizes num_points bs) = Z.to_nat ((2999 + Z.of_nat bs) / Z.of_nat bs).
Proof.
  unfold batch_sizes. rewrite app_length, repeat_length. apply Nat2Z.inj.
  rewrite Z2Nat.id by (apply Z.div_pos; lia). assert (P := points_Z).
  assert (D := Nat.div_mod num_points bs ltac:(lia)). assert (M := Nat.mod_upper_bound num_points bs ltac:(lia)).
  set (qn := num_points / bs) in *. set (rn := num_points mod bs) in *.
  assert (DZ : (3000 = Z.of_nat bs * Z.of_nat qn + Z.of_nat rn)%Z) by (rewrite <- P, D at 1; lia).
  destruct (Nat.eqb_spec rn 0) as [R0|R0]; cbn [List.length].
  - rewrite Nat.add_0_r. apply (Z.div_unique _ _ _ (Z.of_nat bs - 1)); lia.
  - rewrite Nat2Z.inj_add. cbn [Z.of_nat Pos.of_succ_nat]. apply (Z.div_unique _ _ _ (Z.of_nat rn - 1)); lia.
Qed.

Lemma points_mod : Z.of_nat (num_points mod bs) = (3000 mod Z.of_nat bs)%Z.
Proof. rewrite Nat2Z.inj_mod, points_Z. reflexivity. Qed.
Lemma points_div : Z.of_nat (num_points / bs) = (3000 / Z.of_nat bs)%Z.
Proof. rewrite Nat2Z.inj_div, points_Z. reflexivity. Qed.

(** The first batch. *)
Lemma first_batch : exists first rest, batch_sizes num_points bs = first :: rest /\ (first = 1 <-> bs = 1) /\ 1 <= first.
Proof.
  unfold batch_sizes. destruct (le_lt_dec bs num_points) as [L|L].
  - assert (Q : 1 <= num_points / bs) by (apply Nat.div_le_lower_bound; lia).
    destruct (num_points / bs) as [|q]; [lia|]. exists bs. cbn [repeat app]. eexists. split; [reflexivity|]. split; [reflexivity|exact B1].
  - rewrite Nat.div_small, Nat.mod_small by exact L. assert (P := points_Z). destruct (Nat.eqb_spec num_points 0); [lia|].
    exists num_points, []. split; [reflexivity|]. lia.
Qed.

(** 2999 is a prime number. *)
Lemma prime_2999 : forallb (fun n => negb (3000 mod Z.of_nat n =? 1)%Z) (seq 2 (Z.to_nat 2997)) = true.
Proof. vm_compute. reflexivity. Qed.

Lemma no_single : bs <> 1 -> Z.of_nat bs <> 2999%Z -> Forall (fun B => B <> 1) (batch_sizes num_points bs).
Proof.
  intros N1 N2. unfold batch_sizes. apply Forall_app. split.
  - apply Forall_forall. intros x I. apply repeat_spec in I. lia.
  - destruct (Nat.eqb_spec (num_points mod bs) 0); [constructor|]. constructor; [|constructor].
    intros X. assert (M := points_mod). rewrite X in M. cbn [Z.of_nat Pos.of_succ_nat] in M.
    destruct (Z_le_gt_dec (Z.of_nat bs) 2999) as [L|L].
    + assert (F := proj1 (forallb_forall _ _) prime_2999 bs). cbn beta in F.
      rewrite <- M in F. cbn in F. assert (false = true); [|discriminate]. apply F. apply in_seq. lia.
    + destruct (Z.eq_dec (Z.of_nat bs) 3000) as [E|E]; [rewrite E in M; discriminate M|].
      rewrite Z.mod_small in M by lia. discriminate M.
Qed.

Lemma single_last : Z.of_nat bs = 2999%Z -> batch_sizes num_points bs = [bs; 1].
Proof.
  intros E. unfold batch_sizes. assert (M := points_mod). assert (D := points_div). rewrite E in M, D.
  change (3000 mod 2999)%Z with 1%Z in M. change (3000 / 2999)%Z with 1%Z in D.
  assert (M1 : num_points mod bs = 1) by lia. assert (D1 : num_points / bs = 1) by lia. rewrite M1, D1. reflexivity.
Qed.
End Batches.

(** ** Training, testing and recording *)
Section Runs.
Variables nl dnl : R -> R.
Variable pw : R.
Hypothesis PW : pw <> 0%R.
Variable b : block.
Hypothesis N0 : 0 < b_particles b.
Hypothesis D2 : b_dim b = 2.
Variable all : nat -> entries.
Hypothesis SO : forall k, solver (e_prog (all k)).

Lemma passes_good training : forall sizes k, (training = true -> Forall (fun B => B <> 1) sizes) -> passes nl dnl pw all b training k sizes = Ok tt.
Proof.
  induction sizes as [|B sizes IH]; intros k F; [reflexivity|]. cbn [passes].
  destruct (forward_good nl dnl pw PW b N0 (all k) false training B ltac:(discriminate) D2 (proj1 (SO k))) as (n' & -> & _).
  { intros T. specialize (F T). inversion F. assumption. }
  cbn [fst snd bind]. rewrite Nat.eqb_refl. cbn [Nat.eqb andb]. apply IH. intros T. specialize (F T). inversion F. assumption.
Qed.

Lemma forward_single k : fst (model_forward nl dnl pw b (all k) false true 1 []) = Raise ValueError.
Proof.
  unfold model_forward. destruct (forward_good nl dnl pw PW b N0 (all k) false false 1 ltac:(discriminate) D2 (proj1 (SO k)) ltac:(discriminate)) as (n' & E & _).
  unfold model_forward in E. revert E. match goal with |- context [block_forward ?a ?c ?d ?e ?f ?g ?h ?i] => destruct (block_forward a c d e f g h i) as [[z|x] [kk n]] end; intros E; [|discriminate E].
  unfold classify_points in *. cbn [andb] in E. destruct (Nat.eqb (n1 z * n2 z) 2) eqn:E1; [|discriminate E].
  injection E as E2 E3. rewrite E2. reflexivity.
Qed.

Lemma passes_single sizes : forall k, Forall (fun B => B <> 1) sizes -> passes nl dnl pw all b true k (sizes ++ [1]) = Raise ValueError.
Proof.
  induction sizes as [|B sizes IH]; intros k F; cbn [passes app].
  - rewrite forward_single. reflexivity.
  - destruct (forward_good nl dnl pw PW b N0 (all k) false true B ltac:(discriminate) D2 (proj1 (SO k))) as (n' & -> & _).
    { intros _. inversion F. assumption. }
    cbn [fst snd bind]. rewrite Nat.eqb_refl. cbn [Nat.eqb andb]. apply IH. inversion F. assumption.
Qed.

Lemma epochs_good sizes : b_model b <> Simple -> sizes <> [] -> Forall (fun B => B <> 1) sizes -> forall n k,
  exists tr, epochs nl dnl pw all b n k sizes = Ok tr /\ List.length tr = n /\
    forall i d, nth_error tr i = Some d ->
      recording (b_particles b) (b_dim b * b_inflation b)
        (evaluation_times (e_prog (all (k + i * (2 * List.length sizes + 1) + 2 * List.length sizes)%nat))) d.
Proof.
  intros M S0 F. induction n as [|n IH]; intros k.
  - exists []. split; [reflexivity|]. split; [reflexivity|]. intros [|i] d H; discriminate H.
  - cbn [epochs]. rewrite (passes_good true) by (intros _; exact F). cbn [bind]. rewrite (passes_good false) by discriminate. cbn [bind].
    destruct sizes as [|B rest]; [contradiction|]. cbn [hook_in]. set (sizes := B :: rest) in *. set (kk := k + List.length sizes + List.length sizes).
    destruct (forward_good nl dnl pw PW b N0 (all kk) true false B (fun _ => M) D2 (proj1 (SO kk)) ltac:(discriminate)) as (n' & -> & R).
    cbn [bind]. destruct (IH (S kk)) as (tr & -> & L & H). cbn [bind]. exists (n' :: tr). split; [reflexivity|]. split; [cbn; lia|].
    intros [|i] d E; cbn [nth_error] in E.
    + injection E as <-. replace (k + 0 * (2 * List.length sizes + 1) + 2 * List.length sizes) with kk by (unfold kk; lia). exact R.
    + assert (RR := H i d E). replace (k + S i * (2 * List.length sizes + 1) + 2 * List.length sizes)
        with (S kk + i * (2 * List.length sizes + 1) + 2 * List.length sizes) by (unfold kk; lia). exact RR.
Qed.

Lemma epochs_simple sizes n k : b_model b = Simple -> sizes <> [] -> Forall (fun B => B <> 1) sizes ->
  epochs nl dnl pw all b (S n) k sizes = Raise KeyError.
Proof.
  intros M S0 F. cbn [epochs]. rewrite (passes_good true) by (intros _; exact F). cbn [bind]. rewrite (passes_good false) by discriminate. cbn [bind].
  destruct sizes as [|B rest]; [contradiction|]. cbn [hook_in].
  match goal with |- context [all ?kk] => destruct (forward_hook_simple nl dnl pw PW b N0 (all kk) false B M D2 (SO kk)) as (n' & ->) end.
  reflexivity.
Qed.
End Runs.

(** ** The command line *)
Lemma cc_defaults : forall m k, pd_get m cc_parser = Some k -> has_kind k (pd_get m (defaults cc_parser)).
Proof.
  intros m k H. unfold pd_get in H. cbn [cc_parser sd_get] in H. find_key; cbn; try (eexists; split; [reflexivity|cbn; auto 10]); eexists; reflexivity.
Qed.

Record values := mkValues { v_bs : Z; v_seed : Z; v_d : Z; v_N : Z; v_f : Z; v_name : string; v_rnn : bool; v_free : bool; v_opt : bool;
  v_how : string; v_nl : string; v_n : Z; v_out : string; v_pw : Q }.
Definition has_values (ns : pdict argval) (v : values) : Prop :=
  pd_get "batch_size" ns = Some (AInt (v_bs v)) /\ pd_get "seed" ns = Some (AInt (v_seed v)) /\
  pd_get "shooting_dim" ns = Some (AInt (v_d v)) /\ pd_get "nr_of_particles" ns = Some (AInt (v_N v)) /\
  pd_get "inflation_factor" ns = Some (AInt (v_f v)) /\ pd_get "shooting_model" ns = Some (AText (v_name v)) /\
  pd_get "use_particle_rnn_mode" ns = Some (AFlag (v_rnn v)) /\ pd_get "use_particle_free_rnn_mode" ns = Some (AFlag (v_free v)) /\
  pd_get "optimize_over_data_initial_conditions" ns = Some (AFlag (v_opt v)) /\
  pd_get "optimize_over_data_initial_conditions_type" ns = Some (AText (v_how v)) /\ pd_get "nonlinearity" ns = Some (AText (v_nl v)) /\
  pd_get "niters" ns = Some (AInt (v_n v)) /\ pd_get "save_model" ns = Some (AText (v_out v)) /\ pd_get "pw" ns = Some (ANum (v_pw v)) /\
  In (v_name v) ["simple"; "updown"; "updown_universal"].

Lemma cc_namespace words ns : parse_args cc_parser words = Some ns -> exists v, has_values ns v.
Proof.
  intros E. assert (K := parsed_kinds cc_parser _ _ ltac:(nodup_keys) cc_defaults E).
  destruct (K "batch_size" _ ltac:(discriminate) eq_refl) as ([bs| | |] & A1 & B1); try contradiction.
  destruct (K "seed" _ ltac:(discriminate) eq_refl) as ([seed| | |] & A2 & B2); try contradiction.
  destruct (K "shooting_dim" _ ltac:(discriminate) eq_refl) as ([d| | |] & A3 & B3); try contradiction.
  destruct (K "nr_of_particles" _ ltac:(discriminate) eq_refl) as ([N| | |] & A4 & B4); try contradiction.
  destruct (K "inflation_factor" _ ltac:(discriminate) eq_refl) as ([f| | |] & A5 & B5); try contradiction.
  destruct (K "shooting_model" _ ltac:(discriminate) eq_refl) as ([| |name|] & A6 & B6); try contradiction.
  destruct (K "use_particle_rnn_mode" _ ltac:(discriminate) eq_refl) as (rnn & A7).
  destruct (K "use_particle_free_rnn_mode" _ ltac:(discriminate) eq_refl) as (free & A8).
  destruct (K "optimize_over_data_initial_conditions" _ ltac:(discriminate) eq_refl) as (opt & A9).
  destruct (K "optimize_over_data_initial_conditions_type" _ ltac:(discriminate) eq_refl) as ([| |how|] & A10 & B10); try contradiction.
  destruct (K "nonlinearity" _ ltac:(discriminate) eq_refl) as ([| |nl|] & A11 & B11); try contradiction.
  destruct (K "niters" _ ltac:(discriminate) eq_refl) as ([n| | |] & A12 & B12); try contradiction.
  destruct (K "save_model" _ ltac:(discriminate) eq_refl) as ([| |out|] & A13 & B13); try contradiction.
  destruct (K "pw" _ ltac:(discriminate) eq_refl) as ([|q| |] & A14 & B14); try contradiction.
  exists (mkValues bs seed d N f name rnn free opt how nl n out q). repeat (split; [assumption|]). exact B6.
Qed.

Definition shooting_of (name : string) : shooting :=
  if String.eqb name "updown" then UpDown else if String.eqb name "updown_universal" then Universal else Simple.
Definition block_of (v : values) : block :=
  mkBlock (shooting_of (v_name v)) (Z.to_nat (v_d v)) (Z.to_nat (v_f v)) (Z.to_nat (v_N v)) (v_rnn v) (v_free v) (if v_opt v then Some (v_how v) else None).

Lemma shooting_simple name : In name ["simple"; "updown"; "updown_universal"] ->
  model_of_name name = Ok (shooting_of name) /\ (shooting_of name = Simple <-> name = "simple").
Proof.
  intros [<-|[<-|[<-|[]]]]; (split; [reflexivity|]); split; try discriminate; reflexivity.
Qed.

Section Main.
Variable nonlinearity : string -> (R -> R) * (R -> R).
Variable all : nat -> entries.
Variable writable : string -> bool.
Variable unusual : result unit * list (string * content).
Variable ns : pdict argval.
Variable v : values.
Hypothesis V : has_values ns v.
Notation run := (main nonlinearity all writable unusual ns).

Lemma main_batch : (v_bs v <= 0)%Z -> run = (Raise ValueError, []).
Proof.
  intros H. destruct V as (A1 & _). unfold main, int_of at 1. rewrite A1. cbn [bind]. apply Z.leb_le in H. rewrite H. reflexivity.
Qed.

Lemma main_seed : (1 <= v_bs v)%Z -> v_seed v <> (-1)%Z -> ~ (0 <= v_seed v < 2 ^ 32)%Z -> run = (Raise ValueError, []).
Proof.
  intros H S1 S2. destruct V as (A1 & A2 & _). unfold main, int_of at 1. rewrite A1. cbn [bind].
  replace (v_bs v <=? 0)%Z with false by (symmetry; apply Z.leb_gt; lia). cbn [bind]. unfold int_of at 1. rewrite A2. cbn [bind].
  unfold check_seed. apply Z.eqb_neq in S1. rewrite S1.
  assert (C : ((0 <=? v_seed v) && (v_seed v <? 2 ^ 32))%Z = false).
  { apply andb_false_iff. destruct (Z_le_gt_dec 0 (v_seed v)); [right; apply Z.ltb_ge; lia|left; apply Z.leb_gt; lia]. }
  rewrite C. reflexivity.
Qed.

Hypothesis BS : (1 <= v_bs v)%Z.
Hypothesis SE : v_seed v = (-1)%Z \/ (0 <= v_seed v < 2 ^ 32)%Z.
Hypothesis D1 : (1 <= v_d v)%Z.
Hypothesis N1 : (1 <= v_N v)%Z.
Hypothesis F1 : (1 <= v_f v)%Z.
Hypothesis PW : ~ (v_pw v == 0)%Q.
Hypothesis SO : forall k, solver (e_prog (all k)).
Notation bs := (Z.to_nat (v_bs v)).
Notation nl := (fst (nonlinearity (v_nl v))).
Notation dnl := (snd (nonlinearity (v_nl v))).

Lemma main_value : run =
  let sizes := batch_sizes num_points bs in
  match (first <- list_item sizes 0 ;;
         _ <- fst (model_forward nl dnl (Q2R (v_pw v)) (block_of v) (all 0) false true first []) ;;
         epochs nl dnl (Q2R (v_pw v)) all (block_of v) (Z.to_nat (v_n v)) 1 sizes) with
  | Raise x => (Raise x, [])
  | Ok tracker => write_files writable [((v_out v ++ ".pt")%string, CModel); ((v_out v ++ ".pkl")%string, CTracker tracker);
                                        ((v_out v ++ "_results_.pkl")%string, CResults (Z.to_nat (v_n v)))]
  end.
Proof.
  destruct V as (A1 & A2 & A3 & A4 & A5 & A6 & A7 & A8 & A9 & A10 & A11 & A12 & A13 & A14 & A15).
  unfold main, int_of, text_of, flag_of. rewrite A1. cbn [bind].
  replace (v_bs v <=? 0)%Z with false by (symmetry; apply Z.leb_gt; lia). cbn [bind]. rewrite A2. cbn [bind].
  assert (CS : check_seed (v_seed v) = Ok tt).
  { unfold check_seed. destruct (Z.eqb_spec (v_seed v) (-1)); [reflexivity|]. destruct SE as [?|[S1 S2]]; [contradiction|].
    apply Z.leb_le in S1. apply Z.ltb_lt in S2. rewrite S1, S2. reflexivity. }
  rewrite CS. cbn [bind]. rewrite A3, A4, A5, A6. cbn [bind]. rewrite (proj1 (shooting_simple _ A15)). cbn [bind].
  rewrite A7, A8, A9, A10, A11, A12, A13, A14. cbn [bind]. destruct (nonlinearity (v_nl v)) as [g dg]. cbn [fst snd].
  replace ((v_d v <? 1) || (v_N v <? 1) || (v_f v <? 1))%Z with false; [reflexivity|]. symmetry.
  apply orb_false_iff. split; [apply orb_false_iff; split|]; apply Z.ltb_ge; assumption.
Qed.

Lemma weight : Q2R (v_pw v) <> 0%R.
Proof. intros E. apply PW. apply eqR_Qeq. rewrite E. unfold Q2R. cbn. lra. Qed.
Lemma particles : 0 < b_particles (block_of v).
Proof. cbn. lia. Qed.
Lemma batch_nat : 1 <= bs.
Proof. lia. Qed.

Lemma main_dimension : v_d v <> 2%Z -> run = (Raise RuntimeError, []).
Proof.
  intros D2. rewrite main_value. cbn zeta. destruct (first_batch bs batch_nat) as (first & rest & -> & _). cbn [list_item nth_error bind].
  destruct (forward_mismatch nl dnl (Q2R (v_pw v)) weight (block_of v) particles (all 0) false true first ltac:(cbn; lia) (SO 0)) as (n' & ->).
  reflexivity.
Qed.

Hypothesis D2 : v_d v = 2%Z.
Lemma dim2 : b_dim (block_of v) = 2.
Proof. cbn. rewrite D2. reflexivity. Qed.

Lemma first_pass B : B <> 1 -> exists n', model_forward nl dnl (Q2R (v_pw v)) (block_of v) (all 0) false true B [] = (Ok (B, 1), n').
Proof.
  intros H. destruct (forward_good nl dnl (Q2R (v_pw v)) weight (block_of v) particles (all 0) false true B ltac:(discriminate) dim2 (proj1 (SO 0)) (fun _ => H))
    as (n' & E & _). exists n'. exact E.
Qed.

Lemma main_single : v_bs v = 1%Z -> run = (Raise ValueError, []).
Proof.
  intros B1. rewrite main_value. cbn zeta. destruct (first_batch bs batch_nat) as (first & rest & -> & (_ & FB) & _). cbn [list_item nth_error bind].
  rewrite FB by (rewrite B1; reflexivity).
  rewrite (forward_single nl dnl (Q2R (v_pw v)) weight (block_of v) particles dim2 all SO 0). reflexivity.
Qed.

Lemma main_last : v_bs v = 2999%Z -> (1 <= v_n v)%Z -> run = (Raise ValueError, []).
Proof.
  intros B1 N'. rewrite main_value. cbn zeta. rewrite (single_last bs batch_nat) by lia. cbn [list_item nth_error bind].
  destruct (first_pass bs ltac:(lia)) as (n' & ->). cbn [fst bind].
  destruct (Z.to_nat (v_n v)) as [|n] eqn:En; [lia|]. cbn [epochs].
  assert (E := passes_single nl dnl (Q2R (v_pw v)) weight (block_of v) particles dim2 all SO [bs] 1). cbn [app] in E.
  rewrite E; [reflexivity|]. constructor; [lia|constructor].
Qed.

Lemma main_simple : (1 < v_bs v)%Z -> v_bs v <> 2999%Z -> v_name v = "simple" -> (1 <= v_n v)%Z -> run = (Raise KeyError, []).
Proof.
  intros B1 B2 M N'. rewrite main_value. cbn zeta. destruct (first_batch bs batch_nat) as (first & rest & E & (FB & _) & _).
  assert (NS := no_single bs batch_nat ltac:(lia) ltac:(lia)). rewrite E in *. cbn [list_item nth_error bind].
  destruct (first_pass first ltac:(lia)) as (n' & ->). cbn [fst bind].
  destruct (Z.to_nat (v_n v)) as [|n] eqn:En; [lia|].
  rewrite epochs_simple; try assumption; [reflexivity|exact weight|exact particles|exact dim2| |discriminate].
  cbn. rewrite M. reflexivity.
Qed.

Hypothesis B1 : (1 < v_bs v)%Z.
Hypothesis W1 : writable (v_out v ++ ".pt")%string = true.
Hypothesis W2 : writable (v_out v ++ ".pkl")%string = true.
Hypothesis W3 : writable (v_out v ++ "_results_.pkl")%string = true.
Definition written (tr : list notes) : list (string * content) :=
  [((v_out v ++ ".pt")%string, CModel); ((v_out v ++ ".pkl")%string, CTracker tr); ((v_out v ++ "_results_.pkl")%string, CResults (Z.to_nat (v_n v)))].
Lemma written_all tr : write_files writable (written tr) = (Ok tt, written tr).
Proof. unfold written. cbn [write_files fst]. rewrite W1, W2, W3. reflexivity. Qed.

Lemma main_untrained : (v_n v <= 0)%Z -> run = (Ok tt, written []).
Proof.
  intros N'. rewrite main_value. cbn zeta. destruct (first_batch bs batch_nat) as (first & rest & E & (FB & _) & _). rewrite E. cbn [list_item nth_error bind].
  destruct (first_pass first ltac:(lia)) as (n' & ->). cbn [fst bind].
  replace (epochs nl dnl (Q2R (v_pw v)) all (block_of v) (Z.to_nat (v_n v)) 1 (first :: rest)) with (Ok (@nil notes)).
  - apply written_all.
  - replace (Z.to_nat (v_n v)) with 0 by lia. reflexivity.
Qed.

Lemma main_trained : v_bs v <> 2999%Z -> v_name v <> "simple" ->
  exists tr, run = (Ok tt, written tr) /\ List.length tr = Z.to_nat (v_n v) /\
    forall i d, nth_error tr i = Some d ->
      recording (Z.to_nat (v_N v)) (2 * Z.to_nat (v_f v))
        (evaluation_times (e_prog (all (S i * (2 * Z.to_nat ((2999 + v_bs v) / v_bs v) + 1))%nat))) d.
Proof.
  intros B2 M. rewrite main_value. cbn zeta. destruct (first_batch bs batch_nat) as (first & rest & E & (FB & _) & _).
  assert (NS := no_single bs batch_nat ltac:(lia) ltac:(lia)). assert (LE := batches_length bs batch_nat). rewrite Z2Nat.id in LE by lia.
  rewrite E in *. cbn [list_item nth_error bind]. destruct (first_pass first ltac:(lia)) as (n' & ->). cbn [fst bind].
  assert (MS : b_model (block_of v) <> Simple).
  { destruct V as (_ & _ & _ & _ & _ & _ & _ & _ & _ & _ & _ & _ & _ & _ & A15). intros X. apply M. apply (proj2 (shooting_simple _ A15)). exact X. }
  destruct (epochs_good nl dnl (Q2R (v_pw v)) weight (block_of v) particles dim2 all SO (first :: rest) MS ltac:(discriminate) NS (Z.to_nat (v_n v)) 1)
    as (tr & -> & L & H). exists tr. split; [apply written_all|]. split; [exact L|].
  intros i d Hi. assert (R := H i d Hi). rewrite LE, dim2 in R. cbn [block_of b_particles b_inflation] in R.
  replace (S i * (2 * Z.to_nat ((2999 + v_bs v) / v_bs v) + 1))
    with (1 + i * (2 * Z.to_nat ((2999 + v_bs v) / v_bs v) + 1) + 2 * Z.to_nat ((2999 + v_bs v) / v_bs v)) by lia. exact R.
Qed.
End Main.

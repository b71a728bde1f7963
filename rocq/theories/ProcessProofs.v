(** Proofs: log files, commands and the output of scripts. *)
From Coq Require Import List String Ascii Arith ZArith Bool Lia DecimalString DecimalNat.
From Verif Require Import Base SweepModel SweepSpec SweepProofs2 CommandModel FigureModel ProcessModel ProcessSpec.
Import ListNotations.
Open Scope list_scope.
Open Scope string_scope.

(** ** Log files *)
Definition clear_of (s : string) : Prop := forall c, In c (list_ascii_of_string s) -> c <> "_"%char /\ c <> "."%char.
Definition ended (s : string) : Prop := match s with EmptyString => False | String c _ => c = "_"%char \/ c = "."%char end.

Lemma clear_split a : forall b r r', clear_of a -> clear_of b -> ended r -> ended r' -> (a ++ r = b ++ r')%string -> a = b /\ r = r'.
Proof.
  induction a as [|c a IH]; intros [|c' b] r r' A B Er Er' E; cbn in E.
  - auto.
  - subst r. destruct (B c' (or_introl eq_refl)). cbn in Er. tauto.
  - subst r'. destruct (A c (or_introl eq_refl)). cbn in Er'. tauto.
  - injection E as <- E. destruct (IH b r r') as [-> ->]; auto; intros x X; [apply A|apply B]; right; exact X.
Qed.

Lemma clear_digits u : clear_of (NilEmpty.string_of_uint u).
Proof.
  unfold clear_of. induction u; cbn; intros c C; [contradiction| | | | | | | | | |];
    (destruct C as [<-|C]; [split; discriminate|apply IHu; exact C]).
Qed.

Lemma clear_int z : clear_of (py_str (VInt z)).
Proof.
  destruct z as [|q|q]; cbn [py_str].
  - intros c [<-|[]]. split; discriminate.
  - apply clear_digits.
  - intros c [<-|C]; [split; discriminate|]. exact (clear_digits _ c C).
Qed.

Lemma digits_not_minus u s : NilEmpty.string_of_uint u <> String "-"%char s.
Proof. destruct u; cbn; discriminate. Qed.

Lemma int_inj a b : py_str (VInt a) = py_str (VInt b) -> a = b.
Proof.
  assert (Z0 : forall q, "0"%string <> dec_nat (Pos.to_nat q)).
  { intros q H. change "0" with (dec_nat 0) in H. apply dec_nat_inj in H. lia. }
  destruct a as [|q|q], b as [|q'|q']; cbn [py_str]; intros E; try reflexivity.
  - destruct (Z0 _ E).
  - discriminate E.
  - destruct (Z0 q). symmetry. exact E.
  - apply dec_nat_inj in E. f_equal. lia.
  - exfalso. exact (digits_not_minus _ _ E).
  - discriminate E.
  - exfalso. symmetry in E. exact (digits_not_minus _ _ E).
  - injection E as E. apply dec_nat_inj in E. f_equal. lia.
Qed.

Lemma app_length (a b : string) : String.length (a ++ b) = (String.length a + String.length b)%nat.
Proof. induction a; cbn; [reflexivity|]. rewrite IHa. reflexivity. Qed.
Lemma app_inj_r : forall a b t : string, (a ++ t = b ++ t)%string -> a = b.
Proof.
  assert (H : forall a b t : string, String.length a = String.length b -> (a ++ t = b ++ t)%string -> a = b).
  { induction a as [|c a IH]; intros [|c' b] t L E; cbn in *; try discriminate; [reflexivity|]. injection E as <- E. f_equal. exact (IH b t (eq_add_S _ _ L) E). }
  intros a b t E. apply (H a b t); [|exact E]. apply (f_equal String.length) in E. rewrite !app_length in E. lia.
Qed.

Lemma join_inj d a b : path_join d (String "l"%char a) = path_join d (String "l"%char b) -> a = b.
Proof.
  unfold path_join. replace (String.prefix "/" (String "l" a)) with false by reflexivity.
  replace (String.prefix "/" (String "l" b)) with false by reflexivity.
  assert (P : forall p x y : string, (p ++ x = p ++ y)%string -> x = y).
  { induction p as [|c p IH]; cbn; intros x y E; [exact E|]. injection E as E. exact (IH _ _ E). }
  destruct (_ || _); intros E; apply P in E; [injection E as E; exact E|].
  change ("/" ++ String "l" a) with (String "/" (String "l" a)) in E. change ("/" ++ String "l" b) with (String "/" (String "l" b)) in E.
  injection E as E. exact E.
Qed.

Lemma log_names_distinct d s s' n n' : get_stage_log_filename d s n = get_stage_log_filename d s' n' -> s = s' /\ n = n'.
Proof.
  unfold get_stage_log_filename. intros E.
  assert (X : (py_str (VInt s) ++ match n with Some m => "_" ++ m ++ ".txt" | None => ".txt" end
             = py_str (VInt s') ++ match n' with Some m => "_" ++ m ++ ".txt" | None => ".txt" end)%string).
  { destruct n as [m|], n' as [m'|]; cbn [append] in E; apply join_inj in E; injection E as E; exact E. }
  apply clear_split in X; [|apply clear_int|apply clear_int|destruct n; cbn; tauto|destruct n'; cbn; tauto].
  destruct X as [A B]. split; [exact (int_inj _ _ A)|]. destruct n as [m|], n' as [m'|]; cbn in B; try discriminate; [|reflexivity].
  injection B as B. apply app_inj_r in B. congruence.
Qed.

(** ** Commands *)
Lemma command_list command args : fold_left (fun (l : list string) el => l ++ [el])%list args [command] = command :: args.
Proof.
  assert (H : forall l : list string, fold_left (fun (l : list string) el => l ++ [el])%list args l = (l ++ args)%list).
  { induction args as [|a args IH]; intros l; cbn [fold_left]; [rewrite app_nil_r; reflexivity|]. rewrite IH, <- app_assoc. reflexivity. }
  apply H.
Qed.

Lemma execute_command_runs exit_code command args verbose :
  started (execute_command exit_code command args verbose) = [command :: args] /\
  (verbose = false -> printed (execute_command exit_code command args verbose) = []).
Proof. split; [cbn [execute_command started]; rewrite command_list; reflexivity|]. intros ->. reflexivity. Qed.

(** ** The output of scripts *)
Lemma split_nonempty c s : split_on c s <> [].
Proof. destruct s as [|a s]; cbn; [discriminate|]. destruct (Ascii.eqb a c); [discriminate|]. destruct (split_on c s); discriminate. Qed.

Lemma split_lines_of s : unlines (split_on newline s) = s /\ Forall one_line (split_on newline s).
Proof.
  induction s as [|a s (IH1 & IH2)]; cbn [split_on].
  - split; [reflexivity|]. apply Forall_cons; [intros []|apply Forall_nil].
  - pose proof (split_nonempty newline s) as NE. destruct (Ascii.eqb_spec a newline) as [->|N].
    + split; [|apply Forall_cons; [intros []|exact IH2]].
      destruct (split_on newline s) as [|l ls]; [congruence|]. change (unlines ("" :: l :: ls)) with (String newline (unlines (l :: ls))).
      rewrite IH1. reflexivity.
    + destruct (split_on newline s) as [|l ls]; [congruence|]. split.
      * destruct ls as [|l' ls]; cbn in *; rewrite IH1; reflexivity.
      * apply Forall_cons; [|exact (Forall_inv_tail IH2)]. intros [E|E]; [apply N; exact E|]. exact (Forall_inv IH2 E).
Qed.

Lemma prefix_comment l : String.prefix "#" l = true <-> comment l.
Proof.
  destruct l as [|c l].
  - split; [intros X; discriminate X|]. intros (r & X). discriminate X.
  - unfold String.prefix. destruct (ascii_dec "#" c) as [<-|N].
    + split; [intros _; eexists; reflexivity|]. intros _. destruct l; reflexivity.
    + split; [intros X; discriminate X|]. intros (r & X). injection X as X _. congruence.
Qed.

Lemma shown_lines ls : forall acc, exists rs, uncommented ls rs /\
  fold_left (fun shown lin => if String.prefix "#" lin then shown else shown ++ [lin])%list ls acc = (acc ++ rs)%list.
Proof.
  induction ls as [|l ls IH]; intros acc; cbn [fold_left].
  - exists []. split; [apply no_lines|rewrite app_nil_r; reflexivity].
  - destruct (String.prefix "#" l) eqn:P.
    + destruct (IH acc) as (rs & U & E). exists rs. split; [apply skip; [apply prefix_comment; exact P|exact U]|exact E].
    + destruct (IH (acc ++ [l])%list) as (rs & U & E). exists (l :: rs). split.
      * apply keep; [|exact U]. intros C. apply prefix_comment in C. congruence.
      * rewrite E, <- app_assoc. reflexivity.
Qed.

Lemma text_shown s : exists ls rs, unlines ls = s /\ Forall one_line ls /\ uncommented ls rs /\ show_output (Str s) = Ok rs.
Proof.
  destruct (split_lines_of s) as (A & B). destruct (shown_lines (split_on newline s) []) as (rs & U & E).
  exists (split_on newline s), rs. split; [exact A|]. split; [exact B|]. split; [exact U|]. cbn [show_output split_lines bind]. rewrite E. reflexivity.
Qed.

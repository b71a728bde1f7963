(** Proofs about configuration strings and delivered commands. *)
From Coq Require Import List String Ascii Arith ZArith Bool Lia DecimalString DecimalNat.
From Verif Require Import Base BaseFacts SweepModel CommandModel ShellSpec CommandSpec.
Import ListNotations.
Open Scope string_scope.

(** ** Escaping *)
Fixpoint esc (s : string) : string :=
  match s with
  | EmptyString => ""
  | String c r => if Ascii.eqb c ";" then escaped_semicolon ++ esc r else String c (esc r)
  end.

Lemma fold_app_string (g : string -> string) l : forall a,
  fold_left (fun ret c => ret ++ g c) l a = a ++ fold_left (fun ret c => ret ++ g c) l "".
Proof.
  induction l as [|x l IH]; intros a; cbn [fold_left]; [symmetry; apply str_app_nil_r|].
  rewrite IH, (IH ("" ++ g x)). cbn [append]. apply str_app_assoc.
Qed.

Lemma split_nonempty c s : split_on c s <> [].
Proof.
  induction s as [|a r IH]; cbn; [discriminate|]. destruct (Ascii.eqb a c); [discriminate|].
  destruct (split_on c r); discriminate.
Qed.

Lemma esc_split s : esc s = match split_on ";" s with
                            | [] => ""
                            | p :: ps => fold_left (fun ret c => ret ++ escaped_semicolon ++ c) ps p
                            end.
Proof.
  induction s as [|a r IH]; [reflexivity|]. cbn [esc split_on].
  pose proof (split_nonempty ";" r) as N. destruct (Ascii.eqb a ";") eqn:E.
  - rewrite IH. destruct (split_on ";" r) as [|p ps]; [congruence|]. cbn [fold_left].
    rewrite (fold_app_string (fun c => escaped_semicolon ++ c) ps ("" ++ escaped_semicolon ++ p)).
    rewrite (fold_app_string (fun c => escaped_semicolon ++ c) ps p). cbn [append].
    rewrite str_app_assoc. reflexivity.
  - rewrite IH. destruct (split_on ";" r) as [|p ps]; [congruence|].
    rewrite (fold_app_string (fun c => escaped_semicolon ++ c) ps p).
    rewrite (fold_app_string (fun c => escaped_semicolon ++ c) ps (String a p)). reflexivity.
Qed.

Lemma split_one_esc s p : split_on ";" s = [p] -> esc s = s /\ s = p.
Proof.
  revert p. induction s as [|a r IH]; intros p; cbn [split_on esc].
  - intros H. injection H as <-. auto.
  - destruct (Ascii.eqb a ";"); [intros H; injection H as _ H; destruct (split_nonempty _ _ H)|].
    pose proof (split_nonempty ";" r). destruct (split_on ";" r) as [|q qs]; [congruence|].
    intros H1. injection H1 as <- ->. destruct (IH q eq_refl) as (-> & ->). auto.
Qed.

Lemma escape_esc s : escape_semicolons s = esc s.
Proof.
  unfold escape_semicolons. pose proof (split_nonempty ";" s) as N. pose proof (esc_split s) as E.
  destruct (split_on ";" s) as [|p [|q qs]] eqn:S; [congruence| |rewrite E; reflexivity].
  symmetry. apply (split_one_esc _ _ S).
Qed.

Lemma esc_app a b : esc (a ++ b) = esc a ++ esc b.
Proof.
  induction a as [|c a IH]; [reflexivity|]. cbn [append esc]. rewrite IH.
  destruct (Ascii.eqb c ";"); [apply eq_sym, str_app_assoc|reflexivity].
Qed.

(** ** Configuration strings *)
Lemma concat_cons2 sep (p q : string) ps :
  String.concat sep (p :: q :: ps) = p ++ sep ++ String.concat sep (q :: ps).
Proof. reflexivity. Qed.

Lemma concat_snoc sep p ps x : String.concat sep ((p :: ps) ++ [x])%list = String.concat sep (p :: ps) ++ sep ++ x.
Proof.
  revert p. induction ps as [|q ps IH]; intros p; [reflexivity|].
  change ((p :: q :: ps) ++ [x])%list with (p :: q :: (ps ++ [x]))%list. rewrite !concat_cons2.
  specialize (IH q). change ((q :: ps) ++ [x])%list with (q :: (ps ++ [x]))%list in IH. rewrite IH, !str_app_assoc.
  reflexivity.
Qed.

Lemma esc_nonempty s : s <> "" -> esc s <> "".
Proof. destruct s as [|c r]; [congruence|]. cbn. destruct (Ascii.eqb c ";"); discriminate. Qed.

Lemma add_nonempty c a : c <> "" -> add_to_config_string (Some c) (Some a) = Ok (c ++ escaped_semicolon ++ esc a).
Proof. intros N. destruct c; [congruence|]. cbn [add_to_config_string]. rewrite escape_esc. reflexivity. Qed.

Lemma config_from c0 parts : c0 <> [] -> hd "" c0 <> "" ->
  foldM (fun cs p => add_to_config_string (Some cs) (Some p)) parts (esc (joined_by_semicolons c0))
  = Ok (esc (joined_by_semicolons (c0 ++ parts)%list)).
Proof.
  revert c0. induction parts as [|p ps IH]; intros c0 N H.
  - rewrite app_nil_r. reflexivity.
  - cbn [foldM]. destruct c0 as [|q qs]; [congruence|]. cbn [hd] in H.
    assert (NE : joined_by_semicolons (q :: qs) <> "").
    { unfold joined_by_semicolons. destruct q as [|a q]; [congruence|]. destruct qs; discriminate. }
    rewrite add_nonempty by (apply esc_nonempty, NE). cbn [bind].
    replace (esc (joined_by_semicolons (q :: qs)) ++ escaped_semicolon ++ esc p)
      with (esc (joined_by_semicolons ((q :: qs) ++ [p])%list)).
    + rewrite (IH ((q :: qs) ++ [p])%list) by (cbn; auto; discriminate). rewrite <- app_assoc. reflexivity.
    + unfold joined_by_semicolons. rewrite concat_snoc, !esc_app. reflexivity.
Qed.

Lemma config_string_all (start : option string) parts : start = None \/ start = Some "" ->
  parts <> [] ->
  (exists s, foldM (fun cs p => s <- add_to_config_string cs (Some p) ;; Ok (Some s)) parts start = Ok (Some s) /\
     s = escape_semicolons (joined_by_semicolons (drop_empty parts))).
Proof.
  assert (G : forall ps c, foldM (fun cs p => s <- add_to_config_string cs (Some p) ;; Ok (Some s)) ps (Some c)
     = (s <- foldM (fun cs p => add_to_config_string (Some cs) (Some p)) ps c ;; Ok (Some s))).
  { induction ps as [|p ps IH]; intros c; [reflexivity|]. cbn [foldM].
    destruct (add_to_config_string (Some c) (Some p)) as [s|e]; [|reflexivity]. cbn [bind]. apply IH. }
  assert (H0 : forall ps, foldM (fun cs p => add_to_config_string (Some cs) (Some p)) ps ""
     = Ok (esc (joined_by_semicolons (drop_empty ps)))).
  { induction ps as [|p ps IH]; [reflexivity|]. cbn [foldM add_to_config_string]. rewrite escape_esc. cbn [bind].
    destruct p as [|a p]; [exact IH|].
    change (esc (String a p)) with (esc (joined_by_semicolons [String a p])).
    rewrite config_from by (cbn; discriminate). reflexivity. }
  intros S N. destruct parts as [|p ps]; [congruence|]. eexists. split; [|reflexivity].
  cbn [foldM]. replace (add_to_config_string start (Some p)) with (Ok (esc p)).
  - cbn [bind]. rewrite G, escape_esc. destruct p as [|a p].
    + change (esc "") with "". rewrite H0. reflexivity.
    + change (esc (String a p)) with (esc (joined_by_semicolons [String a p])) at 1.
      rewrite config_from by (cbn; discriminate). reflexivity.
  - destruct S as [-> | ->]; cbn [add_to_config_string]; rewrite escape_esc; reflexivity.
Qed.

Lemma kv_join kvs : Forall (fun kv => ~ In ";"%char (list_ascii_of_string (fst kv ++ "=" ++ snd kv))) kvs ->
  create_kv_string kvs = escape_semicolons (joined_by_semicolons (map (fun kv => fst kv ++ "=" ++ snd kv) kvs)).
Proof.
  intros F. rewrite escape_esc. unfold create_kv_string.
  assert (I : forall s, ~ In ";"%char (list_ascii_of_string s) -> esc s = s).
  { induction s as [|c s IH]; intros N; [reflexivity|]. cbn [esc list_ascii_of_string] in *.
    destruct (Ascii.eqb_spec c ";") as [->|D]; [destruct N; left; reflexivity|].
    rewrite IH; [reflexivity|]. intros J. apply N. right. exact J. }
  assert (G : forall l a, Forall (fun kv => ~ In ";"%char (list_ascii_of_string (fst kv ++ "=" ++ snd kv))) l ->
    fst (fold_left (fun acc kv => let '(ret, is_first) := acc in
         if is_first : bool then (ret ++ fst kv ++ "=" ++ snd kv, false)
         else (ret ++ escaped_semicolon ++ fst kv ++ "=" ++ snd kv, false)) l (esc a, false))
    = esc (String.concat ";" (a :: map (fun kv => fst kv ++ "=" ++ snd kv) l))).
  { induction l as [|(k, v) l IH]; intros a Fl; cbn [fold_left map]; [reflexivity|].
    inversion Fl as [|x y N Fl']; subst. cbn [fst snd] in *.
    replace (esc a ++ escaped_semicolon ++ k ++ "=" ++ v) with (esc (a ++ ";" ++ (k ++ "=" ++ v))).
    2:{ rewrite (esc_app a), (esc_app ";"), (I _ N). reflexivity. }
    rewrite IH by exact Fl'. f_equal.
    destruct l as [|q l].
    - reflexivity.
    - cbn [map]. rewrite !concat_cons2, !str_app_assoc. reflexivity. }
  destruct kvs as [|(k, v) l]; [reflexivity|]. cbn [fold_left map fst snd append].
  inversion F as [|x y N Fl]; subst. cbn [fst snd] in N.
  pose proof (G l (k ++ "=" ++ v) Fl) as H. rewrite (I _ N) in H. exact H.
Qed.

(** ** Token recognition *)
Definition grow (cur : option string) (s : string) : option string :=
  match s with
  | EmptyString => cur
  | _ => Some (match cur with Some w => w | None => "" end ++ s)
  end.

Lemma grow_add cur c s : grow (add cur c) s = grow cur (String c s).
Proof.
  unfold grow, add. destruct s as [|d s]; [reflexivity|]. destruct cur; [|reflexivity].
  rewrite str_app_assoc. reflexivity.
Qed.

Lemma grow_app cur a b : grow (grow cur a) b = grow cur (a ++ b).
Proof.
  revert cur. induction a as [|c a IH]; intros cur; [reflexivity|].
  rewrite <- grow_add, IH, grow_add. reflexivity.
Qed.

(** Plain characters are none of the special ones. *)
Lemma plain_char_facts c : plain_char c = true ->
  Ascii.eqb c " " = false /\ Ascii.eqb c """" = false /\ Ascii.eqb c "\" = false /\
  is_in c operators = false /\ is_in c expansions = false /\ is_in c "$`!" = false /\ Ascii.eqb c ";" = false.
Proof. destruct c as [[] [] [] [] [] [] [] []]; vm_compute; intros H; try discriminate H; repeat split. Qed.

Lemma lex_plain s : all_chars plain_char s = true -> forall cur r, lex false cur (s ++ r) = lex false (grow cur s) r.
Proof.
  induction s as [|c s IH]; intros H cur r; [reflexivity|]. cbn [all_chars] in H. apply andb_prop in H as (H1 & H2).
  destruct (plain_char_facts c H1) as (E1 & E2 & E3 & E4 & E5 & _).
  cbn [append lex]. rewrite E1, E2, E3, E4, E5, IH by exact H2. rewrite grow_add. reflexivity.
Qed.

Lemma lex_esc s : all_chars (fun c => plain_char c || Ascii.eqb c ";") s = true ->
  forall cur r, lex false cur (esc s ++ r) = lex false (grow cur s) r.
Proof.
  induction s as [|c s IH]; intros H cur r; [reflexivity|]. cbn [all_chars] in H. apply andb_prop in H as (H1 & H2).
  cbn [esc]. destruct (Ascii.eqb_spec c ";") as [->|D].
  - rewrite str_app_assoc. cbn [append escaped_semicolon lex Ascii.eqb]. cbn.
    rewrite IH by exact H2. rewrite grow_add. reflexivity.
  - rewrite orb_false_r in H1. destruct (plain_char_facts c H1) as (E1 & E2 & E3 & E4 & E5 & _).
    cbn [append lex]. rewrite E1, E2, E3, E4, E5, IH by exact H2. rewrite grow_add. reflexivity.
Qed.

(** Text that passes through double quotes unchanged. *)
Inductive through : string -> Prop :=
| through_nil : through ""
| through_semicolon s : through s -> through (escaped_semicolon ++ s)
| through_char c s : Ascii.eqb c """" = false -> Ascii.eqb c "\" = false -> is_in c "$`!" = false ->
    through s -> through (String c s).

Lemma through_app a b : through a -> through b -> through (a ++ b).
Proof.
  intros H B. induction H; cbn [append]; [exact B| |].
  - rewrite str_app_assoc. apply through_semicolon, IHthrough.
  - apply through_char; auto.
Qed.

Lemma lex_through s : through s -> forall w r, lex true (Some w) (s ++ r) = lex true (Some (w ++ s)) r.
Proof.
  intros H. induction H; intros w r.
  - rewrite str_app_nil_r. reflexivity.
  - rewrite str_app_assoc. cbn. unfold add. rewrite IHthrough. f_equal. f_equal. rewrite !str_app_assoc. reflexivity.
  - cbn [append lex]. rewrite H, H0, H1. unfold add. rewrite IHthrough. f_equal. f_equal. rewrite str_app_assoc. reflexivity.
Qed.

Lemma plain_through s : all_chars plain_char s = true -> through s.
Proof.
  induction s as [|c s IH]; intros H; [constructor|]. cbn [all_chars] in H. apply andb_prop in H as (H1 & H2).
  destruct (plain_char_facts c H1) as (_ & E2 & E3 & _ & _ & E6 & _). apply through_char; auto.
Qed.

Lemma esc_through s : all_chars (fun c => plain_char c || Ascii.eqb c ";") s = true -> through (esc s).
Proof.
  induction s as [|c s IH]; intros H; [constructor|]. cbn [all_chars] in H. apply andb_prop in H as (H1 & H2).
  cbn [esc]. destruct (Ascii.eqb_spec c ";") as [->|D]; [apply through_semicolon; auto|].
  rewrite orb_false_r in H1. destruct (plain_char_facts c H1) as (_ & E2 & E3 & _ & _ & E6 & _). apply through_char; auto.
Qed.

Ltac thr := repeat (apply through_char; [reflexivity|reflexivity|reflexivity|]); try apply through_nil.

(** ** The arguments *)
Fixpoint spaced (l : list string) : string :=
  match l with [] => "" | a :: r => a ++ " " ++ spaced r end.

Lemma arguments_spaced l : get_string_argument_from_list l = spaced l.
Proof.
  unfold get_string_argument_from_list.
  assert (G : forall a, fold_left (fun s el => (s ++ el) ++ " ") l a = a ++ spaced l).
  { induction l as [|x l IH]; intros a; cbn [fold_left spaced]; [symmetry; apply str_app_nil_r|].
    rewrite IH, !str_app_assoc. reflexivity. }
  apply G.
Qed.

Lemma spaced_through ws : Forall plain_or_semicolon ws -> through (spaced (map esc ws)).
Proof.
  intros F. induction F as [|w ws (N & P) F IH]; [constructor|]. cbn [map spaced].
  apply through_app; [apply esc_through, P|]. thr. exact IH.
Qed.

Lemma lex_space cur r : lex false cur (" " ++ r) = option_map (fun ts => flush cur ++ ts)%list (lex false None r).
Proof. reflexivity. Qed.

Lemma lex_spaced ws : Forall plain_or_semicolon ws -> forall r,
  lex false None (spaced (map esc ws) ++ r) = option_map (fun ts => map Word ws ++ ts)%list (lex false None r).
Proof.
  intros F. induction F as [|w ws (N & P) F IH]; intros r; cbn [map spaced].
  - cbn. destruct (lex false None r); reflexivity.
  - rewrite !str_app_assoc, lex_esc by exact P. rewrite lex_space, IH.
    destruct w as [|c w]; [congruence|]. destruct (lex false None r); reflexivity.
Qed.

(** Digits. *)
Lemma uint_plain u : all_chars plain_char (NilEmpty.string_of_uint u) = true.
Proof. induction u; cbn; auto. Qed.

Lemma int_plain z : plain (py_str (VInt z)).
Proof.
  assert (G : forall n, plain (dec_nat n)).
  { intros n. split; [|apply uint_plain]. unfold dec_nat. intros E.
    assert (U : Nat.to_uint n = Decimal.Nil) by (destruct (Nat.to_uint n); [reflexivity|discriminate..]).
    assert (V : Nat.of_uint (Nat.to_uint n) = n) by apply DecimalNat.Unsigned.of_to.
    rewrite U in V. cbn in V. subst n. discriminate U. }
  destruct z; cbn [py_str].
  - split; [discriminate|reflexivity].
  - apply G.
  - destruct (G (Pos.to_nat p)) as (_ & P). split; [discriminate|exact P].
Qed.

Lemma plain_esc s : all_chars plain_char s = true -> esc s = s.
Proof.
  induction s as [|c s IH]; intros H; [reflexivity|]. cbn [all_chars] in H. apply andb_prop in H as (H1 & H2).
  destruct (plain_char_facts c H1) as (_ & _ & _ & _ & _ & _ & E). cbn [esc]. rewrite E, IH by exact H2. reflexivity.
Qed.

Lemma plain_semicolon s : plain s -> plain_or_semicolon s.
Proof.
  intros (N & P). split; [exact N|]. clear N. induction s as [|c s IH]; [reflexivity|].
  cbn [all_chars] in *. apply andb_prop in P as (P1 & P2). rewrite P1, IH by exact P2. reflexivity.
Qed.

(** ** The whole command *)
Lemma lex_outer_start r :
  lex false None ("bash -c " ++ dquote ++ r)
  = option_map (fun ts => Word "bash" :: Word "-c" :: ts) (lex true (Some "") r).
Proof. cbn. destruct (lex true (Some "") r); reflexivity. Qed.

Lemma lex_quoted_end w s : through s -> lex true (Some w) (s ++ dquote) = Some [Word (w ++ s)].
Proof. intros H. rewrite lex_through by exact H. reflexivity. Qed.

(** The tail that a log file adds inside the quotes. *)
Definition tail_of (log : option string) : string :=
  match log with Some l => " > >(tee " ++ l ++ ") 2>&1" | None => "" end.

Lemma tail_through log : optional_plain log -> through (tail_of log).
Proof.
  destruct log as [l|]; intros H; [|constructor]. unfold tail_of. cbn [append]. thr.
  apply through_app; [apply plain_through, H|]. thr.
Qed.

Lemma lex_tail log : optional_plain log ->
  exists ts, lex false None (tail_of log) = Some ts /\
    forall cur, commands cur ts = [rev cur].
Proof.
  destruct log as [l|]; intros H.
  - destruct H as (N & P). eexists. split.
    + unfold tail_of. cbn. rewrite lex_plain by exact P. destruct l as [|c l]; [congruence|]. cbn. reflexivity.
    + intros cur. reflexivity.
  - exists []. split; reflexivity.
Qed.

Lemma commands_words ws : forall cur ts, commands cur (map Word ws ++ ts)%list = commands (rev ws ++ cur)%list ts.
Proof.
  induction ws as [|w ws IH]; intros cur ts; [reflexivity|]. cbn [map app commands rev].
  rewrite IH, <- app_assoc. reflexivity.
Qed.

(** What the shell inside gets, given how its text starts. *)
Lemma script_run ws log : Forall plain_or_semicolon ws -> optional_plain log ->
  exists ts, lex false None (spaced (map esc ws) ++ tail_of log) = Some ts /\
    forall cur, commands cur ts = [(rev cur ++ ws)%list].
Proof.
  intros F L. destruct (lex_tail log L) as (ts & E & C). exists (map Word ws ++ ts)%list. split.
  - rewrite lex_spaced, E by exact F. reflexivity.
  - intros cur. rewrite commands_words, C, rev_app_distr, rev_involutive. reflexivity.
Qed.

Definition device_text (cuda : option Z) : string :=
  match cuda with Some d => "CUDA_VISIBLE_DEVICES=" ++ py_str (VInt d) | None => "" end.

Lemma words_alias path cuda ws log : Forall plain_or_semicolon ws -> optional_plain log -> plain path ->
  last_words ("bash -c " ++ dquote ++ "alias python=" ++ dquote ++ path ++ dquote ++ " && " ++ device_text cuda ++ " "
             ++ spaced (map esc ws) ++ tail_of log ++ dquote)
  = Some (match cuda with Some _ => [device_text cuda] | None => [] end ++ ws)%list.
Proof.
  intros F L PP. unfold last_words. rewrite lex_outer_start.
  destruct (int_plain (match cuda with Some d => d | None => 0%Z end)) as (DN & DP).
  assert (TD : through (device_text cuda)).
  { destruct cuda as [d|]; [|constructor]. cbn [device_text append]. thr. apply plain_through, DP. }
  set (after := device_text cuda ++ " " ++ spaced (map esc ws) ++ tail_of log).
  assert (TA : through after).
  { unfold after. apply through_app; [exact TD|]. cbn [append]. thr.
    apply through_app; [apply spaced_through, F|apply tail_through, L]. }
  assert (E1 : lex true (Some "") ("alias python=" ++ dquote ++ path ++ dquote ++ " && " ++ device_text cuda ++ " "
             ++ spaced (map esc ws) ++ tail_of log ++ dquote)
         = Some [Word ("alias python=" ++ path ++ " && " ++ after)]).
  { rewrite lex_through by (cbn [append]; thr). cbn [append]. unfold dquote at 1. cbn [append].
    change (lex true (Some "alias python=") (String """" ?r)) with (lex false (Some "alias python=") r).
    cbn [lex Ascii.eqb Bool.eqb].
    rewrite lex_plain by apply PP. destruct path as [|pc path]; [destruct PP; congruence|].
    unfold grow, dquote at 1. cbn [append].
    cbn [lex Ascii.eqb Bool.eqb].
    assert (X : forall w, lex true (Some w) (" && " ++ after ++ dquote) = Some [Word (w ++ " && " ++ after)]).
    { intros w. rewrite <- str_app_assoc, lex_quoted_end; [reflexivity|]. cbn [append]. thr. exact TA. }
    unfold after in X at 1. rewrite !str_app_assoc in X. cbn [append] in X.
    cbn. cbn in X. rewrite X. rewrite ?str_app_assoc. reflexivity. }
  rewrite E1. cbn [option_map]. destruct (script_run ws log F L) as (ts & E & C).
  assert (E2 : exists pre, lex false None ("alias python=" ++ path ++ " && " ++ after) = Some (pre ++ ts)%list /\
     last (commands [] (pre ++ ts)%list) [] = (match cuda with Some _ => [device_text cuda] | None => [] end ++ ws)%list).
  { assert (E3 : forall w, lex false (Some w) (" && " ++ after) =
        Some (Word w :: Op "&" :: Op "&" :: match cuda with Some _ => [Word (device_text cuda)] | None => [] end ++ ts)%list).
    { intros w. unfold after. destruct cuda as [d|]; cbn [device_text].
      - generalize dependent (py_str (VInt d)). intros ds DN DP. cbn. rewrite lex_plain by exact DP.
        destruct ds as [|c0 s0]; [congruence|]. cbn. rewrite E. reflexivity.
      - cbn. rewrite E. reflexivity. }
    exists (Word "alias" :: Word ("python=" ++ path) :: Op "&" :: Op "&" :: match cuda with Some _ => [Word (device_text cuda)] | None => [] end).
    split.
    - cbn [append]. cbn. rewrite lex_plain by apply PP. destruct path as [|pc path]; [destruct PP; congruence|].
      cbn [grow]. change (String " " (String "&" (String "&" (String " " after)))) with (" && " ++ after).
      rewrite E3. reflexivity.
    - destruct cuda as [d|]; cbn [app commands]; rewrite C; reflexivity. }
  destruct E2 as (pre & E2 & E4). rewrite E2. cbn [option_map]. rewrite E4. reflexivity.
Qed.

Lemma run_command_shape script args path cuda log :
  run_command_with_args script args path cuda log
  = "bash -c " ++ dquote ++ "alias python=" ++ dquote ++ path ++ dquote ++ " && " ++ device_text cuda ++ " "
             ++ spaced ("python" :: script :: make_arg_list args) ++ tail_of log ++ dquote.
Proof.
  unfold run_command_with_args, execute_python_script_via_bash, get_bash_precommand.
  rewrite arguments_spaced.
  destruct cuda as [d|]; destruct log as [l|]; unfold device_text, tail_of; rewrite ?str_app_assoc; reflexivity.
Qed.

Lemma command_words script args path cuda log ws : plain script -> plain path -> optional_plain log ->
  Forall plain_or_semicolon ws -> make_arg_list args = map escape_semicolons ws ->
  last_words (run_command_with_args script args path cuda log)
  = Some (match cuda with Some _ => [device_text cuda] | None => [] end ++ "python" :: script :: ws)%list.
Proof.
  intros PS PP PL F E. rewrite run_command_shape, E.
  replace ("python" :: script :: map escape_semicolons ws) with (map esc ("python" :: script :: ws)).
  - apply words_alias; auto. constructor; [split; [discriminate|reflexivity]|]. constructor; [apply plain_semicolon, PS|exact F].
  - cbn [map]. rewrite (plain_esc script) by apply PS. f_equal. f_equal. apply map_ext. intros a. symmetry. apply escape_esc.
Qed.

Lemma all_chars_app P a b : all_chars P (a ++ b) = all_chars P a && all_chars P b.
Proof. induction a as [|c a IH]; [reflexivity|]. cbn. rewrite IH. apply andb_assoc. Qed.

Lemma plain_option k : plain k -> plain ("--" ++ k).
Proof. intros (_ & P). split; [discriminate|]. rewrite all_chars_app. exact P. Qed.

Lemma options_args args os : Forall2 prints args os ->
  Forall plain_or_semicolon (option_words os) /\ make_arg_list args = map escape_semicolons (option_words os).
Proof.
  assert (PE : forall t, plain t -> escape_semicolons t = t) by (intros t (_ & P); rewrite escape_esc; apply plain_esc, P).
  intros F. induction F as [|(k, v) (k', t) args os (E & K & V) F (I1 & I2)]; [split; [constructor|reflexivity]|].
  cbn [fst snd] in *. subst k'. cbn [option_words make_arg_list flat_map fst snd] in *.
  fold (option_words os) in *. fold (make_arg_list args) in *.
  change (append "--" k) with ("--" ++ k). cbn [app map]. rewrite I2, map_app.
  rewrite (PE ("--" ++ k)) by (apply plain_option, K).
  destruct t as [t|].
  - destruct V as (N & V). assert (T : plain_or_semicolon t /\ py_str v = escape_semicolons t).
    { destruct V as [(P & ->)|V]; [|exact V]. split; [apply plain_semicolon, P|rewrite PE; auto]. }
    destruct T as (T & E). split.
    + constructor; [apply plain_semicolon, plain_option, K|]. constructor; assumption.
    + destruct v; try congruence; rewrite E; reflexivity.
  - subst v. split; [|reflexivity]. constructor; [apply plain_semicolon, plain_option, K|exact I1].
Qed.

Lemma command_delivered script args os path cuda log : plain script -> plain path -> optional_plain log ->
  Forall2 prints args os ->
  delivered (run_command_with_args script args path cuda log) = Some ("python" :: script :: option_words os).
Proof.
  intros PS PP PL F. destruct (options_args _ _ F) as (W & E). unfold delivered.
  rewrite (command_words _ _ _ _ _ _ PS PP PL W E). destruct cuda as [d|]; reflexivity.
Qed.

Lemma command_environment script args os path cuda log : plain script -> plain path -> optional_plain log ->
  Forall2 prints args os ->
  environment (run_command_with_args script args path cuda log)
  = Some (match cuda with Some d => ["CUDA_VISIBLE_DEVICES=" ++ py_str (VInt d)] | None => [] end).
Proof.
  intros PS PP PL F. destruct (options_args _ _ F) as (W & E). unfold environment.
  rewrite (command_words _ _ _ _ _ _ PS PP PL W E). destruct cuda as [d|]; reflexivity.
Qed.

(** Splitting undoes joining. *)
Lemma split_join parts : parts <> [] -> Forall (fun p => ~ In ";"%char (list_ascii_of_string p)) parts ->
  split_on ";" (joined_by_semicolons parts) = parts.
Proof.
  assert (A : forall p r, ~ In ";"%char (list_ascii_of_string p) -> split_on ";" (p ++ String ";" r) = p :: split_on ";" r).
  { induction p as [|c p IH]; intros r N; [reflexivity|]. cbn [append split_on].
    destruct (Ascii.eqb_spec c ";") as [->|D]; [destruct N; left; reflexivity|].
    rewrite IH; [reflexivity|]. intros I. apply N. right. exact I. }
  assert (B : forall p, ~ In ";"%char (list_ascii_of_string p) -> split_on ";" p = [p]).
  { induction p as [|c p IH]; intros N; [reflexivity|]. cbn [split_on].
    destruct (Ascii.eqb_spec c ";") as [->|D]; [destruct N; left; reflexivity|].
    rewrite IH; [reflexivity|]. intros I. apply N. right. exact I. }
  intros N F. unfold joined_by_semicolons. induction F as [|p ps H F IH]; [congruence|].
  destruct ps as [|q ps]; [apply B, H|]. rewrite concat_cons2. cbn [append]. rewrite A by exact H. f_equal. apply IH. discriminate.
Qed.

(** Proofs about pasted commands. *)
From Coq Require Import List String Ascii Arith ZArith Bool Lia.
From Verif Require Import Base BaseFacts ShellSpec CommandProofs ReadmeSpec ArgparseModel.
Import ListNotations.
Open Scope string_scope.
Open Scope list_scope.
Open Scope nat_scope.

(** Text without backslashes and line ends. *)
Definition quiet_char (c : ascii) : bool := negb (Ascii.eqb c "\") && negb (Ascii.eqb c newline).
Definition quiet (s : string) : Prop := all_chars quiet_char s = true.

Lemma all_chars_app P a b : all_chars P (a ++ b)%string = all_chars P a && all_chars P b.
Proof. induction a as [|c a IH]; cbn; [reflexivity|]. rewrite IH, andb_assoc. reflexivity. Qed.
Lemma quiet_app a b : quiet a -> quiet b -> quiet (a ++ b)%string.
Proof. unfold quiet. intros A B. rewrite all_chars_app, A, B. reflexivity. Qed.
Lemma quiet_blanks n : quiet (blanks n).
Proof. induction n as [|n IH]; [reflexivity|]. exact IH. Qed.
Lemma quiet_plain s : all_chars plain_char s = true -> quiet s.
Proof.
  unfold quiet. induction s as [|c s IH]; cbn; intros H; [reflexivity|]. apply andb_prop in H as (H1 & H2).
  rewrite (IH H2), andb_true_r. destruct c as [[] [] [] [] [] [] [] []]; vm_compute in H1 |- *; congruence.
Qed.
Lemma quiet_concat ws : Forall plain ws -> quiet (String.concat " " ws).
Proof.
  intros F. induction F as [|w ws (_ & P) F IH]; [reflexivity|]. cbn [String.concat].
  destruct ws as [|v ws]; [apply quiet_plain, P|]. apply quiet_app; [apply quiet_plain, P|]. apply quiet_app; [reflexivity|exact IH].
Qed.

Lemma joined_quiet a r : quiet a -> joined (a ++ r)%string = (a ++ joined r)%string.
Proof.
  unfold quiet. induction a as [|c a IH]; intros H; [reflexivity|]. cbn in H. apply andb_prop in H as (H1 & H2).
  unfold quiet_char in H1. apply andb_prop in H1 as (H1 & _). apply negb_true_iff in H1. cbn [append joined]. rewrite H1, (IH H2). reflexivity.
Qed.

Lemma lines_quiet a : quiet a -> lines a = [a].
Proof.
  unfold quiet. induction a as [|c a IH]; intros H; [reflexivity|]. cbn in H. apply andb_prop in H as (H1 & H2).
  unfold quiet_char in H1. apply andb_prop in H1 as (_ & H1). apply negb_true_iff in H1. cbn [lines]. rewrite H1, (IH H2). reflexivity.
Qed.
Lemma lines_newline a r : all_chars (fun c => negb (Ascii.eqb c newline)) a = true ->
  lines (a ++ String newline r)%string = a :: lines r.
Proof.
  induction a as [|c a IH]; intros H; [reflexivity|]. cbn in H. apply andb_prop in H as (H1 & H2).
  apply negb_true_iff in H1. cbn [append lines]. rewrite H1, (IH H2). reflexivity.
Qed.
Lemma quiet_no_newline a : quiet a -> all_chars (fun c => negb (Ascii.eqb c newline)) a = true.
Proof.
  unfold quiet. induction a as [|c a IH]; cbn; intros H; [reflexivity|]. apply andb_prop in H as (H1 & H2).
  unfold quiet_char in H1. apply andb_prop in H1 as (_ & ->). exact (IH H2).
Qed.

(** A text up to a word boundary, with its words. *)
Definition reads (p : string) (cur : list string) : Prop :=
  quiet p /\ forall r, lex false None (p ++ r)%string = option_map (fun ts => map Word cur ++ ts) (lex false None r).

Lemma reads_nil : reads "" [].
Proof. split; [reflexivity|]. intros r. cbn. destruct (lex false None r); reflexivity. Qed.
Lemma reads_app p q a b : reads p a -> reads q b -> reads (p ++ q)%string (a ++ b).
Proof.
  intros (P & A) (Q & B). split; [apply quiet_app; assumption|]. intros r. rewrite str_app_assoc, A, B.
  destruct (lex false None r); [|reflexivity]. cbn. rewrite map_app, app_assoc. reflexivity.
Qed.
Lemma reads_blank : reads " " [].
Proof. split; [reflexivity|]. intros r. reflexivity. Qed.
Lemma reads_blanks n : reads (blanks n) [].
Proof. induction n as [|n IH]; [apply reads_nil|]. exact (reads_app " " (blanks n) [] [] reads_blank IH). Qed.
Lemma reads_word w : plain w -> reads (w ++ " ")%string [w].
Proof.
  intros (N & P). split; [apply quiet_app; [apply quiet_plain, P|reflexivity]|]. intros r. rewrite str_app_assoc, lex_plain by exact P.
  rewrite lex_space. destruct w as [|c w]; [congruence|]. destruct (lex false None r); reflexivity.
Qed.
Lemma reads_words ws : Forall plain ws -> reads (String.concat " " ws ++ " ")%string ws.
Proof.
  intros F. induction F as [|w ws P F IH]; [exact reads_blank|]. cbn [String.concat]. destruct ws as [|v ws]; [apply reads_word, P|].
  rewrite !str_app_assoc, <- (str_app_assoc w " "). exact (reads_app _ _ [w] (v :: ws) (reads_word w P) IH).
Qed.

(** A last word without a blank behind it. *)
Lemma lex_blanks n : lex false None (blanks n) = Some [].
Proof.
  assert (H := proj2 (reads_blanks n) ""). rewrite str_app_nil_r in H. rewrite H. reflexivity.
Qed.
Lemma lex_concat ws n : Forall plain ws -> lex false None (String.concat " " ws ++ blanks n)%string = Some (map Word ws).
Proof.
  intros F. induction F as [|w ws P F IH]; [apply lex_blanks|]. cbn [String.concat]. destruct ws as [|v ws].
  - destruct P as (N & P). rewrite lex_plain by exact P. destruct w as [|c w]; [congruence|].
    destruct n as [|n]; [reflexivity|]. cbn [blanks]. change (String " " (blanks n)) with (" " ++ blanks n)%string.
    rewrite lex_space, lex_blanks. reflexivity.
  - rewrite !str_app_assoc, <- (str_app_assoc w " "). rewrite (proj2 (reads_word w P)), IH. reflexivity.
Qed.
Lemma only_words_map ws : only_words (map Word ws) = Some ws.
Proof. induction ws as [|w ws IH]; cbn; [reflexivity|]. rewrite IH. reflexivity. Qed.

Lemma commands_line l ts ws ls cs : lex false None l = Some ts -> only_words ts = Some ws -> commands_of ls = Some cs ->
  commands_of (l :: ls) = Some (command ws cs).
Proof. intros A B C. cbn [commands_of]. rewrite A, C, B. reflexivity. Qed.

Lemma pasted_from l : Forall (fun x => Forall plain (snd (fst x))) l -> forall p cur, reads p cur ->
  commands_of (lines (p ++ joined (written l))%string) = Some (started cur l).
Proof.
  intros F. induction F as [|[[n ws] e] l P F IH]; intros p cur R.
  - cbn [written joined started]. rewrite str_app_nil_r, lines_quiet by apply R.
    apply (commands_line _ (map Word cur)); [|apply only_words_map|reflexivity].
    assert (H := proj2 R ""). rewrite str_app_nil_r in H. rewrite H. cbn. rewrite app_nil_r. reflexivity.
  - cbn [fst snd] in P. cbn [written].
    rewrite joined_quiet by apply quiet_blanks. rewrite joined_quiet by apply quiet_concat, P.
    assert (R1 := reads_app _ _ _ _ R (reads_blanks n)). rewrite app_nil_r in R1.
    destruct e as [|k|k]; cbn [end_text started].
    + change (joined ((" \" ++ String newline "") ++ written l)%string) with (" " ++ joined (written l))%string.
      assert (R2 := reads_app _ _ _ _ R1 (reads_words ws P)). specialize (IH _ _ R2). rewrite !str_app_assoc in IH. exact IH.
    + change (((" \ " ++ blanks k ++ String newline "") ++ written l)%string) with (" \ " ++ ((blanks k ++ String newline "") ++ written l))%string.
      change (joined (" \ " ++ ((blanks k ++ String newline "") ++ written l))%string) with (" \ " ++ joined ((blanks k ++ String newline "") ++ written l))%string.
      rewrite str_app_assoc, joined_quiet by apply quiet_blanks.
      change (joined (String newline "" ++ written l)%string) with (String newline (joined (written l))).
      replace (p ++ blanks n ++ String.concat " " ws ++ " \ " ++ blanks k ++ String newline (joined (written l)))%string
        with (((p ++ blanks n) ++ (String.concat " " ws ++ " ") ++ "\ " ++ blanks k) ++ String newline (joined (written l)))%string
        by (rewrite !str_app_assoc; reflexivity).
      rewrite lines_newline.
      2:{ rewrite !all_chars_app. rewrite (quiet_no_newline p) by apply R. rewrite !(quiet_no_newline (blanks _)) by apply quiet_blanks.
          rewrite (quiet_no_newline (String.concat _ _)) by apply quiet_concat, P. reflexivity. }
      apply (commands_line _ (map Word (cur ++ ws ++ [" "]))); [|apply only_words_map|exact (IH "" [] reads_nil)].
      rewrite (proj2 R1), (proj2 (reads_words ws P)).
      replace (lex false None ("\ " ++ blanks k)%string) with (lex false (Some " ") (blanks k)) by reflexivity.
      replace (lex false (Some " ") (blanks k)) with (Some [Word " "]).
      * cbn [option_map]. rewrite !map_app. reflexivity.
      * destruct k as [|k]; [reflexivity|]. cbn [blanks]. change (String " " (blanks k)) with (" " ++ blanks k)%string.
        rewrite lex_space, lex_blanks. reflexivity.
    + rewrite !str_app_assoc, joined_quiet by apply quiet_blanks.
      change (joined (String newline "" ++ written l)%string) with (String newline (joined (written l))).
      replace (p ++ blanks n ++ String.concat " " ws ++ blanks k ++ String newline (joined (written l)))%string
        with (((p ++ blanks n) ++ String.concat " " ws ++ blanks k) ++ String newline (joined (written l)))%string
        by (rewrite !str_app_assoc; reflexivity).
      rewrite lines_newline.
      2:{ rewrite !all_chars_app. rewrite (quiet_no_newline p) by apply R. rewrite !(quiet_no_newline (blanks _)) by apply quiet_blanks.
          rewrite (quiet_no_newline (String.concat _ _)) by apply quiet_concat, P. reflexivity. }
      apply (commands_line _ (map Word (cur ++ ws))); [|apply only_words_map|exact (IH "" [] reads_nil)].
      rewrite (proj2 R1), lex_concat by exact P. cbn [option_map]. rewrite map_app. reflexivity.
Qed.

Lemma pasted_written : forall l, Forall (fun x => Forall plain (snd (fst x))) l -> pasted (written l) = Some (started [] l).
Proof. intros l F. exact (pasted_from l F "" [] reads_nil). Qed.

(** ** What people read *)
Lemma separated_plain w : all_chars plain_char w = true -> forall cur r, blank_separated cur (w ++ r)%string = blank_separated (cur ++ w)%string r.
Proof.
  induction w as [|c w IH]; intros H cur r; [rewrite str_app_nil_r; reflexivity|]. cbn in H. apply andb_prop in H as (H1 & H2).
  assert (Q := quiet_plain (String c "") ltac:(cbn; rewrite H1; reflexivity)). unfold quiet in Q. cbn in Q. rewrite andb_true_r in Q.
  unfold quiet_char in Q. apply andb_prop in Q as (_ & Q). apply negb_true_iff in Q.
  destruct (plain_char_facts c H1) as (E1 & _). cbn [append blank_separated]. rewrite E1, Q. cbn [orb]. rewrite (IH H2), str_app_assoc. reflexivity.
Qed.
Lemma separated_blanks n r : blank_separated "" (blanks n ++ r)%string = blank_separated "" r.
Proof. induction n as [|n IH]; [reflexivity|]. exact IH. Qed.
(** A separator behind the words: a blank or a line end. *)
Lemma separated_words ws c r : Forall plain ws -> Ascii.eqb c " " || Ascii.eqb c newline = true ->
  blank_separated "" (String.concat " " ws ++ String c r)%string = ws ++ blank_separated "" r.
Proof.
  intros F C. induction F as [|w ws (N & P) F IH].
  - cbn [String.concat append blank_separated]. rewrite C. reflexivity.
  - assert (G : forall d s, Ascii.eqb d " " || Ascii.eqb d newline = true -> blank_separated "" (w ++ String d s)%string = w :: blank_separated "" s).
    { intros d s D. rewrite separated_plain by exact P. change ("" ++ w)%string with w. cbn [blank_separated]. rewrite D.
      destruct w as [|x w]; [congruence|reflexivity]. }
    cbn [String.concat]. destruct ws as [|v ws]; [apply G, C|].
    rewrite !str_app_assoc. change (" " ++ (String.concat " " (v :: ws) ++ String c r))%string with (String " " (String.concat " " (v :: ws) ++ String c r)).
    rewrite G by reflexivity. rewrite IH. reflexivity.
Qed.
Lemma separated_end e r : exists m, forall ws, Forall plain ws ->
  blank_separated "" (String.concat " " ws ++ end_text e ++ r)%string = ws ++ m ++ blank_separated "" r /\ (m = [] \/ m = ["\"]).
Proof.
  assert (B : forall k s, blank_separated "" (blanks k ++ String newline s)%string = blank_separated "" s).
  { intros k s. rewrite separated_blanks. reflexivity. }
  destruct e as [|k|k].
  - exists ["\"]. intros ws F. split; [|right; reflexivity]. exact (separated_words ws " " _ F eq_refl).
  - exists ["\"]. intros ws F. split; [|right; reflexivity].
    change (end_text (Spaced k) ++ r)%string with (String " " (String "\" (String " " ((blanks k ++ String newline "") ++ r))))%string.
    rewrite (separated_words ws " " _ F eq_refl). f_equal.
    rewrite str_app_assoc. change (blank_separated "" (String "\" (String " " (blanks k ++ String newline "" ++ r))))%string
      with ("\" :: blank_separated "" (blanks k ++ String newline r)%string). rewrite B. reflexivity.
  - exists []. intros ws F. split; [|left; reflexivity]. cbn [end_text]. rewrite str_app_assoc.
    change (String newline "" ++ r)%string with (String newline r). destruct k as [|k].
    + exact (separated_words ws newline r F eq_refl).
    + cbn [blanks]. change (String " " (blanks k) ++ String newline r)%string with (String " " (blanks k ++ String newline r)).
      rewrite (separated_words ws " " _ F eq_refl), B. reflexivity.
Qed.

Lemma filter_plain ws : Forall plain ws -> filter (fun w => negb (String.eqb w "\")) ws = ws.
Proof.
  intros F. induction F as [|w ws (N & P) F IH]; [reflexivity|]. cbn [filter]. destruct (String.eqb_spec w "\") as [->|D]; [discriminate P|].
  cbn. rewrite IH. reflexivity.
Qed.

Lemma shown_written : forall l, Forall (fun x => Forall plain (snd (fst x))) l -> shown (written l) = flat_map (fun x => snd (fst x)) l.
Proof.
  intros l F. unfold shown. induction F as [|[[n ws] e] l P F IH]; [reflexivity|]. cbn [fst snd] in P. cbn [written flat_map fst snd].
  rewrite separated_blanks. destruct (separated_end e (written l)) as (m & H). destruct (H ws P) as (-> & M).
  rewrite !filter_app, filter_plain by exact P. rewrite IH. destruct M as [-> | ->]; reflexivity.
Qed.

(** ** A blank as argument *)
Lemma blank_refused p ws ns ns' : parse_words p ws ns = Some ns' -> parse_words p (ws ++ [" "]) ns = None.
Proof.
  assert (G : forall k ws, List.length ws <= k -> forall ns ns', parse_words p ws ns = Some ns' -> parse_words p (ws ++ [" "]) ns = None).
  2:{ apply (G (List.length ws) ws (le_n _)). }
  clear. induction k as [|k IH]; intros ws L ns ns' H.
  - destruct ws; [reflexivity|cbn in L; lia].
  - destruct ws as [|w ws]; [reflexivity|]. cbn [List.length] in L. cbn [app parse_words] in *.
    destruct (classify p w) as [|name [t v| |] [ex|]|]; try discriminate H.
    + destruct (convert t ex); [|discriminate H]. apply (IH ws ltac:(lia) _ _ H).
    + destruct ws as [|x ws]; [discriminate H|]. cbn [app]. destruct (classify p x); try discriminate H.
      destruct (convert t x); [|discriminate H]. cbn [List.length] in L. apply (IH ws ltac:(lia) _ _ H).
    + apply (IH ws ltac:(lia) _ _ H).
Qed.
Lemma blank_rejected : forall p ws ns, parse_args p ws = Some ns -> parse_args p (ws ++ [" "]) = None.
Proof. intros p ws ns. apply blank_refused. Qed.

(** ** Exactly the commands with a backslash directly at each line end but the last *)
Lemma started_count l : Forall (fun x => snd (fst x) <> []) l -> forall cur n ws k, ws <> [] ->
  List.length (started cur (l ++ [(n, ws, Bare k)])) = S (List.length (filter (fun x => match snd x with Continued => false | _ => true end) l)).
Proof.
  assert (C : forall x y, x <> [] -> List.length (command x y) = S (List.length y)) by (intros [|] y H; [congruence|reflexivity]).
  intros F. induction F as [|[[m vs] e] l P F IH]; intros cur n ws k W.
  - cbn. rewrite C; [reflexivity|]. intros H. apply app_eq_nil in H as (_ & H). contradiction.
  - cbn [fst snd] in P. cbn [app started filter snd]. destruct e; [apply IH, W| |]; rewrite C.
    1,3: cbn [List.length]; rewrite IH by exact W; reflexivity.
    all: intros H; apply app_eq_nil in H as (_ & H).
    + apply app_eq_nil in H as (_ & H). discriminate H.
    + contradiction.
Qed.
Lemma started_all l : Forall (fun x => snd x = Continued) l -> forall cur n ws k, ws <> [] ->
  started cur (l ++ [(n, ws, Bare k)]) = [cur ++ flat_map (fun x => snd (fst x)) l ++ ws].
Proof.
  intros F. induction F as [|[[m vs] e] l P F IH]; intros cur n ws k W.
  - cbn. destruct (cur ++ ws) eqn:E; [|reflexivity]. apply app_eq_nil in E as (_ & E). contradiction.
  - cbn in P. subst e. cbn [app started flat_map fst snd]. rewrite IH by exact W. rewrite <- !app_assoc. reflexivity.
Qed.

Lemma pasted_exactly : forall l n ws k, Forall (fun x => snd (fst x) <> [] /\ Forall plain (snd (fst x))) l -> ws <> [] -> Forall plain ws ->
  let text := written (l ++ [(n, ws, Bare k)]) in
  pasted text = Some [shown text] <-> Forall (fun x => snd x = Continued) l.
Proof.
  intros l n ws k F W P text.
  assert (A : Forall (fun x => Forall plain (snd (fst x))) (l ++ [(n, ws, Bare k)])).
  { apply Forall_app. split; [eapply Forall_impl; [|exact F]; intros x H; apply H|]. constructor; [exact P|constructor]. }
  unfold text. rewrite (pasted_written _ A), (shown_written _ A). split.
  - intros [= H]. apply (f_equal (@List.length _)) in H. rewrite started_count in H; [|eapply Forall_impl; [|exact F]; intros x Q; apply Q|exact W].
    cbn in H. injection H as H. apply length_zero_iff_nil in H. apply Forall_forall. intros x I.
    destruct (snd x) eqn:E; [reflexivity| |]; exfalso;
      (assert (B : In x (filter (fun x => match snd x with Continued => false | _ => true end) l)) by (apply filter_In; split; [exact I|rewrite E; reflexivity]));
      rewrite H in B; exact B.
  - intros C. rewrite (started_all l C) by exact W. rewrite flat_map_app. cbn. rewrite app_nil_r. reflexivity.
Qed.

(** Saving figures without a name. *)
From Coq Require Import String Ascii List Arith Bool Lia.
From Verif Require Import Base CommandModel FigureModel FigureSpec FigureFileProofs.
Import ListNotations.
Open Scope string_scope.
Open Scope nat_scope.
Open Scope list_scope.

Lemma strip_only_dots name x : only_dots name -> strip_dots (name ++ x)%string = strip_dots x.
Proof.
  induction name as [|a r IH]; intros D; [reflexivity|]. cbn [append strip_dots]. rewrite (D a (or_introl eq_refl)). cbn [Ascii.eqb].
  apply IH. intros c I. apply D. right. exact I.
Qed.

Lemma no_extension name f : only_dots name -> In f formats -> extension (name ++ "." ++ f)%string = "".
Proof. intros D Fm. unfold extension. rewrite strip_only_dots by exact D. destruct Fm as [<-|[<-|[<-|[]]]]; reflexivity. Qed.

Lemma dots_fit name x : only_dots name -> ~ In "/"%char (list_ascii_of_string x) -> x <> "" -> fits (name ++ "." ++ x)%string.
Proof.
  intros D N NE. split; [|split].
  - rewrite !chars_app, !in_app_iff. intros [H|[H|H]]; [apply D in H; discriminate H| |exact (N H)].
    cbn in H. destruct H as [H|[]]. discriminate H.
  - destruct name; discriminate.
  - destruct name as [|a [|b name]]; [|discriminate|discriminate]. cbn. intros [= H]. exact (NE H).
Qed.

Lemma join_more dir a b : String.prefix "/" a = false -> String.prefix "/" (a ++ b)%string = false ->
  (path_join dir a ++ b)%string = path_join dir (a ++ b)%string.
Proof.
  intros A B. unfold path_join. rewrite A, B. destruct (_ || _); rewrite !app_str_assoc; reflexivity.
Qed.

Section Writing.
Context {F : Type}.
Implicit Types (s : files F) (fig : F).

Lemma savefig_dots fig dir name f s : only_dots name -> In f formats ->
  is_dir (in_directory dir (name ++ "." ++ f) "png") s = false -> is_dir (parse_path dir) s = true ->
  exists s', savefig fig (path_join dir (name ++ "." ++ f)%string) s = (s', Ok tt) /\ f_dirs s' = f_dirs s /\
    file_at (in_directory dir (name ++ "." ++ f) "png") s' = Some (fig, "png") /\
    forall q, q <> in_directory dir (name ++ "." ++ f) "png" -> file_at q s' = file_at q s.
Proof.
  intros D Fm A B.
  assert (S1 : ~ In "/"%char (list_ascii_of_string f) /\ f <> "").
  { split; [apply (format_ok _ Fm)|]. intros ->. destruct Fm as [H|[H|[H|[]]]]; discriminate H. }
  assert (S2 : ~ In "/"%char (list_ascii_of_string (f ++ ".png")) /\ (f ++ ".png")%string <> "").
  { split; [|destruct f; discriminate]. rewrite chars_app, in_app_iff. intros [H|H]; [exact (proj1 S1 H)|].
    cbn in H. repeat destruct H as [H|H]; try discriminate H; contradiction. }
  pose proof (dots_fit name f D (proj1 S1) (proj2 S1)) as F1.
  pose proof (dots_fit name (f ++ ".png") D (proj1 S2) (proj2 S2)) as F2.
  assert (Q : ((name ++ "." ++ f) ++ ".png")%string = (name ++ "." ++ f ++ ".png")%string) by (rewrite !app_str_assoc; reflexivity).
  destruct (join_split dir _ F1) as (pre & X & _). destruct (join_split dir _ F2) as (pre2 & _ & Y).
  unfold savefig. rewrite X, last_last, (no_extension name f D Fm).
  rewrite join_more, Q, Y.
  - unfold in_directory in *. change ("." ++ "png")%string with ".png" in *. rewrite Q in *.
    rewrite <- (removelast_last (parse_path dir) (name ++ "." ++ f ++ ".png")%string) in B. exact (write_ok _ (fig, "png") _ A B).
  - apply prefix_slash. apply F1.
  - rewrite Q. apply prefix_slash. apply F2.
Qed.

Lemma png_differ dir name f g : In f formats -> In g formats -> f <> g ->
  in_directory dir (name ++ "." ++ f) "png" <> in_directory dir (name ++ "." ++ g) "png".
Proof.
  unfold in_directory. intros A B N E. apply app_inj_tail in E. destruct E as [_ E]. apply N.
  rewrite !app_str_assoc in E. induction name as [|a r IH]; [|injection E as E; exact (IH E)].
  destruct A as [<-|[<-|[<-|[]]]], B as [<-|[<-|[<-|[]]]]; first [reflexivity|discriminate E].
Qed.

Lemma for_dots fig dir name l s : only_dots name -> (forall f, In f l -> In f formats) -> NoDup l ->
  (forall f, In f l -> is_dir (in_directory dir (name ++ "." ++ f) "png") s = false) -> is_dir (parse_path dir) s = true ->
  exists s', st_for (fun f => savefig fig (path_join dir (name ++ "." ++ f)%string)) l s = (s', Ok tt) /\
    f_dirs s' = f_dirs s /\
    (forall f, In f l -> file_at (in_directory dir (name ++ "." ++ f) "png") s' = Some (fig, "png")) /\
    forall q, (forall f, In f l -> q <> in_directory dir (name ++ "." ++ f) "png") -> file_at q s' = file_at q s.
Proof.
  intros D. revert s. induction l as [|f l IH]; intros s Fm ND A B.
  - exists s. repeat split; try reflexivity. contradiction.
  - apply NoDup_cons_iff in ND. destruct ND as [NI ND].
    destruct (savefig_dots fig dir name f s D (Fm f (or_introl eq_refl)) (A f (or_introl eq_refl)) B)
      as (s1 & E1 & D1 & G1 & O1).
    destruct (IH s1) as (s2 & E2 & D2 & G2 & O2).
    + intros g G. apply Fm. right. exact G.
    + exact ND.
    + intros g G. rewrite (is_dir_dirs _ s1 s D1). apply A. right. exact G.
    + rewrite (is_dir_dirs _ s1 s D1). exact B.
    + exists s2. cbn [st_for]. unfold st_bind. rewrite E1. split; [exact E2|].
      split; [congruence|]. split.
      * intros g [<-|G]; [|apply G2; exact G]. rewrite O2; [exact G1|].
        intros h H. apply png_differ; [apply Fm; left; reflexivity|apply Fm; right; exact H|]. intros ->. exact (NI H).
      * intros q Q. rewrite O2; [apply O1; apply Q; left; reflexivity|].
        intros g G. apply Q. right. exact G.
Qed.

Lemma save_dots fig dir name s : dir <> "" -> only_dots name -> is_dir (parse_path dir) s = true ->
  (forall f, In f formats -> is_dir (in_directory dir (name ++ "." ++ f) "png") s = false) ->
  exists s', save_all_formats fig dir name s = (s', Ok tt) /\ saved_as_png fig dir name s s'.
Proof.
  intros NE D U A. apply String.eqb_neq in NE.
  destruct (for_dots fig dir name formats s D (fun f H => H) formats_nodup A U) as (s2 & E2 & D2 & G2 & O2).
  exists s2. unfold save_all_formats, st_bind, path_exists. rewrite NE, U. cbn [negb andb orb]. split; [exact E2|].
  split; [exact G2|]. split; [exact O2|]. intros p. apply is_dir_dirs. exact D2.
Qed.
End Writing.

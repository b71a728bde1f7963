(** Saving figures and changing settings. *)
From Coq Require Import String Ascii List Arith Bool Lia.
From Verif Require Import Base CommandModel FigureModel FigureSpec.
Import ListNotations.
Open Scope string_scope.
Open Scope nat_scope.
Open Scope list_scope.

(** ** Paths *)

Lemma path_eqb_spec p q : reflect (p = q) (path_eqb p q).
Proof. unfold path_eqb. destruct (list_eq_dec string_dec p q); constructor; assumption. Qed.

Lemma path_eqb_refl p : path_eqb p p = true.
Proof. destruct (path_eqb_spec p p); congruence. Qed.

Lemma split_ne c s : split_on c s <> [].
Proof. destruct s as [|a r]; cbn; [discriminate|]. destruct (Ascii.eqb a c); [discriminate|]. destruct (split_on c r); discriminate. Qed.

Lemma split_app c a b : split_on c (a ++ String c b)%string = split_on c a ++ split_on c b.
Proof.
  induction a as [|x a IH]; cbn [append split_on].
  - rewrite Ascii.eqb_refl. reflexivity.
  - rewrite IH. destruct (Ascii.eqb x c); [reflexivity|].
    pose proof (split_ne c a). destruct (split_on c a); [congruence|reflexivity].
Qed.

Lemma split_none c s : ~ In c (list_ascii_of_string s) -> split_on c s = [s].
Proof.
  induction s as [|a r IH]; [reflexivity|]. cbn [list_ascii_of_string split_on]. intros N.
  destruct (Ascii.eqb_spec a c) as [->|_]; [exfalso; apply N; left; reflexivity|].
  rewrite IH; [reflexivity|]. intros I. apply N. right. exact I.
Qed.

Lemma chars_app a b : list_ascii_of_string (a ++ b)%string = list_ascii_of_string a ++ list_ascii_of_string b.
Proof. induction a as [|x a IH]; [reflexivity|]. cbn. f_equal. exact IH. Qed.

Lemma slash_end a : ends_with_slash a = true -> exists d, a = (d ++ "/")%string.
Proof.
  induction a as [|x a IH]; [discriminate|]. cbn [ends_with_slash]. destruct a as [|y a].
  - intros E. apply Ascii.eqb_eq in E. subst. exists "". reflexivity.
  - intros E. destruct (IH E) as [d D]. exists (String x d). rewrite D. reflexivity.
Qed.

Lemma app_str_assoc a b c : ((a ++ b) ++ c)%string = (a ++ b ++ c)%string.
Proof. induction a as [|x a IH]; [reflexivity|]. cbn [append]. rewrite IH. reflexivity. Qed.

Lemma prefix_slash_app a b : a <> "" -> String.prefix "/" (a ++ b)%string = String.prefix "/" a.
Proof.
  destruct a as [|x a]; [congruence|]. intros _. cbn [append String.prefix].
  destruct (ascii_dec "/" x); [|reflexivity]. destruct a; destruct b; reflexivity.
Qed.

Lemma prefix_slash b : ~ In "/"%char (list_ascii_of_string b) -> String.prefix "/" b = false.
Proof.
  destruct b as [|x b]; [reflexivity|]. cbn [String.prefix list_ascii_of_string]. intros N.
  destruct (ascii_dec "/" x); [|reflexivity]. subst. exfalso. apply N. left. reflexivity.
Qed.

Definition fits (nm : string) : Prop :=
  ~ In "/"%char (list_ascii_of_string nm) /\ nm <> "" /\ nm <> ".".

Lemma filter_name nm : fits nm ->
  filter (fun c => negb (String.eqb c "" || String.eqb c ".")) [nm] = [nm].
Proof.
  intros (_ & A & B). cbn [filter]. apply String.eqb_neq in A, B. rewrite A, B. reflexivity.
Qed.

Lemma join_split dir nm : fits nm -> exists pre,
  split_on "/" (path_join dir nm) = pre ++ [nm] /\
  parse_path (path_join dir nm) = parse_path dir ++ [nm].
Proof.
  intros F. pose proof F as (N & _). unfold path_join. rewrite (prefix_slash _ N).
  destruct (String.eqb_spec dir "") as [->|NE].
  - exists []. cbn [append orb app]. rewrite split_none by exact N. split; [reflexivity|].
    unfold parse_path. rewrite (prefix_slash _ N), split_none by exact N. cbn [app].
    rewrite filter_name by exact F. reflexivity.
  - cbn [orb]. destruct (ends_with_slash dir) eqn:E.
    + destruct (slash_end _ E) as [d ->]. exists (split_on "/" d).
      assert (X : split_on "/" ((d ++ "/") ++ nm) = split_on "/" d ++ [nm]).
      { rewrite app_str_assoc. cbn [append]. rewrite split_app, (split_none _ nm) by exact N. reflexivity. }
      split; [exact X|]. unfold parse_path. rewrite X, prefix_slash_app by exact NE.
      rewrite (split_app "/" d ""), !filter_app, filter_name by exact F.
      cbn [split_on filter String.eqb negb orb]. rewrite !app_nil_r, app_assoc. reflexivity.
    + exists (split_on "/" dir).
      assert (X : split_on "/" (dir ++ "/" ++ nm) = split_on "/" dir ++ [nm]).
      { cbn [append]. rewrite split_app, (split_none _ nm) by exact N. reflexivity. }
      split; [exact X|]. unfold parse_path. rewrite X, prefix_slash_app by exact NE.
      rewrite filter_app, filter_name by exact F. rewrite app_assoc. reflexivity.
Qed.

Lemma strip_name name x : (exists c, In c (list_ascii_of_string name) /\ c <> "."%char) ->
  strip_dots (name ++ x)%string = (strip_dots name ++ x)%string.
Proof.
  induction name as [|a r IH]; intros (c & I & NC); [contradiction|]. cbn [append strip_dots].
  destruct (Ascii.eqb_spec a ".") as [->|D]; [|reflexivity]. apply IH. exists c. split; [|exact NC].
  destruct I as [E|I]; [congruence|exact I].
Qed.

Lemma extension_of name f : simple_name name -> ~ In "."%char (list_ascii_of_string f) ->
  extension (name ++ "." ++ f)%string = f.
Proof.
  intros (_ & E) N. unfold extension. rewrite strip_name by exact E. cbn [append].
  rewrite split_app, (split_none _ f) by exact N. pose proof (split_ne "." (strip_dots name)).
  destruct (split_on "." (strip_dots name)) as [|p ps]; [congruence|].
  cbn [app]. destruct (ps ++ [f]) as [|q qs] eqn:Q; [destruct ps; discriminate|].
  rewrite <- Q. apply last_last.
Qed.

(** ** Writing *)
Section Writing.
Context {F : Type}.
Implicit Types (s : files F) (fig : F).

Lemma is_dir_dirs p s s' : f_dirs s = f_dirs s' -> is_dir p s = is_dir p s'.
Proof. unfold is_dir. intros ->. reflexivity. Qed.

Lemma find_filter (p q : list string) (l : list (list string * (F * string))) : p <> q ->
  find (fun f => path_eqb p (fst f)) (filter (fun f => negb (path_eqb q (fst f))) l) =
  find (fun f => path_eqb p (fst f)) l.
Proof.
  intros N. induction l as [|[r c] l IH]; [reflexivity|]. cbn [filter find fst].
  destruct (path_eqb_spec q r) as [->|Q]; cbn [negb].
  - rewrite IH. destruct (path_eqb_spec p r); [congruence|reflexivity].
  - cbn [find fst]. rewrite IH. reflexivity.
Qed.

Lemma write_ok p c s : is_dir p s = false -> is_dir (removelast p) s = true ->
  exists s', write p c s = (s', Ok tt) /\ f_dirs s' = f_dirs s /\ file_at p s' = Some c /\
    forall q, q <> p -> file_at q s' = file_at q s.
Proof.
  intros A B. unfold write. rewrite A, B. cbn [orb negb]. eexists. split; [reflexivity|].
  cbn [f_dirs]. split; [reflexivity|]. unfold file_at. cbn [f_files find fst].
  rewrite path_eqb_refl. split; [reflexivity|]. intros q N.
  destruct (path_eqb_spec q p); [congruence|]. rewrite find_filter by exact n. reflexivity.
Qed.

Lemma format_ok f : In f formats -> ~ In "."%char (list_ascii_of_string f) /\ ~ In "/"%char (list_ascii_of_string f).
Proof. cbn. intros [<-|[<-|[<-|[]]]]; cbn; split; intros H; repeat destruct H as [H|H]; try discriminate H; contradiction. Qed.

Lemma name_fits name f : simple_name name -> In f formats -> fits (name ++ "." ++ f)%string.
Proof.
  intros (N & c & I & _) Fm. destruct (format_ok _ Fm) as [_ S]. split; [|split].
  - rewrite !chars_app, !in_app_iff. intros [H|[H|H]]; [exact (N H)| |exact (S H)].
    cbn in H. destruct H as [H|[]]. discriminate H.
  - destruct name; [contradiction|discriminate].
  - destruct name as [|a [|b name]]; [contradiction| |discriminate]. cbn. intros [= _ H].
Qed.

Lemma savefig_ok fig dir name f s : simple_name name -> In f formats ->
  is_dir (in_directory dir name f) s = false -> is_dir (parse_path dir) s = true ->
  exists s', savefig fig (path_join dir (name ++ "." ++ f)%string) s = (s', Ok tt) /\ f_dirs s' = f_dirs s /\
    file_at (in_directory dir name f) s' = Some (fig, f) /\
    forall q, q <> in_directory dir name f -> file_at q s' = file_at q s.
Proof.
  intros Sn Fm A B. pose proof (name_fits _ _ Sn Fm) as Fi.
  destruct (join_split dir _ Fi) as (pre & X & Y). unfold savefig.
  rewrite X, last_last. rewrite (extension_of name f Sn (proj1 (format_ok _ Fm))).
  unfold in_directory in *. rewrite Y. rewrite <- (removelast_last (parse_path dir) (name ++ "." ++ f)%string) in B.
  destruct (write_ok _ (fig, f) _ A B) as (s' & W & R).
  exists s'. split; [|exact R]. destruct f as [|c f]; [|exact W].
  cbn in Fm. destruct Fm as [H|[H|[H|[]]]]; discriminate H.
Qed.

Lemma directories_differ dir name f g : f <> g -> in_directory dir name f <> in_directory dir name g.
Proof.
  unfold in_directory. intros N E. apply app_inj_tail in E. destruct E as [_ E]. apply N.
  induction name as [|a r IH]; [injection E as E; exact E|]. injection E as E. exact (IH E).
Qed.

Lemma for_ok fig dir name l s : simple_name name -> (forall f, In f l -> In f formats) -> NoDup l ->
  (forall f, In f l -> is_dir (in_directory dir name f) s = false) -> is_dir (parse_path dir) s = true ->
  exists s', st_for (fun f => savefig fig (path_join dir (name ++ "." ++ f)%string)) l s = (s', Ok tt) /\
    f_dirs s' = f_dirs s /\
    (forall f, In f l -> file_at (in_directory dir name f) s' = Some (fig, f)) /\
    forall q, (forall f, In f l -> q <> in_directory dir name f) -> file_at q s' = file_at q s.
Proof.
  intros Sn. revert s. induction l as [|f l IH]; intros s Fm ND A B.
  - exists s. repeat split; try reflexivity. contradiction.
  - apply NoDup_cons_iff in ND. destruct ND as [NI ND].
    destruct (savefig_ok fig dir name f s Sn (Fm f (or_introl eq_refl)) (A f (or_introl eq_refl)) B)
      as (s1 & E1 & D1 & G1 & O1).
    destruct (IH s1) as (s2 & E2 & D2 & G2 & O2).
    + intros g G. apply Fm. right. exact G.
    + exact ND.
    + intros g G. rewrite (is_dir_dirs _ s1 s D1). apply A. right. exact G.
    + rewrite (is_dir_dirs _ s1 s D1). exact B.
    + exists s2. cbn [st_for]. unfold st_bind. rewrite E1. split; [exact E2|].
      split; [congruence|]. split.
      * intros g [<-|G]; [|apply G2; exact G]. rewrite O2; [exact G1|].
        intros h H. apply directories_differ. intros ->. exact (NI H).
      * intros q Q. rewrite O2; [apply O1; apply Q; left; reflexivity|].
        intros g G. apply Q. right. exact G.
Qed.

Lemma formats_nodup : NoDup formats.
Proof. repeat constructor; cbn; intros H; repeat destruct H as [H|H]; try discriminate H; contradiction. Qed.

Lemma is_dir_add p q s : is_dir p (mkFiles (q :: f_dirs s) (f_files s)) = true <-> is_dir p s = true \/ p = q.
Proof.
  unfold is_dir. cbn [f_dirs existsb]. rewrite !orb_true_iff.
  destruct (path_eqb_spec p q); intuition (congruence || auto).
Qed.

Lemma save_ok fig dir name s : dir <> "" -> simple_name name -> usable dir s ->
  (forall f, In f formats -> is_dir (in_directory dir name f) s = false) ->
  exists s', save_all_formats fig dir name s = (s', Ok tt) /\ saved fig dir name s s'.
Proof.
  intros NE Sn U A. apply String.eqb_neq in NE.
  assert (P : exists s1, (if path_exists dir s then (s, Ok tt) else mkdir dir s) = (s1, Ok tt) /\
                f_files s1 = f_files s /\ (forall p, is_dir p s1 = true <-> is_dir p s = true \/ p = parse_path dir)).
  { unfold path_exists. rewrite NE. cbn [negb andb].
    destruct U as [U|[U V]].
    - rewrite U. cbn [orb]. exists s. split; [reflexivity|]. split; [reflexivity|].
      intros p. split; [auto|]. intros [H| ->]; assumption.
    - destruct (is_dir (parse_path dir) s) eqn:E; cbn [orb].
      + exists s. split; [reflexivity|]. split; [reflexivity|].
        intros p. split; [auto|]. intros [H| ->]; assumption.
      + rewrite U. unfold mkdir, path_exists. rewrite NE, U, V, E. cbn [negb andb orb].
        eexists. split; [reflexivity|]. split; [reflexivity|]. intros p. apply is_dir_add. }
  destruct P as (s1 & E1 & F1 & D1).
  destruct (for_ok fig dir name formats s1 Sn (fun f H => H) formats_nodup) as (s2 & E2 & D2 & G2 & O2).
  - intros f Fm. destruct (is_dir (in_directory dir name f) s1) eqn:E; [|reflexivity].
    apply D1 in E. destruct E as [E|E]; [rewrite (A f Fm) in E; discriminate|].
    exfalso. unfold in_directory in E. apply (f_equal (@List.length _)) in E. rewrite app_length in E. cbn in E. lia.
  - apply D1. right. reflexivity.
  - exists s2. unfold save_all_formats, st_bind. rewrite E1. split; [exact E2|].
    split; [exact G2|]. split.
    + intros p Q. rewrite O2 by exact Q. unfold file_at. rewrite F1. reflexivity.
    + intros p. rewrite (is_dir_dirs _ s2 s1 D2). apply D1.
Qed.
End Writing.

(** ** Settings *)

Lemma get_set {A} k k' (v : A) d : sd_get k (pd_set k' v d) = if String.eqb k k' then Some v else sd_get k d.
Proof.
  induction d as [|[x w] d IH]; cbn [pd_set sd_get]; [reflexivity|].
  destruct (String.eqb_spec k' x) as [->|N]; cbn [sd_get].
  - destruct (String.eqb_spec k x); reflexivity.
  - rewrite IH. destruct (String.eqb_spec k x) as [->|]; [|reflexivity].
    destruct (String.eqb_spec x k'); [congruence|reflexivity].
Qed.

Lemma setup_cases s : (exists k, In k pgf_keys /\ sd_get k (s_rc s) = None) /\ setup_pgf_plotting s = (s, Raise KeyError) \/
  exists a b c d e, map (fun k => sd_get k (s_rc s)) pgf_keys = [Some a; Some b; Some c; Some d; Some e] /\
    setup_pgf_plotting s = (fst (rc_update new_rcsettings (mkSettings "pgf" (s_rc s))),
                            Ok (s_backend s, combine pgf_keys [a; b; c; d; e])).
Proof.
  unfold setup_pgf_plotting, st_bind. cbn [foldM new_rcsettings fst pgf_keys map]. unfold sd_item.
  Local Ltac missing k := left; split; [exists k; split; [cbn; tauto|assumption]|reflexivity].
  destruct (sd_get "pgf.texsystem" (s_rc s)) as [a|] eqn:A; cbn [bind]; [|missing "pgf.texsystem"].
  destruct (sd_get "font.family" (s_rc s)) as [b|] eqn:B; cbn [bind]; [|missing "font.family"].
  destruct (sd_get "text.usetex" (s_rc s)) as [c|] eqn:C; cbn [bind]; [|missing "text.usetex"].
  destruct (sd_get "pgf.rcfonts" (s_rc s)) as [d|] eqn:D; cbn [bind]; [|missing "pgf.rcfonts"].
  destruct (sd_get "pgf.preamble" (s_rc s)) as [e|] eqn:E; cbn [bind]; [|missing "pgf.preamble"].
  right. exists a, b, c, d, e. split; reflexivity.
Qed.

(** The values set for pgf output. *)
Lemma setup_effect s s1 p : setup_pgf_plotting s = (s1, Ok p) ->
  s_backend s1 = "pgf" /\
  map (fun k => sd_get k (s_rc s1)) pgf_keys =
    [Some (RText "pdflatex"); Some (RText "serif"); Some (RFlag true); Some (RFlag false);
     Some (RTexts ["\usepackage{amsmath}"; "\usepackage{amssymb}"])] /\
  (forall k, ~ In k pgf_keys -> sd_get k (s_rc s1) = sd_get k (s_rc s)).
Proof.
  destruct (setup_cases s) as [[_ E]|(a & b & c & d & e & _ & E)]; rewrite E; [discriminate|].
  intros [= <- _]. split; [reflexivity|]. split.
  - cbn [rc_update fst s_rc fold_left new_rcsettings snd pgf_keys map]. rewrite !get_set. reflexivity.
  - intros k N. cbn [rc_update fst s_rc fold_left new_rcsettings snd]. rewrite !get_set.
    destruct (String.eqb_spec k "pgf.preamble") as [->|]; [exfalso; apply N; cbn; tauto|].
    destruct (String.eqb_spec k "pgf.rcfonts") as [->|]; [exfalso; apply N; cbn; tauto|].
    destruct (String.eqb_spec k "text.usetex") as [->|]; [exfalso; apply N; cbn; tauto|].
    destruct (String.eqb_spec k "font.family") as [->|]; [exfalso; apply N; cbn; tauto|].
    destruct (String.eqb_spec k "pgf.texsystem") as [->|]; [exfalso; apply N; cbn; tauto|].
    reflexivity.
Qed.

Lemma setup_fails s : (exists k, In k pgf_keys /\ sd_get k (s_rc s) = None) <->
  setup_pgf_plotting s = (s, Raise KeyError).
Proof.
  destruct (setup_cases s) as [[K E]|(a & b & c & d & e & G & E)]; [tauto|]. split.
  - intros (k & I & N). exfalso. cbn [map pgf_keys] in G. injection G as A B C D X.
    cbn [In pgf_keys] in I. repeat destruct I as [I|I]; try contradiction; subst k; congruence.
  - rewrite E. discriminate.
Qed.

Lemma round_trip s s1 backend rc : setup_pgf_plotting s = (s1, Ok (backend, rc)) ->
  forall u, exists s', reset_pgf_plotting backend rc u = (s', Ok tt) /\ restored s u s'.
Proof.
  destruct (setup_cases s) as [[_ E]|(a & b & c & d & e & G & E)]; rewrite E; [discriminate|].
  intros [= _ <- <-] u. eexists. split; [reflexivity|].
  cbn [map pgf_keys] in G. injection G as A B C D X.
  cbn [combine pgf_keys]. split; [reflexivity|]. split.
  - intros k I. cbn [s_rc fold_left fst snd]. rewrite !get_set.
    cbn [In pgf_keys] in I. repeat destruct I as [<-|I]; try contradiction; cbn [String.eqb Ascii.eqb Bool.eqb]; congruence.
  - intros k N. cbn [s_rc fold_left fst snd]. rewrite !get_set.
    destruct (String.eqb_spec k "pgf.preamble") as [->|]; [exfalso; apply N; cbn; tauto|].
    destruct (String.eqb_spec k "pgf.rcfonts") as [->|]; [exfalso; apply N; cbn; tauto|].
    destruct (String.eqb_spec k "text.usetex") as [->|]; [exfalso; apply N; cbn; tauto|].
    destruct (String.eqb_spec k "font.family") as [->|]; [exfalso; apply N; cbn; tauto|].
    destruct (String.eqb_spec k "pgf.texsystem") as [->|]; [exfalso; apply N; cbn; tauto|].
    reflexivity.
Qed.

(** The names of the frames and their order. *)
From Coq Require Import String Ascii List Arith NArith Bool Lia Sorted.
From Verif Require Import Base CommandModel FigureModel FigureSpec FigureFileProofs FigureTemporalProofs VizModel VizSpec.
Import ListNotations.
Open Scope string_scope.
Open Scope nat_scope.
Open Scope list_scope.

(** ** Order of texts *)

Lemma ltb_irrefl a : str_ltb a a = false.
Proof. induction a as [|x a IH]; [reflexivity|]. cbn [str_ltb]. rewrite Ascii.eqb_refl. exact IH. Qed.

Lemma ltb_trans a : forall b c, str_ltb a b = true -> str_ltb b c = true -> str_ltb a c = true.
Proof.
  induction a as [|x a IH]; intros [|y b] [|z c]; cbn [str_ltb]; try discriminate; try reflexivity.
  destruct (Ascii.eqb_spec x y) as [->|XY], (Ascii.eqb_spec y z) as [->|YZ]; intros H1 H2.
  - rewrite ?Ascii.eqb_refl. apply (IH b); assumption.
  - destruct (Ascii.eqb_spec y z); [congruence|exact H2].
  - destruct (Ascii.eqb_spec x z); [congruence|exact H1].
  - apply N.ltb_lt in H1, H2. destruct (Ascii.eqb_spec x z) as [->|]; [lia|]. apply N.ltb_lt. lia.
Qed.

Lemma ltb_total a : forall b, str_ltb a b = false -> a <> b -> str_ltb b a = true.
Proof.
  induction a as [|x a IH]; intros [|y b]; cbn [str_ltb]; try discriminate; try reflexivity; try congruence.
  rewrite (Ascii.eqb_sym y x). destruct (Ascii.eqb_spec x y) as [->|XY].
  - intros H N. apply IH; [exact H|congruence].
  - intros H _. apply N.ltb_ge in H. apply N.ltb_lt.
    assert (N_of_ascii x <> N_of_ascii y); [|lia].
    intros E. apply XY. rewrite <- (ascii_N_embedding x), E, ascii_N_embedding. reflexivity.
Qed.

Lemma ltb_app a : forall b x y, String.length a = String.length b ->
  str_ltb (a ++ x) (b ++ y) = if String.eqb a b then str_ltb x y else str_ltb a b.
Proof.
  induction a as [|c a IH]; intros [|d b] x y L; try discriminate; [reflexivity|].
  cbn [append str_ltb String.eqb]. destruct (Ascii.eqb c d); [|reflexivity].
  apply IH. injection L as L. exact L.
Qed.

Lemma ltb_prefix a x y : str_ltb (a ++ x) (a ++ y) = str_ltb x y.
Proof. rewrite ltb_app by reflexivity. rewrite String.eqb_refl. reflexivity. Qed.

(** ** Digits *)

Lemma digit_cases d : d < 10 -> d = 0 \/ d = 1 \/ d = 2 \/ d = 3 \/ d = 4 \/ d = 5 \/ d = 6 \/ d = 7 \/ d = 8 \/ d = 9.
Proof. lia. Qed.

Lemma digit_lt a b : b < 10 -> a < b ->
  str_ltb (String (ascii_of_nat (48 + a)) "") (String (ascii_of_nat (48 + b)) "") = true.
Proof.
  intros B L. assert (A : a < 10) by lia. apply digit_cases in A, B.
  decompose [or] A; decompose [or] B; subst; try lia; reflexivity.
Qed.

Lemma digit_no_slash a : a < 10 -> ascii_of_nat (48 + a) <> "/"%char.
Proof. intros A. apply digit_cases in A. decompose [or] A; subst; discriminate. Qed.

Lemma length_app a b : String.length (a ++ b) = String.length a + String.length b.
Proof. induction a as [|x a IH]; [reflexivity|]. cbn. rewrite IH. reflexivity. Qed.

Lemma digits_length w : forall n, String.length (digits w n) = w.
Proof. induction w as [|w IH]; intros n; [reflexivity|]. cbn [digits]. rewrite length_app, IH. cbn. lia. Qed.

Lemma digits_lt w : forall i j, j < 10 ^ w -> i < j -> str_ltb (digits w i) (digits w j) = true.
Proof.
  induction w as [|w IH]; intros i j J L; [cbn in J; lia|]. cbn [digits].
  rewrite ltb_app by (rewrite !digits_length; reflexivity).
  pose proof (Nat.div_mod_eq i 10). pose proof (Nat.div_mod_eq j 10).
  pose proof (Nat.mod_upper_bound i 10 ltac:(discriminate)). pose proof (Nat.mod_upper_bound j 10 ltac:(discriminate)).
  assert (J' : j / 10 < 10 ^ w) by (apply Nat.div_lt_upper_bound; [discriminate|exact J]).
  destruct (Nat.eq_dec (i / 10) (j / 10)) as [E|NE].
  - rewrite E, String.eqb_refl. apply digit_lt; lia.
  - assert (L' : i / 10 < j / 10) by lia. pose proof (IH _ _ J' L') as K.
    destruct (String.eqb_spec (digits w (i / 10)) (digits w (j / 10))) as [E|_]; [|exact K].
    rewrite E, ltb_irrefl in K. discriminate.
Qed.

Lemma digits_no_slash w : forall n, ~ In "/"%char (list_ascii_of_string (digits w n)).
Proof.
  induction w as [|w IH]; intros n; [intros []|]. cbn [digits]. rewrite chars_app, in_app_iff.
  intros [H|[H|[]]]; [exact (IH _ H)|]. symmetry in H. revert H. apply not_eq_sym, digit_no_slash.
  apply Nat.mod_upper_bound. discriminate.
Qed.

Lemma digits_five i : digits 5 i = five_digits i.
Proof.
  unfold five_digits. cbn [digits append map string_of_list_ascii].
  rewrite !Nat.div_div by discriminate. reflexivity.
Qed.

Lemma padded_five i : i < 10 ^ 5 -> padded 5 i = five_digits i.
Proof. intros H. unfold padded. rewrite (proj2 (Nat.ltb_lt _ _) H). apply digits_five. Qed.

(** ** Names *)

Definition png (prefix : string) (i : nat) : string := (frame_file prefix i ++ ".png")%string.

Lemma png_lt prefix i j : j < 10 ^ 5 -> i < j -> str_ltb (png prefix i) (png prefix j) = true.
Proof.
  intros J L. unfold png, frame_file. rewrite !app_str_assoc, ltb_prefix. rewrite (ltb_prefix "-").
  rewrite <- !digits_five, ltb_app by (rewrite !digits_length; reflexivity).
  pose proof (digits_lt 5 i j J L) as K. destruct (String.eqb_spec (digits 5 i) (digits 5 j)) as [E|_]; [|exact K].
  rewrite E, ltb_irrefl in K. discriminate.
Qed.

Lemma png_inj prefix i j : i < 10 ^ 5 -> j < 10 ^ 5 -> png prefix i = png prefix j -> i = j.
Proof.
  intros I J E. destruct (Nat.lt_trichotomy i j) as [L|[L|L]]; [|exact L|];
    [pose proof (png_lt prefix i j J L) as K|pose proof (png_lt prefix j i I L) as K];
    rewrite E, ltb_irrefl in K; discriminate.
Qed.

Lemma frame_simple prefix i : ~ In "/"%char (list_ascii_of_string prefix) -> simple_name (frame_file prefix i).
Proof.
  intros N. unfold frame_file. split.
  - rewrite !chars_app, !in_app_iff. intros [H|[H|H]]; [exact (N H)|destruct H as [H|[]]; discriminate H|].
    rewrite <- digits_five in H. exact (digits_no_slash _ _ H).
  - exists "-"%char. split; [|discriminate]. rewrite !chars_app, !in_app_iff. right. left. left. reflexivity.
Qed.

(** ** Matching *)

Lemma split_at n : forall s, n <= String.length s -> exists a b, s = (a ++ b)%string /\ String.length a = n.
Proof.
  induction n as [|n IH]; intros s L.
  - exists "", s. split; reflexivity.
  - destruct s as [|c s]; [cbn in L; lia|]. destruct (IH s ltac:(cbn in L; lia)) as (a & b & -> & A).
    exists (String c a), b. split; [reflexivity|]. cbn. rewrite A. reflexivity.
Qed.

Lemma substring_all b : substring 0 (String.length b) b = b.
Proof. induction b as [|c b IH]; [reflexivity|]. cbn. rewrite IH. reflexivity. Qed.

Lemma substring_end a b : substring (String.length a) (String.length b) (a ++ b) = b.
Proof. induction a as [|c a IH]; cbn; [apply substring_all|exact IH]. Qed.

Lemma matches_iff prefix name : matches prefix name = true <-> exists x, name = (prefix ++ "-" ++ x ++ ".png")%string.
Proof.
  unfold matches. rewrite !andb_true_iff, prefix_iff, Nat.leb_le, String.eqb_eq. split.
  - intros [[(r & ->) L] E]. rewrite !length_app in L. cbn [String.length] in L.
    destruct (split_at (String.length r - 4) r ltac:(lia)) as (x & y & -> & X).
    rewrite !length_app in *. assert (Y : String.length y = 4) by lia.
    exists x. rewrite app_str_assoc. do 3 f_equal. rewrite <- E, <- Y.
    replace (String.length prefix + String.length "-" + (String.length x + String.length y) - String.length y)
      with (String.length ((prefix ++ "-") ++ x)) by (rewrite !length_app; lia).
    rewrite <- (app_str_assoc (prefix ++ "-")), substring_end. reflexivity.
  - intros (x & ->). split; [split|].
    + exists (x ++ ".png")%string. rewrite app_str_assoc. reflexivity.
    + rewrite !length_app. cbn. lia.
    + rewrite <- !app_str_assoc. set (h := ((prefix ++ "-") ++ x)%string).
      rewrite length_app.
      replace (String.length h + String.length ".png" - 4) with (String.length h) by (cbn; lia).
      exact (substring_end h ".png").
Qed.

(** ** Sorted names *)

Definition increasing (l : list string) : Prop := StronglySorted str_lt l.

Lemma insert_in n l x : In x (insert_name n l) <-> x = n \/ In x l.
Proof.
  induction l as [|m r IH]; cbn [insert_name]; [cbn; intuition congruence|].
  destruct (str_ltb n m); [cbn; intuition congruence|].
  destruct (String.eqb_spec n m) as [->|_]; [cbn; intuition congruence|]. cbn [In]. rewrite IH. intuition congruence.
Qed.

Lemma insert_increasing n l : increasing l -> increasing (insert_name n l).
Proof.
  intros H. induction H as [|m r R IH F]; cbn [insert_name]; [repeat constructor|].
  destruct (str_ltb n m) eqn:E.
  - constructor; [constructor; assumption|]. constructor; [exact E|].
    eapply Forall_impl; [|exact F]. intros a A. apply (ltb_trans n m a); assumption.
  - destruct (String.eqb_spec n m) as [->|NE]; [constructor; assumption|]. constructor; [exact IH|].
    apply Forall_forall. intros x X. apply insert_in in X. destruct X as [->|X].
    + apply ltb_total; assumption.
    + rewrite Forall_forall in F. apply F. exact X.
Qed.

Lemma sorted_increasing l : increasing (fold_right insert_name [] l).
Proof. induction l as [|n l IH]; cbn [fold_right]; [constructor|apply insert_increasing; exact IH]. Qed.

Lemma sorted_in l x : In x (fold_right insert_name [] l) <-> In x l.
Proof. induction l as [|n l IH]; cbn [fold_right]; [reflexivity|]. rewrite insert_in, IH. cbn. intuition congruence. Qed.

Lemma increasing_unique l : forall m, increasing l -> increasing m -> (forall x, In x l <-> In x m) -> l = m.
Proof.
  induction l as [|a l IH]; intros m L M E.
  - destruct m as [|b m]; [reflexivity|]. exfalso. apply (E b). left. reflexivity.
  - destruct m as [|b m]; [exfalso; apply (E a); left; reflexivity|].
    inversion L as [|? ? L1 L2]; subst. inversion M as [|? ? M1 M2]; subst.
    rewrite Forall_forall in L2, M2.
    assert (A : a = b).
    { destruct (proj1 (E a) (or_introl eq_refl)) as [X|X]; [congruence|].
      destruct (proj2 (E b) (or_introl eq_refl)) as [Y|Y]; [congruence|].
      pose proof (ltb_trans _ _ _ (M2 _ X) (L2 _ Y)) as K. rewrite ltb_irrefl in K. discriminate. }
    subst b. f_equal. apply IH; [assumption|assumption|]. intros x. split; intros X.
    + destruct (proj1 (E x) (or_intror X)) as [Y|Y]; [|exact Y]. subst x.
      pose proof (L2 _ X) as K. unfold str_lt in K. rewrite ltb_irrefl in K. discriminate.
    + destruct (proj2 (E x) (or_intror X)) as [Y|Y]; [|exact Y]. subst x.
      pose proof (M2 _ X) as K. unfold str_lt in K. rewrite ltb_irrefl in K. discriminate.
Qed.

Lemma pngs_increasing prefix T : T <= 10 ^ 5 -> forall k, increasing (map (png prefix) (seq k (T - k))).
Proof.
  intros B k. remember (T - k) as n. revert k Heqn. induction n as [|n IH]; intros k E; cbn [seq map]; [constructor|].
  constructor; [apply IH; lia|]. apply Forall_forall. intros x X. apply in_map_iff in X. destruct X as (j & <- & J).
  apply in_seq in J. apply png_lt; lia.
Qed.

(** ** Expansion *)

Lemma path_split (p : list string) d n : p = [] \/ (removelast p = d /\ last p "" = n <-> p = d ++ [n]).
Proof.
  destruct p as [|a p]; [left; reflexivity|]. right. split.
  - intros [<- <-]. apply app_removelast_last. discriminate.
  - intros ->. split; [apply removelast_last|apply last_last].
Qed.

Lemma file_at_in p (s : files picture) : (exists c, In (p, c) (f_files s)) <-> file_at p s <> None.
Proof.
  unfold file_at. destruct (find (fun f => path_eqb p (fst f)) (f_files s)) as [[q c]|] eqn:F.
  - split; [discriminate|]. intros _. apply find_some in F. destruct F as [I E]. cbn in E.
    destruct (path_eqb_spec p q); [|discriminate]. subst. exists c. exact I.
  - split; [|congruence]. intros (c & I). pose proof (find_none _ _ F _ I) as E. cbn in E.
    rewrite path_eqb_refl in E. discriminate.
Qed.

Lemma expand_in d prefix s n : In n (expand d prefix s) <->
  (exists x, n = (prefix ++ "-" ++ x ++ ".png")%string) /\ file_at (d ++ [n]) s <> None.
Proof.
  unfold expand. rewrite sorted_in, filter_In, matches_iff, in_flat_map. split.
  - intros [((p & c) & I & J) (x & X)]. cbn [fst] in J.
    destruct (path_eqb_spec (removelast p) d) as [<-|_]; [|contradiction]. destruct J as [J|[]].
    split; [exists x; exact X|]. apply file_at_in. exists c.
    destruct p as [|a p]; [|rewrite <- J, <- app_removelast_last by discriminate; exact I].
    exfalso. cbn in J. rewrite <- J in X. apply (f_equal String.length) in X. rewrite !length_app in X. cbn in X. lia.
  - intros [X F]. apply file_at_in in F. destruct F as (c & I). split; [|exact X].
    exists (d ++ [n], c). split; [exact I|]. cbn [fst]. rewrite removelast_last, path_eqb_refl, last_last.
    left. reflexivity.
Qed.

Lemma expand_increasing d prefix s : increasing (expand d prefix s).
Proof. apply sorted_increasing. Qed.

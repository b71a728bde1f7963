(** Facts about argparse: what it makes of well-formed words, and what it can return at all. *)
From Coq Require Import List String Ascii Arith ZArith QArith Bool Lia DecimalString DecimalNat.
From Verif Require Import Base SweepModel SweepSpec SweepProofs SweepProofs2 ShellSpec ArgparseModel.
Import ListNotations.
Open Scope string_scope.
Open Scope list_scope.
Open Scope nat_scope.

(** *** Numbers *)
Definition no_dash (s : string) : bool := match s with String c _ => negb (Ascii.eqb c "-") | EmptyString => true end.

Lemma classify_value p s : no_dash s = true -> classify p s = Positional.
Proof.
  destruct s as [|c s]; [reflexivity|]. cbn [no_dash]. destruct (Ascii.eqb_spec c "-"); [discriminate|]. intros _.
  destruct c as [[] [] [] [] [] [] [] []]; try reflexivity. contradiction n. reflexivity.
Qed.

Lemma int_text_no_dash s : no_dash s = true -> int_of_text s = option_map Z.of_nat (nat_of_text s).
Proof.
  destruct s as [|c s]; [reflexivity|]. cbn [no_dash]. destruct (Ascii.eqb_spec c "-"); [discriminate|]. intros _.
  destruct c as [[] [] [] [] [] [] [] []]; try reflexivity. contradiction n. reflexivity.
Qed.

Lemma dec_nat_nonempty n : dec_nat n <> "".
Proof.
  unfold dec_nat. intros E.
  assert (U : Nat.to_uint n = Decimal.Nil) by (destruct (Nat.to_uint n); [reflexivity|discriminate..]).
  assert (V : Nat.of_uint (Nat.to_uint n) = n) by apply Unsigned.of_to.
  rewrite U in V. cbn in V. subst n. discriminate U.
Qed.

Lemma uint_digits u : digits (NilEmpty.string_of_uint u) = true.
Proof. unfold digits. induction u; cbn; auto. Qed.

Lemma digits_no_dash s : digits s = true -> no_dash s = true.
Proof.
  destruct s as [|c s]; [reflexivity|]. unfold digits. cbn. destruct (Ascii.eqb_spec c "-") as [->|]; [discriminate|reflexivity].
Qed.

Lemma digits_no_point s : digits s = true -> cut "." s = None.
Proof.
  induction s as [|c s IH]; [reflexivity|]. unfold digits in *. cbn [list_ascii_of_string forallb cut]. intros H.
  apply andb_prop in H as [A B]. destruct (Ascii.eqb_spec c ".") as [->|]; [discriminate A|]. rewrite IH by exact B. reflexivity.
Qed.

Lemma digits_no_e s : digits s = true -> cut "e" s = None.
Proof.
  induction s as [|c s IH]; [reflexivity|]. unfold digits in *. cbn [list_ascii_of_string forallb cut]. intros H.
  apply andb_prop in H as [A B]. destruct (Ascii.eqb_spec c "e") as [->|]; [discriminate A|]. rewrite IH by exact B. reflexivity.
Qed.

Lemma nat_text n : nat_of_text (dec_nat n) = Some n.
Proof.
  unfold nat_of_text. assert (N := dec_nat_nonempty n). destruct (dec_nat n) as [|c s] eqn:E; [congruence|]. rewrite <- E.
  unfold dec_nat. rewrite NilEmpty.usu. f_equal. apply Unsigned.of_to.
Qed.

Lemma int_str z : (0 <= z)%Z -> exists n, py_str (VInt z) = dec_nat n /\ z = Z.of_nat n.
Proof.
  intros H. exists (Z.to_nat z). split; [|lia]. destruct z; [reflexivity|reflexivity|lia].
Qed.

Lemma int_text z : (0 <= z)%Z -> no_dash (py_str (VInt z)) = true /\ int_of_text (py_str (VInt z)) = Some z /\
  float_of_text (py_str (VInt z)) = Some (inject_Z z).
Proof.
  intros H. destruct (int_str z H) as [n [-> ->]].
  assert (D : digits (dec_nat n) = true) by apply uint_digits.
  assert (I : int_of_text (dec_nat n) = Some (Z.of_nat n)).
  { rewrite (int_text_no_dash _ (digits_no_dash _ D)), nat_text. reflexivity. }
  split; [apply digits_no_dash, D|]. split; [exact I|].
  unfold float_of_text, decimal_of_text. rewrite (digits_no_e _ D), (digits_no_point _ D), I. reflexivity.
Qed.

(** *** Well-formed words *)
Lemma classify_option p n k : n <> "" -> pd_get n p = Some k -> classify p ("--" ++ n) = Opt n k None.
Proof. intros N G. destruct n as [|c n]; [congruence|]. cbn. rewrite G. reflexivity. Qed.

(** An option with its text as the parser should take it. *)
Definition takes (p : parser) (o : string * option string) (a : argval) : Prop :=
  fst o <> "" /\ match snd o with
  | None => pd_get (fst o) p = Some Flag /\ a = AFlag true
  | Some v => exists t d, pd_get (fst o) p = Some (Value t d) /\ no_dash v = true /\ convert t v = Some a
  end.

Definition set_all (l : list (string * argval)) (ns : pdict argval) : pdict argval :=
  fold_left (fun ns oa => pd_set (fst oa) (snd oa) ns) l ns.

Lemma parse_options p os vals : Forall2 (takes p) os vals -> forall rest ns,
  parse_words p (option_words os ++ rest) ns = parse_words p rest (set_all (combine (map fst os) vals) ns).
Proof.
  induction 1 as [|o a os vals [N T] F IH]; intros rest ns; [reflexivity|].
  destruct o as [n v]. cbn [fst snd] in *. destruct v as [v|].
  - destruct T as (t & d & G & D & C). cbn [option_words flat_map fst snd]. fold (option_words os).
    cbn [app]. cbn [parse_words]. rewrite (classify_option p n _ N G). cbn iota.
    rewrite (classify_value p v D), C. exact (IH rest _).
  - destruct T as [G ->]. cbn [option_words flat_map fst snd]. fold (option_words os).
    cbn [app]. cbn [parse_words]. rewrite (classify_option p n _ N G). exact (IH rest _).
Qed.

Lemma parse_stops p n t d v rest ns : n <> "" -> pd_get n p = Some (Value t d) -> no_dash v = true -> convert t v = None ->
  parse_words p (option_words [(n, Some v)] ++ rest) ns = None.
Proof.
  intros N G D C. cbn [option_words flat_map fst snd app]. cbn [parse_words].
  rewrite (classify_option p n _ N G). cbn iota. rewrite (classify_value p v D), C. reflexivity.
Qed.

Lemma set_all_other l : forall ns n, ~ In n (map fst l) -> pd_get n (set_all l ns) = pd_get n ns.
Proof.
  induction l as [|[k a] l IH]; intros ns n H; [reflexivity|]. cbn in *. change (fold_left _ l ?x) with (set_all l x).
  rewrite IH by tauto. rewrite pd_get_set. destruct (String.eqb_spec n k); [subst; tauto|reflexivity].
Qed.

Lemma set_all_in l : forall ns n a, NoDup (map fst l) -> In (n, a) l -> pd_get n (set_all l ns) = Some a.
Proof.
  induction l as [|[k b] l IH]; intros ns n a D I; [destruct I|]. cbn in *. change (fold_left _ l ?x) with (set_all l x).
  inversion D as [|? ? D1 D2]; subst. destruct I as [E|I].
  - injection E as -> ->. rewrite set_all_other by exact D1. rewrite pd_get_set, String.eqb_refl. reflexivity.
  - apply IH; assumption.
Qed.

(** *** What can be returned *)
Definition has_type (t : argtype) (a : argval) : Prop :=
  match t, a with
  | TInt, AInt _ => True
  | TFloat, ANum _ => True
  | TText None, AText _ => True
  | TText (Some l), AText s => In s l
  | _, _ => False
  end.
Definition has_kind (k : kind) (o : option argval) : Prop :=
  match k with
  | Value t _ => exists a, o = Some a /\ has_type t a
  | Flag => exists b, o = Some (AFlag b)
  | Help => True
  end.

Lemma convert_type t s a : convert t s = Some a -> has_type t a.
Proof.
  destruct t as [| |[l|]]; cbn.
  - destruct (int_of_text s); [|discriminate]. intros [= <-]. exact I.
  - destruct (float_of_text s); [|discriminate]. intros [= <-]. exact I.
  - destruct (existsb (String.eqb s) l) eqn:E; [|discriminate]. intros [= <-].
    apply existsb_exists in E as (x & X & E). apply String.eqb_eq in E. subst x. exact X.
  - intros [= <-]. exact I.
Qed.

Lemma pd_get_nodup {A} (d : pdict A) k v : NoDup (map fst d) -> In (k, v) d -> pd_get k d = Some v.
Proof.
  induction d as [|[k' v'] d IH]; intros D I; [destruct I|]. unfold pd_get in *. cbn in *. inversion D as [|? ? D1 D2]; subst.
  destruct I as [E|I].
  - injection E as -> ->. rewrite String.eqb_refl. reflexivity.
  - destruct (String.eqb_spec k k') as [->|]; [|apply IH; assumption]. exfalso. apply D1. change k' with (fst (k', v)).
    apply in_map. exact I.
Qed.

Lemma classify_declared p w n k e : NoDup (map fst p) -> classify p w = Opt n k e -> pd_get n p = Some k.
Proof.
  intros D. assert (G : forall r : string, match pd_get r p with
      | Some k => Opt r k None
      | None => let '(n, e) := match cut "=" r with Some (a, b) => (a, Some b) | None => (r, None) end in
          match pd_get n p with
          | Some k => Opt n k e
          | None => match filter (fun d => String.prefix n (fst d)) p with
              | [d] => Opt (fst d) (snd d) e
              | [] => if has_space w then Positional else Bad
              | _ => Bad end end end = Opt n k e -> pd_get n p = Some k).
  { intros r. destruct (pd_get r p) eqn:E1; [intros [= <- <- <-]; exact E1|].
    destruct (match cut "=" r with Some (a, b) => (a, Some b) | None => (r, None) end) as [m e'].
    destruct (pd_get m p) eqn:E2; [intros [= <- <- <-]; exact E2|].
    destruct (filter _ p) as [|[dn dk] [|? ?]] eqn:E3; [destruct (has_space w); discriminate| |discriminate].
    cbn. intros [= <- <- <-]. apply pd_get_nodup; [exact D|].
    assert (X : In (dn, dk) (filter (fun d => String.prefix m (fst d)) p)) by (rewrite E3; left; reflexivity).
    apply filter_In in X. tauto. }
  destruct w as [|c w]; [discriminate|]. destruct (Ascii.eqb_spec c "-") as [->|N].
  - destruct w as [|c w]; [discriminate|]. destruct (Ascii.eqb_spec c "-") as [->|N].
    + destruct w as [|c w]; [discriminate|]. exact (G (String c w)).
    + intros H. exfalso. revert H. unfold classify.
      destruct c as [[] [] [] [] [] [] [] []]; try (destruct (negative_number _ || has_space _); discriminate).
      contradiction N. reflexivity.
  - intros H. rewrite classify_value in H; [discriminate|]. cbn. destruct (Ascii.eqb_spec c "-"); [contradiction|reflexivity].
Qed.

Lemma set_kinds p n a k ns : pd_get n p = Some k -> k <> Help -> has_kind k (Some a) ->
  (forall m k', pd_get m p = Some k' -> has_kind k' (pd_get m ns)) ->
  forall m k', pd_get m p = Some k' -> has_kind k' (pd_get m (pd_set n a ns)).
Proof.
  intros G H K I m k' G'. rewrite pd_get_set. destruct (String.eqb_spec m n) as [->|]; [|apply I; exact G'].
  rewrite G in G'. injection G' as <-. exact K.
Qed.

Lemma parse_kinds p : NoDup (map fst p) -> forall N ws, List.length ws <= N -> forall ns ns',
  (forall m k, pd_get m p = Some k -> has_kind k (pd_get m ns)) -> parse_words p ws ns = Some ns' ->
  forall m k, pd_get m p = Some k -> has_kind k (pd_get m ns').
Proof.
  intros D. induction N as [|N IH]; intros ws L ns ns' I H.
  { destruct ws; [|cbn in L; lia]. cbn in H. injection H as <-. exact I. }
  destruct ws as [|w ws]; [cbn in H; injection H as <-; exact I|]. cbn [parse_words] in H. cbn in L.
  destruct (classify p w) as [|n k e|] eqn:C; [discriminate| |discriminate].
  assert (G := classify_declared p w n k e D C). destruct k as [t d| |]; [| |discriminate].
  - destruct e as [v|].
    + destruct (convert t v) as [a|] eqn:CV; [|discriminate].
      apply (IH ws ltac:(lia) (pd_set n a ns) ns'); [|exact H].
      apply (set_kinds p n a _ ns G); [discriminate| |exact I]. exists a. split; [reflexivity|apply (convert_type _ _ _ CV)].
    + destruct ws as [|v ws']; [discriminate|]. destruct (classify p v); [|discriminate..].
      destruct (convert t v) as [a|] eqn:CV; [|discriminate]. cbn in L.
      apply (IH ws' ltac:(lia) (pd_set n a ns) ns'); [|exact H].
      apply (set_kinds p n a _ ns G); [discriminate| |exact I]. exists a. split; [reflexivity|apply (convert_type _ _ _ CV)].
  - destruct e; [discriminate|]. apply (IH ws ltac:(lia) (pd_set n (AFlag true) ns) ns'); [|exact H].
    apply (set_kinds p n _ _ ns G); [discriminate| |exact I]. exists true. reflexivity.
Qed.

Lemma parsed_kinds p ws ns : NoDup (map fst (("help", Help) :: p)) ->
  (forall m k, pd_get m p = Some k -> has_kind k (pd_get m (defaults p))) -> parse_args p ws = Some ns ->
  forall m k, m <> "help" -> pd_get m p = Some k -> has_kind k (pd_get m ns).
Proof.
  intros D I H m k N G. apply (parse_kinds _ D _ ws (le_n _) (defaults p) ns) with (m := m); [|exact H|].
  - intros m' k' G'. unfold pd_get in G'. cbn [sd_get] in G'. destruct (String.eqb_spec m' "help").
    + injection G' as <-. exact Logic.I.
    + apply I. exact G'.
  - unfold pd_get. cbn [sd_get]. destruct (String.eqb_spec m "help"); [contradiction|]. exact G.
Qed.

(** Only declared options are set. *)
Lemma parse_undeclared p : NoDup (map fst p) -> forall m, pd_get m p = None -> forall N ws, List.length ws <= N -> forall ns ns',
  parse_words p ws ns = Some ns' -> pd_get m ns' = pd_get m ns.
Proof.
  intros D m U. induction N as [|N IH]; intros ws L ns ns' H.
  { destruct ws; [|cbn in L; lia]. cbn in H. injection H as <-. reflexivity. }
  destruct ws as [|w ws]; [cbn in H; injection H as <-; reflexivity|]. cbn [parse_words] in H. cbn in L.
  destruct (classify p w) as [|n k e|] eqn:C; [discriminate| |discriminate].
  assert (G := classify_declared p w n k e D C).
  assert (X : forall (a : argval) ns, pd_get m (pd_set n a ns) = pd_get m ns).
  { intros a ns0. rewrite pd_get_set. destruct (String.eqb_spec m n) as [->|]; [congruence|reflexivity]. }
  destruct k as [t d| |]; [| |discriminate].
  - destruct e as [v|].
    + destruct (convert t v) as [a|]; [|discriminate]. rewrite (IH ws ltac:(lia) _ _ H). apply X.
    + destruct ws as [|v ws']; [discriminate|]. destruct (classify p v); [|discriminate..].
      destruct (convert t v) as [a|]; [|discriminate]. cbn in L. rewrite (IH ws' ltac:(lia) _ _ H). apply X.
  - destruct e; [discriminate|]. rewrite (IH ws ltac:(lia) _ _ H). apply X.
Qed.

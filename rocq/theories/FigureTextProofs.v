(** Escaping for LaTeX. *)
From Coq Require Import String Ascii List Arith Bool Lia.
From Verif Require Import Base FigureModel FigureSpec.
Import ListNotations.
Open Scope string_scope.
Open Scope nat_scope.
Open Scope list_scope.

Local Ltac all_chars c := destruct c as [[] [] [] [] [] [] [] []].

Local Notation alts := (sort_by_length (keys conv)).

(** What a character becomes. *)
Definition piece (c : ascii) : string :=
  match sd_get (String c "") conv with Some v => v | None => String c "" end.

Fixpoint esc (s : string) : string :=
  match s with EmptyString => "" | String c r => (piece c ++ esc r)%string end.

Lemma find_alt c r : find (fun a => String.prefix a (String c r)) alts =
  match sd_get (String c "") conv with Some _ => Some (String c "") | None => None end.
Proof. destruct r; all_chars c; reflexivity. Qed.

Lemma escape_is s : escape_latex_special_characters s = Ok (esc s).
Proof.
  unfold escape_latex_special_characters. induction s as [|c r IH]; [reflexivity|].
  cbn [regex_sub]. rewrite find_alt. cbn [esc]. unfold piece.
  destruct (sd_get (String c "") conv) eqn:E.
  - assert (I : sd_item (String c "") conv = Ok s) by (unfold sd_item; rewrite E; reflexivity).
    rewrite I. cbn [bind String.length Nat.sub]. rewrite IH. reflexivity.
  - rewrite IH. reflexivity.
Qed.

Lemma append_assoc a b c : ((a ++ b) ++ c)%string = (a ++ b ++ c)%string.
Proof. induction a as [|x a IH]; [reflexivity|]. cbn [append]. rewrite IH. reflexivity. Qed.

Lemma esc_app a b : esc (a ++ b)%string = (esc a ++ esc b)%string.
Proof. induction a as [|c a IH]; [reflexivity|]. cbn [append esc]. rewrite IH, append_assoc. reflexivity. Qed.

Lemma escape_concatenation a b sa sb :
  escape_latex_special_characters a = Ok sa -> escape_latex_special_characters b = Ok sb ->
  escape_latex_special_characters (a ++ b)%string = Ok (sa ++ sb)%string.
Proof. rewrite !escape_is. intros [= <-] [= <-]. rewrite esc_app. reflexivity. Qed.

Lemma piece_plain c : ~ special c -> piece c = String c "".
Proof. unfold special. all_chars c; intros N; try reflexivity; exfalso; apply N; cbn; tauto. Qed.

Lemma escape_unchanged s : (forall c, In c (list_ascii_of_string s) -> ~ special c) ->
  escape_latex_special_characters s = Ok s.
Proof.
  rewrite escape_is. intros N. f_equal. induction s as [|c r IH]; [reflexivity|].
  cbn [esc]. rewrite piece_plain by (apply N; left; reflexivity). cbn [append].
  f_equal. apply IH. intros d D. apply N. right. exact D.
Qed.

(** ** Injectivity *)

(** Reading one character back. *)
Definition first (s : string) : option (ascii * string) :=
  match find (fun kv => String.prefix (snd kv) s) conv with
  | Some (String k _, v) => Some (k, substring (String.length v) (String.length s - String.length v) s)
  | _ => match s with String c r => Some (c, r) | EmptyString => None end
  end.

Lemma substring_all s : substring 0 (String.length s) s = s.
Proof. induction s as [|c r IH]; [reflexivity|]. cbn. f_equal. exact IH. Qed.

Lemma first_piece c x : first (piece c ++ x)%string = Some (c, x).
Proof.
  assert (P : forall y, String.prefix "" y = true) by (intros []; reflexivity).
  unfold first. all_chars c; cbn; rewrite ?P; cbn; rewrite ?Nat.sub_0_r, ?substring_all; reflexivity.
Qed.

Lemma piece_not_empty c x : (piece c ++ x)%string <> "".
Proof. all_chars c; discriminate. Qed.

Lemma esc_injective a b : esc a = esc b -> a = b.
Proof.
  revert b. induction a as [|c a IH]; intros [|d b]; cbn [esc]; intros E.
  - reflexivity.
  - exfalso. symmetry in E. exact (piece_not_empty _ _ E).
  - exfalso. exact (piece_not_empty _ _ E).
  - pose proof (f_equal first E) as F. rewrite !first_piece in F. injection F as -> F.
    f_equal. apply IH. exact F.
Qed.

Lemma escape_injective a b s :
  escape_latex_special_characters a = Ok s -> escape_latex_special_characters b = Ok s -> a = b.
Proof. rewrite !escape_is. intros [= <-] [= E]. symmetry. apply esc_injective. exact E. Qed.

(** ** Typesetting *)

(** The tokens of an escaped character. *)
Definition toks (c : ascii) : list token :=
  match sd_get (String c "") conv with Some v => tokens Middle v | None => [Plain c] end.

Lemma tokens_piece c x : in_range 32 126 c = true -> c <> " "%char ->
  tokens Middle (piece c ++ x)%string = toks c ++ tokens Middle x.
Proof. all_chars c; intros P N; try discriminate P; try (exfalso; apply N; reflexivity); reflexivity. Qed.

Lemma tokens_skip c x : in_range 32 126 c = true -> c <> " "%char ->
  tokens Skipping (piece c ++ x)%string = tokens Middle (piece c ++ x)%string.
Proof. all_chars c; intros P N; try discriminate P; try (exfalso; apply N; reflexivity); reflexivity. Qed.

Lemma tokens_esc s : plain_text s ->
  tokens Middle (esc s) = flat_map toks (list_ascii_of_string s).
Proof.
  induction s as [|c r IH]; [reflexivity|].
  cbn [plain_text]. intros (P & A & R). cbn [esc list_ascii_of_string flat_map].
  rewrite <- (IH R). destruct (ascii_dec c " ") as [->|N]; [|apply tokens_piece; assumption].
  change (tokens Middle (piece " " ++ esc r)) with (Plain " " :: tokens Skipping (esc r)).
  change (toks " ") with [Plain " "]. cbn [app]. f_equal.
  destruct r as [|d r]; [reflexivity|]. destruct A as [A _]. destruct R as (P' & _).
  cbn [esc]. apply tokens_skip; [exact P'|apply A; reflexivity].
Qed.

Definition is_special (c : ascii) : bool :=
  match sd_get (String c "") conv with Some _ => true | None => false end.

Lemma typeset_special c rest : is_special c = true ->
  typeset 0 (toks c ++ rest) = option_map (cons (Glyph c)) (typeset 0 rest).
Proof. all_chars c; intros P; try discriminate P; reflexivity. Qed.

Lemma typeset_plain c rest : is_special c = false -> in_range 32 126 c = true ->
  (forall b r, rest = Plain b :: r -> joined c b = false) ->
  typeset 0 (Plain c :: rest) = option_map (cons (Glyph c)) (typeset 0 rest).
Proof.
  intros S P J. destruct rest as [|[n|b] r].
  - clear J. all_chars c; try discriminate S; try discriminate P; reflexivity.
  - clear J. all_chars c; try discriminate S; try discriminate P; reflexivity.
  - specialize (J b r eq_refl).
    all_chars c; try discriminate S; try discriminate P; cbn [typeset];
      rewrite J; reflexivity.
Qed.

Lemma toks_plain c : is_special c = false -> toks c = [Plain c].
Proof. unfold is_special, toks. destruct (sd_get (String c "") conv); [discriminate|reflexivity]. Qed.

Lemma toks_special c x b r : is_special c = true -> toks c ++ x = Plain b :: r -> False.
Proof. all_chars c; intros P; try discriminate P; cbn; discriminate. Qed.

Lemma typeset_esc s : plain_text s ->
  typeset 0 (flat_map toks (list_ascii_of_string s)) = Some (map Glyph (list_ascii_of_string s)).
Proof.
  induction s as [|c r IH]; [reflexivity|].
  cbn [plain_text]. intros (P & A & R). cbn [list_ascii_of_string flat_map map].
  destruct (is_special c) eqn:Sp.
  - rewrite typeset_special by exact Sp. rewrite (IH R). reflexivity.
  - rewrite toks_plain by exact Sp. cbn [app]. rewrite typeset_plain; [rewrite (IH R); reflexivity|assumption..|].
    intros b x. destruct r as [|d r]; [discriminate|]. destruct A as [_ J]. cbn [list_ascii_of_string flat_map].
    destruct (is_special d) eqn:Sd; [intros E; exfalso; exact (toks_special _ _ _ _ Sd E)|].
    rewrite toks_plain by exact Sd. cbn [app]. intros [= <- _]. exact J.
Qed.

Lemma escape_appears s : plain_text s ->
  exists e, escape_latex_special_characters s = Ok e /\ appears_as e s.
Proof.
  intros P. exists (esc s). split; [apply escape_is|]. unfold appears_as, latex.
  rewrite (tokens_esc _ P). apply typeset_esc. exact P.
Qed.

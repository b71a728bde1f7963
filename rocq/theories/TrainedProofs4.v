(** Learning rates in scientific notation. *)
From Coq Require Import List String Ascii ZArith QArith Qpower Bool Lia.
From Verif Require Import Base SweepModel ArgparseModel ArgparseProofs ExperimentModel CirclesModel ImagesModel.
Import ListNotations.
Open Scope string_scope.
Open Scope list_scope.
Open Scope nat_scope.

Lemma cut_e a b : digits a = true -> cut "e" (a ++ String "e" b) = Some (a, b).
Proof.
  induction a as [|c a IH]; [reflexivity|]. unfold digits in *. cbn [list_ascii_of_string forallb]. intros H.
  apply andb_prop in H as [A B]. change (String c a ++ String "e" b)%string with (String c (a ++ String "e" b)). cbn [cut].
  destruct (Ascii.eqb_spec c "e") as [->|]; [discriminate A|]. rewrite IH by exact B. reflexivity.
Qed.

Lemma exponent_text a k : float_of_text (dec_nat a ++ "e-" ++ dec_nat k) = Some (inject_Z (Z.of_nat a) * Qpower 10 (- Z.of_nat k))%Q.
Proof.
  assert (D : digits (dec_nat a) = true) by apply uint_digits.
  unfold float_of_text. change ("e-" ++ dec_nat k)%string with (String "e" (String "-" (dec_nat k))). rewrite cut_e by exact D.
  unfold decimal_of_text. rewrite (digits_no_point _ D), (int_text_no_dash _ (digits_no_dash _ D)), nat_text. cbn [option_map].
  change (int_of_text (String "-" (dec_nat k))) with (option_map (fun n => (- Z.of_nat n)%Z) (nat_of_text (dec_nat k))).
  rewrite nat_text. reflexivity.
Qed.

Lemma exponent_no_dash a k : no_dash (dec_nat a ++ "e-" ++ dec_nat k) = true.
Proof.
  assert (D : digits (dec_nat a) = true) by apply uint_digits. apply digits_no_dash in D. pose proof (dec_nat_nonempty a) as N.
  destruct (dec_nat a) as [|c s]; [congruence|]. exact D.
Qed.

Lemma learning_rate p a k d : pd_get "lr" (("help", Help) :: p) = Some (Value TFloat d) -> exists ns q,
  parse_args p ["--lr"; (dec_nat a ++ "e-" ++ dec_nat k)%string] = Some ns /\ pd_get "lr" ns = Some (ANum q) /\
  (q == inject_Z (Z.of_nat a) / 10 ^ Z.of_nat k)%Q.
Proof.
  intros G. eexists. eexists. split; [|split].
  - unfold parse_args. refine (parse_options _ [("lr", Some (dec_nat a ++ "e-" ++ dec_nat k)%string)] [ANum _] _ [] _).
    constructor; [|constructor]. split; [discriminate|]. cbn [fst snd]. exists TFloat, d. split; [exact G|]. split; [apply exponent_no_dash|].
    cbn [convert]. rewrite exponent_text. reflexivity.
  - apply set_all_in; [repeat constructor; intros []|left; reflexivity].
  - rewrite Qpower_opp. reflexivity.
Qed.

Lemma learning_rates p a k : In p [spiral_parser; mapping_parser; cc_parser; rot_parser; balls_parser] -> exists ns q,
  parse_args p ["--lr"; (dec_nat a ++ "e-" ++ dec_nat k)%string] = Some ns /\ pd_get "lr" ns = Some (ANum q) /\
  (q == inject_Z (Z.of_nat a) / 10 ^ Z.of_nat k)%Q.
Proof. intros [<-|[<-|[<-|[<-|[<-|[]]]]]]; eapply learning_rate; reflexivity. Qed.

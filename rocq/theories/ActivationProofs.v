(** Proofs about the activation functions. *)
From Coq Require Import List String Ascii Reals Bool NArith Lia Lra.
From Coquelicot Require Import Coquelicot.
From Verif Require Import Base ActivationModel ActivationSpec.
Import ListNotations.
Open Scope R_scope.

(** ** Derivatives *)

Lemma identity_derivative : forall x, derivable_pt_lim identity x (didentity x).
Proof. intros x. exact (derivable_pt_lim_id x). Qed.

Lemma tanh_derivative : forall x, derivable_pt_lim tanh x (dtanh x).
Proof.
  intros x. unfold dtanh.
  assert (Hc : cosh x <> 0).
  { unfold cosh. pose proof (exp_pos x). pose proof (exp_pos (- x)). lra. }
  replace (1 - tanh x ^ 2) with ((cosh x * cosh x - sinh x * sinh x) / Rsqr (cosh x)).
  - exact (derivable_pt_lim_div sinh cosh x (cosh x) (sinh x)
             (derivable_pt_lim_sinh x) (derivable_pt_lim_cosh x) Hc).
  - unfold tanh, Rsqr. field. exact Hc.
Qed.

Lemma sigmoid_derivative : forall x, derivable_pt_lim sigmoid x (sigmoid x * (1 - sigmoid x)).
Proof.
  intros x. apply is_derive_Reals. unfold sigmoid.
  pose proof (exp_pos (- x)).
  auto_derive; [lra|]. field. lra.
Qed.

Lemma sigmoid_positive : forall x, 0 < sigmoid x.
Proof.
  intros x. unfold sigmoid. pose proof (exp_pos (- x)).
  apply Rdiv_lt_0_compat; lra.
Qed.

Lemma softmax_derivative : forall e x, derivable_pt_lim (softmax e) x (dsoftmax e x).
Proof.
  intros e x. apply is_derive_Reals. unfold dsoftmax, softmax.
  pose proof (exp_pos (- x * e)). pose proof (exp_pos (e * x)).
  auto_derive; [lra|].
  assert (E : exp (- x * e) = / exp (e * x)) by (rewrite <- exp_Ropp; f_equal; ring).
  rewrite E. field. split; lra.
Qed.

Lemma relu_derivative : forall x, x <> 0 -> derivable_pt_lim relu x (drelu x).
Proof.
  intros x Hx. unfold drelu. destruct (Rle_dec 0 x) as [H|H].
  - intros eps He. exists (mkposreal x ltac:(lra)). intros h Hh Hd. simpl in Hd.
    apply Rabs_def2 in Hd. unfold relu. rewrite !Rmax_right by lra.
    replace ((x + h - x) / h - 1) with 0 by (field; exact Hh). rewrite Rabs_R0. exact He.
  - intros eps He. exists (mkposreal (- x) ltac:(lra)). intros h Hh Hd. simpl in Hd.
    apply Rabs_def2 in Hd. unfold relu. rewrite !Rmax_left by lra.
    replace ((0 - 0) / h - 0) with 0 by (field; exact Hh). rewrite Rabs_R0. exact He.
Qed.

Lemma relu_not_derivable_0 : forall l, ~ derivable_pt_lim relu 0 l.
Proof.
  intros l H. destruct (H (1/4) ltac:(lra)) as [[d Hd] Hl]. simpl in Hl.
  assert (H1 := Hl (d / 2) ltac:(lra) ltac:(rewrite Rabs_right; lra)).
  assert (H2 := Hl (- (d / 2)) ltac:(lra) ltac:(rewrite Rabs_left; lra)).
  unfold relu in H1, H2. rewrite !Rplus_0_l in H1, H2.
  rewrite (Rmax_right 0 (d / 2)), (Rmax_left 0 0) in H1 by lra.
  rewrite (Rmax_left 0 (- (d / 2))), (Rmax_left 0 0) in H2 by lra.
  replace ((d / 2 - 0) / (d / 2) - l) with (1 - l) in H1 by (field; lra).
  replace ((0 - 0) / - (d / 2) - l) with (- l) in H2 by (field; lra).
  apply Rabs_def2 in H1. apply Rabs_def2 in H2. lra.
Qed.

(** ** Names *)

Lemma N_eq_char : forall a b, N_of_ascii a = N_of_ascii b -> a = b.
Proof. intros a b H. rewrite <- (ascii_N_embedding a), <- (ascii_N_embedding b), H. reflexivity. Qed.

Lemma lower_char_small : forall c k, (k < 26)%N -> N_of_ascii c = (97 + k)%N -> lower_char c = c.
Proof.
  intros c k Hk E. unfold lower_char. cbv zeta. rewrite E.
  replace ((97 + k <=? 90)%N) with false by (symmetry; apply N.leb_gt; lia).
  rewrite andb_false_r. reflexivity.
Qed.

Lemma lower_char_capital : forall c k, (k < 26)%N -> N_of_ascii c = (65 + k)%N ->
  N_of_ascii (lower_char c) = (97 + k)%N.
Proof.
  intros c k Hk E. unfold lower_char. cbv zeta. rewrite E.
  replace ((65 <=? 65 + k)%N) with true by (symmetry; apply N.leb_le; lia).
  replace ((65 + k <=? 90)%N) with true by (symmetry; apply N.leb_le; lia).
  cbn [andb]. rewrite N_ascii_embedding by lia. lia.
Qed.

Lemma lower_char_same : forall a b, lower_char a = lower_char b <-> same_letter a b.
Proof.
  intros a b. split.
  - intros H. unfold same_letter.
    destruct (N.leb 65 (N_of_ascii a) && N.leb (N_of_ascii a) 90)%bool eqn:Ea;
    destruct (N.leb 65 (N_of_ascii b) && N.leb (N_of_ascii b) 90)%bool eqn:Eb.
    + left. apply andb_true_iff in Ea, Eb. rewrite !N.leb_le in Ea, Eb.
      assert (Ha := lower_char_capital a (N_of_ascii a - 65) ltac:(lia) ltac:(lia)).
      assert (Hb := lower_char_capital b (N_of_ascii b - 65) ltac:(lia) ltac:(lia)).
      rewrite H in Ha. apply N_eq_char. lia.
    + right. apply andb_true_iff in Ea. rewrite !N.leb_le in Ea.
      exists (N_of_ascii a - 65)%N. split; [lia|]. left. split; [lia|].
      assert (Ha := lower_char_capital a (N_of_ascii a - 65) ltac:(lia) ltac:(lia)).
      rewrite H in Ha. unfold lower_char in Ha. cbv zeta in Ha. rewrite Eb in Ha. exact Ha.
    + right. apply andb_true_iff in Eb. rewrite !N.leb_le in Eb.
      exists (N_of_ascii b - 65)%N. split; [lia|]. right. split; [|lia].
      assert (Hb := lower_char_capital b (N_of_ascii b - 65) ltac:(lia) ltac:(lia)).
      rewrite <- H in Hb. unfold lower_char in Hb. cbv zeta in Hb. rewrite Ea in Hb. exact Hb.
    + left. unfold lower_char in H. cbv zeta in H. rewrite Ea, Eb in H. exact H.
  - intros [->|(k & Hk & [[Ha Hb]|[Ha Hb]])]; [reflexivity| |].
    + apply N_eq_char. rewrite (lower_char_capital _ _ Hk Ha), (lower_char_small _ _ Hk Hb). lia.
    + apply N_eq_char. rewrite (lower_char_capital _ _ Hk Hb), (lower_char_small _ _ Hk Ha). lia.
Qed.

Lemma lower_same : forall s t, lower s = lower t <-> same_up_to_case s t.
Proof.
  unfold same_up_to_case. induction s as [|c s IH]; intros [|d t]; cbn.
  - split; [constructor|reflexivity].
  - split; [discriminate|intros H; inversion H].
  - split; [discriminate|intros H; inversion H].
  - split.
    + intros H. injection H as H1 H2. constructor; [apply lower_char_same|apply IH]; assumption.
    + intros H. inversion H as [|? ? ? ? H1 H2]; subst. f_equal; [apply lower_char_same|apply IH]; assumption.
Qed.

Lemma documented_lower : forall d, In d documented -> lower d = d.
Proof. intros d H. cbn in H. repeat (destruct H as [<-|H]; [reflexivity|]). contradiction. Qed.

Lemma names_case_insensitive : forall s t, same_up_to_case s t ->
  get_nonlinearity (Some s) = get_nonlinearity (Some t).
Proof. intros s t H. apply lower_same in H. unfold get_nonlinearity. rewrite H. reflexivity. Qed.

Lemma supported_cases : forall s,
  (In (lower s) documented /\ exists nl dnl, get_nonlinearity (Some s) = Ok (nl, dnl)) \/
  (~ In (lower s) documented /\ get_nonlinearity (Some s) = Raise ValueError).
Proof.
  intros s. unfold get_nonlinearity. cbv zeta.
  destruct (existsb (String.eqb (lower s)) supported_nonlinearities) eqn:E; cbn [negb].
  - left. apply existsb_exists in E as (d & Hd & E). apply String.eqb_eq in E. subst d.
    split; [exact Hd|]. cbn in Hd.
    repeat (destruct Hd as [<-|Hd]; [cbn; eauto|]). contradiction.
  - right. split; [|reflexivity]. intros H.
    assert (X : existsb (String.eqb (lower s)) supported_nonlinearities = true)
      by (apply existsb_exists; exists (lower s); split; [exact H|apply String.eqb_refl]).
    congruence.
Qed.

Lemma names_spec : forall s,
  ((exists d, In d documented /\ same_up_to_case s d) -> exists nl dnl, get_nonlinearity (Some s) = Ok (nl, dnl)) /\
  (~ (exists d, In d documented /\ same_up_to_case s d) -> get_nonlinearity (Some s) = Raise ValueError).
Proof.
  intros s. destruct (supported_cases s) as [[H (nl & dnl & E)]|[H E]].
  - split; [eauto|]. intros N. exfalso. apply N. exists (lower s). split; [exact H|].
    apply lower_same. symmetry. apply documented_lower, H.
  - split; [|auto]. intros (d & Hd & S). exfalso. apply H.
    apply lower_same in S. rewrite S, (documented_lower d Hd). exact Hd.
Qed.

Lemma default_identity : exists dnl, get_nonlinearity None = Ok (fun x => x, dnl).
Proof. eexists. reflexivity. Qed.

Lemma derivative_unique : forall name nl dnl, get_nonlinearity name = Ok (nl, dnl) ->
  (forall s, name = Some s -> ~ same_up_to_case s "sigmoid") ->
  forall x l, derivable_pt_lim nl x l -> dnl x = l.
Proof.
  intros name nl dnl H Hs x l Hl.
  assert (U : forall f df, (forall y, derivable_pt_lim f y (df y)) -> nl = f -> dnl = df -> dnl x = l).
  { intros f df D -> ->. eapply uniqueness_limite; [apply D|exact Hl]. }
  unfold get_nonlinearity in H. cbv zeta in H.
  set (use := match name with None => "identity"%string | Some s => lower s end) in H.
  destruct (negb (existsb (String.eqb use) supported_nonlinearities)); [discriminate|].
  destruct (String.eqb use "relu").
  { injection H as <- <-. destruct (Req_dec x 0) as [->|Hx].
    - exfalso. exact (relu_not_derivable_0 l Hl).
    - eapply uniqueness_limite; [apply relu_derivative, Hx|exact Hl]. }
  destruct (String.eqb use "tanh").
  { injection H as <- <-. apply (U _ _ tanh_derivative); reflexivity. }
  destruct (String.eqb use "identity").
  { injection H as <- <-. apply (U _ _ identity_derivative); reflexivity. }
  destruct (String.eqb use "sigmoid") eqn:E.
  { exfalso. destruct name as [s|]; [|discriminate]. apply (Hs s eq_refl).
    apply lower_same. apply String.eqb_eq in E. exact E. }
  destruct (String.eqb use "softmax"); [|discriminate].
  injection H as <- <-. apply (U _ _ (softmax_derivative 1)); reflexivity.
Qed.

Lemma derivative_exists : forall name nl dnl, get_nonlinearity name = Ok (nl, dnl) ->
  forall x, (forall s, name = Some s -> same_up_to_case s "relu" -> x <> 0) ->
  exists l, derivable_pt_lim nl x l.
Proof.
  intros name nl dnl H x Hx.
  unfold get_nonlinearity in H. cbv zeta in H.
  set (use := match name with None => "identity"%string | Some s => lower s end) in H.
  destruct (negb (existsb (String.eqb use) supported_nonlinearities)); [discriminate|].
  destruct (String.eqb use "relu") eqn:E.
  { injection H as <- <-. destruct name as [s|]; [|discriminate].
    eexists. apply relu_derivative, (Hx s eq_refl), lower_same. apply String.eqb_eq in E. exact E. }
  destruct (String.eqb use "tanh"). { injection H as <- <-. eexists. apply tanh_derivative. }
  destruct (String.eqb use "identity"). { injection H as <- <-. eexists. apply identity_derivative. }
  destruct (String.eqb use "sigmoid"). { injection H as <- <-. eexists. apply sigmoid_derivative. }
  destruct (String.eqb use "softmax"); [|discriminate].
  injection H as <- <-. eexists. apply softmax_derivative.
Qed.

Lemma sigmoid_wrong : forall s, same_up_to_case s "sigmoid" ->
  exists nl dnl, get_nonlinearity (Some s) = Ok (nl, dnl) /\
  forall x, exists l, derivable_pt_lim nl x l /\ l < dnl x.
Proof.
  intros s H. rewrite (names_case_insensitive _ _ H).
  exists sigmoid, sigmoid. split; [reflexivity|]. intros x.
  exists (sigmoid x * (1 - sigmoid x)). split; [apply sigmoid_derivative|].
  pose proof (sigmoid_positive x). nra.
Qed.

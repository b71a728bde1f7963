(** The claims about cc.py. *)
From Coq Require Import List String ZArith QArith Reals Bool Lia Arith.
From Verif Require Import Base VecModel VecFlow ArgparseModel CirclesModel CirclesSpec CirclesProofs2.
Import ListNotations.
Open Scope string_scope.
Open Scope list_scope.
Open Scope nat_scope.

Section Claims.
Variable nonlinearity : string -> (R -> R) * (R -> R).
Variable all : nat -> entries.
Variable writable : string -> bool.
Variable unusual : result unit * list (string * content).
Notation program := (cc nonlinearity all writable unusual).

Lemma program_main words ns : parse_args cc_parser words = Some ns -> program words = Some (main nonlinearity all writable unusual ns).
Proof. intros E. unfold cc. rewrite E. reflexivity. Qed.

Ltac same := match goal with
  | H : option_is ?ns ?k _, A : pd_get ?k ?ns = Some _ |- _ => unfold option_is in H; rewrite A in H; injection H as H; subst
  end.

Lemma bad_batch words ns bs : parse_args cc_parser words = Some ns -> option_is ns "batch_size" (AInt bs) -> (bs <= 0)%Z ->
  program words = Some (Raise ValueError, []).
Proof.
  intros E O B. destruct (cc_namespace _ _ E) as (v & V). rewrite (program_main _ _ E). rewrite (main_batch _ _ _ _ _ v V); [reflexivity|].
  destruct V as (A & _). unfold option_is in O. rewrite A in O. injection O as ->. exact B.
Qed.

Lemma bad_seed words ns bs seed : parse_args cc_parser words = Some ns -> option_is ns "batch_size" (AInt bs) -> (1 <= bs)%Z ->
  option_is ns "seed" (AInt seed) -> seed <> (-1)%Z -> ~ (0 <= seed < 2 ^ 32)%Z -> program words = Some (Raise ValueError, []).
Proof.
  intros E O B OS S1 S2. destruct (cc_namespace _ _ E) as (v & V). rewrite (program_main _ _ E). 
  assert (V' := V). destruct V as (A & A2 & _). unfold option_is in O, OS. rewrite A in O. rewrite A2 in OS. injection O as O. injection OS as OS. subst.
  rewrite (main_seed _ _ _ _ _ v V'); [reflexivity|assumption..].
Qed.

(** What the hypotheses say about the values. *)
Lemma usual_values ns d N f v : usual ns d N f -> has_values ns v ->
  (v_d v = d /\ v_N v = N /\ v_f v = f) /\ (v_seed v = (-1)%Z \/ (0 <= v_seed v < 2 ^ 32)%Z) /\ ((1 <= v_d v)%Z /\ (1 <= v_N v)%Z /\ (1 <= v_f v)%Z) /\ ~ (v_pw v == 0)%Q.
Proof.
  intros (O1 & O2 & O3 & L1 & L2 & L3 & P & SD) (A1 & A2 & A3 & A4 & A5 & A6 & A7 & A8 & A9 & A10 & A11 & A12 & A13 & A14 & A15).
  unfold option_is in O1, O2, O3. rewrite A3 in O1. rewrite A4 in O2. rewrite A5 in O3. injection O1 as <-. injection O2 as <-. injection O3 as <-.
  split; [repeat split|]. split; [exact (SD _ A2)|]. split; [repeat split; assumption|exact (P _ A14)].
Qed.

Hypothesis SO : forall k, solver (e_prog (all k)).

Section Usual.
Variable words : list string.
Variable ns : pdict argval.
Variables d N f bs n : Z.
Variables name out : string.
Hypothesis E : parse_args cc_parser words = Some ns.
Hypothesis U : usual ns d N f.
Hypothesis OB : option_is ns "batch_size" (AInt bs).
Hypothesis ON : option_is ns "niters" (AInt n).
Hypothesis OM : option_is ns "shooting_model" (AText name).
Hypothesis OO : option_is ns "save_model" (AText out).

Lemma the_values : exists v, has_values ns v /\ v_bs v = bs /\ v_n v = n /\ v_name v = name /\ v_out v = out.
Proof.
  destruct (cc_namespace _ _ E) as (v & V). exists v. split; [exact V|].
  destruct V as (A1 & A2 & A3 & A4 & A5 & A6 & A7 & A8 & A9 & A10 & A11 & A12 & A13 & A14 & A15).
  unfold option_is in OB, ON, OM, OO. rewrite A1 in OB. rewrite A12 in ON. rewrite A6 in OM. rewrite A13 in OO. repeat split; congruence.
Qed.

Ltac start := rewrite (program_main _ _ E); destruct the_values as (v & V & <- & <- & <- & <-);
  destruct (usual_values _ _ _ _ v U V) as ((<- & <- & <-) & SE & (D1 & N1 & F1) & PW).

Lemma wrong_dimension : (1 <= bs)%Z -> d <> 2%Z -> program words = Some (Raise RuntimeError, []).
Proof. intros B D. revert B D. start. intros B D. f_equal. apply (main_dimension _ _ _ _ _ v V); assumption. Qed.

Lemma simple_fails : d = 2%Z -> (1 < bs)%Z -> bs <> 2999%Z -> (1 <= n)%Z -> name = "simple" -> program words = Some (Raise KeyError, []).
Proof. start. intros D B1 B2 NN M. f_equal. apply (main_simple _ _ _ _ _ v V); try assumption. lia. Qed.

Lemma single_batch : d = 2%Z -> bs = 1%Z -> program words = Some (Raise ValueError, []).
Proof. start. intros D B. f_equal. apply (main_single _ _ _ _ _ v V); try assumption. lia. Qed.

Lemma last_batch : d = 2%Z -> bs = 2999%Z -> (1 <= n)%Z -> program words = Some (Raise ValueError, []).
Proof. start. intros D B NN. f_equal. apply (main_last _ _ _ _ _ v V); try assumption. lia. Qed.

Hypothesis W1 : writable (out ++ ".pt")%string = true.
Hypothesis W2 : writable (out ++ ".pkl")%string = true.
Hypothesis W3 : writable (out ++ "_results_.pkl")%string = true.

Lemma runs : d = 2%Z -> (1 < bs)%Z -> (n <= 0)%Z \/ bs <> 2999%Z /\ name <> "simple" ->
  exists tr, program words = Some (Ok tt, [((out ++ ".pt")%string, CModel); ((out ++ ".pkl")%string, CTracker tr);
                                           ((out ++ "_results_.pkl")%string, CResults (Z.to_nat n))]) /\
    List.length tr = Z.to_nat n /\
    forall i r, nth_error tr i = Some r ->
      recording (Z.to_nat N) (2 * Z.to_nat f) (evaluation_times (e_prog (all (S i * (2 * Z.to_nat ((2999 + bs) / bs) + 1))%nat))) r.
Proof.
  revert W1 W2 W3. start. intros W1' W2' W3' D B1 [NN|[B2 M]].
  - exists []. split; [f_equal; apply (main_untrained _ _ _ _ _ v V); try assumption; lia|]. split; [cbn; lia|]. intros [|i] r H; discriminate H.
  - destruct (main_trained nonlinearity all writable unusual ns v V) as (tr & -> & L & H); try assumption; [lia|].
    exists tr. split; [reflexivity|]. split; assumption.
Qed.

Lemma exactly : (1 <= bs)%Z -> (exists files, program words = Some (Ok tt, files)) <-> d = 2%Z /\ (1 < bs)%Z /\ ((n <= 0)%Z \/ bs <> 2999%Z /\ name <> "simple").
Proof.
  intros B. split.
  - intros (files & H). destruct (Z.eq_dec d 2) as [D|D]; [|rewrite (wrong_dimension B D) in H; discriminate H].
    split; [exact D|]. destruct (Z.eq_dec bs 1) as [B1|B1]; [rewrite (single_batch D B1) in H; discriminate H|].
    split; [lia|]. destruct (Z_le_gt_dec n 0) as [NN|NN]; [left; exact NN|right].
    destruct (Z.eq_dec bs 2999) as [B2|B2]; [rewrite (last_batch D B2 ltac:(lia)) in H; discriminate H|]. split; [exact B2|].
    intros M. rewrite (simple_fails D ltac:(lia) B2 ltac:(lia) M) in H. discriminate H.
  - intros (D & B1 & C). destruct (runs D B1 C) as (tr & H & _). eexists. exact H.
Qed.
End Usual.
End Claims.

Lemma default_fails : exists words, parse_args cc_parser words <> None /\
  forall nonlinearity all writable unusual, (forall k, solver (e_prog (all k))) ->
    cc nonlinearity all writable unusual words = Some (Raise RuntimeError, []).
Proof.
  exists []. split; [vm_compute; discriminate|]. intros nonlinearity all writable unusual SO.
  destruct (parse_args cc_parser []) as [ns|] eqn:E; [|vm_compute in E; discriminate E].
  apply (wrong_dimension nonlinearity all writable unusual SO [] ns 20%Z 25%Z 5%Z 25%Z 500%Z "updown" "model" E);
    try (vm_compute in E; injection E as <-; reflexivity); try discriminate.
  vm_compute in E. injection E as <-. unfold usual, option_is. repeat split; try reflexivity; try discriminate.
  - intros q [= <-] H. discriminate H.
  - intros z [= <-]. left. reflexivity.
Qed.

Lemma bad_batches :
  (forall nonlinearity all writable unusual words ns bs, parse_args cc_parser words = Some ns ->
    option_is ns "batch_size" (AInt bs) -> (bs <= 0)%Z -> cc nonlinearity all writable unusual words = Some (Raise ValueError, [])) /\
  (forall nonlinearity all writable unusual words ns bs seed, parse_args cc_parser words = Some ns ->
    option_is ns "batch_size" (AInt bs) -> (1 <= bs)%Z -> option_is ns "seed" (AInt seed) -> seed <> (-1)%Z -> ~ (0 <= seed < 2 ^ 32)%Z ->
    cc nonlinearity all writable unusual words = Some (Raise ValueError, [])) /\
  (forall nonlinearity all writable unusual, (forall k, solver (e_prog (all k))) ->
   forall words ns d N f bs n name out, parse_args cc_parser words = Some ns -> usual ns d N f ->
    option_is ns "batch_size" (AInt bs) -> option_is ns "niters" (AInt n) -> option_is ns "shooting_model" (AText name) ->
    option_is ns "save_model" (AText out) -> d = 2%Z ->
    (bs = 1%Z -> cc nonlinearity all writable unusual words = Some (Raise ValueError, [])) /\
    (bs = 2999%Z -> (1 <= n)%Z -> cc nonlinearity all writable unusual words = Some (Raise ValueError, []))).
Proof.
  split; [exact bad_batch|]. split; [exact bad_seed|].
  intros nonlinearity all writable unusual SO words ns d N f bs n name out E U OB ON OM OO D. split.
  - intros B. exact (single_batch nonlinearity all writable unusual SO words ns d N f bs n name out E U OB ON OM OO D B).
  - intros B NN. exact (last_batch nonlinearity all writable unusual SO words ns d N f bs n name out E U OB ON OM OO D B NN).
Qed.

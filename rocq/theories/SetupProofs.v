(** What the options of spiral.py, sfm.py, cc.py, rot.py and balls.py become. *)
From Coq Require Import List String ZArith QArith Qcanon Bool Lia.
From Verif Require Import Base BaseFacts SweepModel ArgparseModel ArgparseProofs ExperimentModel ExperimentProofs2 CirclesModel CirclesProofs2
  ImagesModel ImagesProofs3 IntegratorModel ActivationModel SetupModel SetupSpec.
Import ListNotations.
Open Scope string_scope.
Open Scope list_scope.
Open Scope nat_scope.

Lemma check_ok nl : In nl ["identity"; "relu"; "tanh"; "sigmoid"; "softmax"] -> check_nonlinearity (KText nl) = Ok tt.
Proof. intros H. repeat destruct H as [<-|H]; [reflexivity..|contradiction]. Qed.

(** ** Values of parsed options *)

Section Options.
Variables (p : parser) (words : list string) (ns : pdict argval).
Hypothesis ND : NoDup (map fst (("help", Help) :: p)).
Hypothesis DF : forall m k, pd_get m p = Some k -> has_kind k (pd_get m (defaults p)).
Hypothesis E : parse_args p words = Some ns.

Lemma opt_int o d : o <> "help" -> pd_get o p = Some (Value TInt d) -> exists z, pd_get o ns = Some (AInt z).
Proof.
  intros N G. destruct (parsed_kinds _ _ _ ND DF E o _ N G) as (a & A & T).
  destruct a; cbn in T; try contradiction. eexists. exact A.
Qed.
Lemma opt_num o d : o <> "help" -> pd_get o p = Some (Value TFloat d) -> exists q, pd_get o ns = Some (ANum q).
Proof.
  intros N G. destruct (parsed_kinds _ _ _ ND DF E o _ N G) as (a & A & T).
  destruct a; cbn in T; try contradiction. eexists. exact A.
Qed.
Lemma opt_flag o : o <> "help" -> pd_get o p = Some Flag -> exists b, pd_get o ns = Some (AFlag b).
Proof. intros N G. exact (parsed_kinds _ _ _ ND DF E o _ N G). Qed.
Lemma opt_choice o l d : o <> "help" -> pd_get o p = Some (Value (TText (Some l)) d) -> exists s, pd_get o ns = Some (AText s) /\ In s l.
Proof.
  intros N G. destruct (parsed_kinds _ _ _ ND DF E o _ N G) as (a & A & T).
  destruct a; cbn in T; try contradiction. eexists. split; [exact A|exact T].
Qed.
End Options.

(** Checks of a parser by computation. *)
Fixpoint nodupb (l : list string) : bool :=
  match l with [] => true | x :: r => negb (existsb (String.eqb x) r) && nodupb r end.
Lemma nodupb_ok l : nodupb l = true -> NoDup l.
Proof.
  induction l as [|x r IH]; cbn; intros H; constructor; apply andb_true_iff in H as (A & B); [|apply IH; exact B].
  intros I. apply negb_true_iff in A. assert (existsb (String.eqb x) r = true); [|congruence].
  apply existsb_exists. exists x. split; [exact I|apply String.eqb_refl].
Qed.
Definition typeb (t : argtype) (a : argval) : bool :=
  match t, a with
  | TInt, AInt _ | TFloat, ANum _ | TText None, AText _ => true
  | TText (Some l), AText s => existsb (String.eqb s) l
  | _, _ => false
  end.
Definition kindb (k : kind) (o : option argval) : bool :=
  match k, o with
  | Value t _, Some a => typeb t a
  | Flag, Some (AFlag _) => true
  | Help, _ => true
  | _, _ => false
  end.
Lemma kindb_ok k o : kindb k o = true -> has_kind k o.
Proof.
  destruct k as [t d| |]; cbn; [|destruct o as [[]|]; intros; try discriminate; eexists; reflexivity|auto].
  destruct o as [a|]; [|discriminate]. intros H. exists a. split; [reflexivity|].
  destruct t as [| |[l|]], a; cbn in H; try discriminate; try exact I. apply existsb_exists in H as (x & I & Q).
  apply String.eqb_eq in Q. subst. exact I.
Qed.
Lemma get_in {A} m (d : pdict A) k : pd_get m d = Some k -> In (m, k) d.
Proof.
  unfold pd_get. induction d as [|(n, v) r IH]; cbn; [discriminate|]. destruct (String.eqb_spec m n) as [->|].
  - intros [= <-]. auto.
  - auto.
Qed.
Lemma defaults_ok p : forallb (fun x => kindb (snd x) (pd_get (fst x) (defaults p))) p = true ->
  forall m k, pd_get m p = Some k -> has_kind k (pd_get m (defaults p)).
Proof. intros H m k G. apply get_in in G. rewrite forallb_forall in H. exact (kindb_ok _ _ (H _ G)). Qed.

Lemma spiral_nodup : NoDup (map fst (("help", Help) :: spiral_parser)).
Proof. apply nodupb_ok. vm_compute. reflexivity. Qed.
Lemma spiral_defaults : forall m k, pd_get m spiral_parser = Some k -> has_kind k (pd_get m (defaults spiral_parser)).
Proof. apply defaults_ok. vm_compute. reflexivity. Qed.
Lemma mapping_nodup : NoDup (map fst (("help", Help) :: mapping_parser)).
Proof. apply nodupb_ok. vm_compute. reflexivity. Qed.
Lemma mapping_defaults : forall m k, pd_get m mapping_parser = Some k -> has_kind k (pd_get m (defaults mapping_parser)).
Proof. apply defaults_ok. vm_compute. reflexivity. Qed.

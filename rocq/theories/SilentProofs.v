(** Proofs: particles without costates act as a factor of the weight of the penalty. *)
From Coq Require Import List String Bool Reals Arith Lia Lra QArith Qcanon Qreals FunctionalExtensionality.
From Verif Require Import Base BaseFacts RealSum IntegratorModel FixedGridModel VecModel ParticlesModel ParticlesSpec
  ParticlesProofs ParticlesProofs2 ScalingSpec ScalingProofs ScalingProofs2 SilentSpec.
Import ListNotations.
Open Scope string_scope.
Open Scope list_scope.
Open Scope R_scope.

Section Quiet.
Variable A B : nat.
Hypothesis AB : (A <= B)%nat.
Notation sized x := (n0 x = B).
Notation Q := (quiet A B).

Lemma quiet_opp x : Q x -> Q (map3 Ropp x).
Proof. intros [S Z]. split; [exact S|]. intros n i k K. cbn. rewrite Z by exact K. ring. Qed.
Lemma quiet_times a x : Q x -> Q (map3 (Rmult a) x).
Proof. intros [S Z]. split; [exact S|]. intros n i k K. cbn. rewrite Z by exact K. ring. Qed.
Lemma quiet_transpose x : Q x -> Q (transpose12 x).
Proof. intros [S Z]. split; [exact S|]. intros n i k K. cbn. apply Z. exact K. Qed.
Lemma quiet_matmul32 x w z : Q x -> matmul32 x w = Ok z -> Q z.
Proof.
  intros [S Z] H. unfold matmul32 in H. destruct (Nat.eqb _ _); [|discriminate]. injection H as <-. split; [exact S|].
  intros n i k K. cbn. rewrite (rsum_ext _ _ (fun _ => 0)) by (intros; rewrite Z by exact K; ring).
  rewrite (rsum_ext _ _ (fun j => 0 * 0)) by (intros; ring). rewrite rsum_scale. ring.
Qed.
Lemma quiet_zip f x y z : f 0 0 = 0 -> Q x -> Q y -> zip3 f x y = Ok z -> Q z.
Proof.
  intros F [S Z] [S2 Z2] H. unfold zip3 in H. rewrite S, S2, bdim_same in H. cbn [bind] in H.
  apply bind_ok in H as (b & _ & H). apply bind_ok in H as (c & _ & H). injection H as <-. split; [reflexivity|].
  intros n i k K. cbn [v3]. rewrite !bidx_same, Z, Z2 by exact K. exact F.
Qed.
Lemma quiet_mult x y z : sized x -> Q y -> zip3 Rmult x y = Ok z -> Q z.
Proof.
  intros S [S2 Z2] H. unfold zip3 in H. rewrite S, S2, bdim_same in H. cbn [bind] in H.
  apply bind_ok in H as (b & _ & H). apply bind_ok in H as (c & _ & H). injection H as <-. split; [reflexivity|].
  intros n i k K. cbn [v3]. rewrite !bidx_same, Z2 by exact K. ring.
Qed.
Lemma quiet_matmul33_r x y z : sized x -> Q y -> matmul33 x y = Ok z -> Q z.
Proof.
  intros S [S2 Z2] H. unfold matmul33 in H. rewrite S, S2, bdim_same in H. cbn [bind] in H.
  destruct (Nat.eqb _ _); [|discriminate]. injection H as <-. split; [reflexivity|].
  intros n i k K. cbn [v3]. rewrite !bidx_same. rewrite (rsum_ext _ _ (fun j => 0 * 0)) by (intros; rewrite Z2 by exact K; ring).
  rewrite rsum_scale. ring.
Qed.
Lemma quiet_matmul33_l x y z : Q x -> sized y -> matmul33 x y = Ok z -> Q z.
Proof.
  intros [S2 Z2] S H. unfold matmul33 in H. rewrite S, S2, bdim_same in H. cbn [bind] in H.
  destruct (Nat.eqb _ _); [|discriminate]. injection H as <-. split; [reflexivity|].
  intros n i k K. cbn [v3]. rewrite !bidx_same. rewrite (rsum_ext _ _ (fun j => 0 * 0)) by (intros; rewrite Z2 by exact K; ring).
  rewrite rsum_scale. ring.
Qed.
Lemma quiet_item k c x : all_quiet A B c -> sd_item k c = Ok x -> Q x.
Proof.
  intros F. unfold sd_item. induction F as [|[a y] c H F IH]; [discriminate|]. cbn [sd_get].
  destruct (String.eqb k a); [intros E; injection E as <-; exact H|exact IH].
Qed.

Lemma one_zero dnl q0 q1 p0 p1 w X r : one dnl q0 q1 p0 p1 w X (fun _ _ => 0) = Ok r -> forall i k, v2 r i k = 0.
Proof.
  unfold one, matmul22, zip2. cbn [m0 m1 v2 map2]. destruct (Nat.eqb _ _); [|discriminate]. cbn [bind m0 m1].
  intros H. apply bind_ok in H as (a & _ & H). apply bind_ok in H as (b & _ & H). injection H as <-. intros i k. cbn [v2].
  rewrite (rsum_ext _ _ (fun j => 0 * 0)) by (intros; ring). rewrite rsum_scale. ring.
Qed.

Lemma quiet_costate_loop dnl q p w z : sized q -> Q p -> costate_loop dnl B q p w = Ok z -> Q z.
Proof.
  intros S [P0 PZ] H. destruct (Nat.eq_dec B 0) as [Z|Z].
  - unfold costate_loop in H. rewrite Z in H. cbn in H. injection H as <-. split; [exact P0|]. reflexivity.
  - assert (first : exists r acc, one dnl (n1 q) (n2 q) (n1 p) (n2 p) w (v3 q 0%nat) (v3 p 0%nat) = Ok r
              /\ set_row (zeros_like p) 0 r = Ok acc).
    { unfold costate_loop in H. destruct B as [|m]; [congruence|]. cbn [seq foldM] in H.
      apply bind_ok in H as (acc & H & _). unfold row in H. rewrite S, P0 in H. cbn [Nat.ltb Nat.leb bind] in H.
      apply bind_ok in H as (y & E & H). apply bind_ok in H as (r & E2 & H).
      exists r, acc. split; [|exact H]. unfold one. rewrite E. cbn [bind]. exact E2. }
    destruct first as (r & acc & O & S0).
    destruct (one_uniform dnl (n1 q) (n2 q) (n1 p) (n2 p) w) as [(e & U)|(u & v & F & U)];
      [rewrite U in O; discriminate|]. rewrite U in O. injection O as <-.
    assert (C : (Nat.eqb u (n1 p) || Nat.eqb u 1) && (Nat.eqb v (n2 p) || Nat.eqb v 1) = true).
    { unfold set_row in S0. cbn [zeros_like n0 n1 n2 m0 m1] in S0. destruct (negb _); [discriminate|].
      destruct (_ && _); [reflexivity|discriminate]. }
    destruct (costate_loop_rows dnl B q p w F u v S P0 U C) as (y & E & Y0 & Y1 & Y2 & Y).
    rewrite E in H. injection H as <-. split; [exact Y0|]. intros n i k K. rewrite Y by lia.
    assert (PN : v3 p n = fun _ _ => 0) by (ext; apply PZ; exact K). rewrite PN.
    exact (one_zero dnl _ _ _ _ _ _ _ (U (v3 q n) (fun _ _ => 0)) _ _).
Qed.

Lemma chosen_sized g N N' x x' : chosen g N N' x x' -> n0 x = N.
Proof. intros (H & _). exact H. Qed.

(** ** Costates of quiet particles stay quiet *)
Definition all_sized (s : states) : Prop := Forall (fun kx => n0 (snd kx) = B) s.
Lemma sized_item k s x : all_sized s -> sd_item k s = Ok x -> sized x.
Proof.
  intros F. unfold sd_item. induction F as [|[a y] c H F IH]; [discriminate|]. cbn [sd_get].
  destruct (String.eqb k a); [intros E; injection E as <-; exact H|exact IH].
Qed.

Ltac hush := repeat first [simple apply quiet_opp | simple apply quiet_times | simple apply quiet_transpose | eassumption].
Ltac qstep :=
  match goal with
  | H : bind _ _ = Ok _ |- _ =>
      let x := fresh "x" in let E := fresh "E" in let K := fresh "K" in
      apply bind_ok in H as (x & E & H); cbv beta zeta in H;
      try lazymatch type of E with
      | sd_item _ ?c = Ok _ =>
          first [ match goal with F : all_quiet A B c |- _ => pose proof (quiet_item _ _ _ F E) as K end
                | match goal with F : all_sized c |- _ => pose proof (sized_item _ _ _ F E) as K end ]
      | matmul32 _ _ = Ok _ => eapply quiet_matmul32 in E as K; [|hush]
      | zip3 Rmult _ _ = Ok _ => eapply quiet_mult in E as K; [|cbn; eassumption|hush]
      | zip3 _ _ _ = Ok _ => eapply quiet_zip in E as K; [|ring|hush|hush]
      | costate_loop _ _ _ _ _ = Ok _ => eapply quiet_costate_loop in E as K; [|eassumption|hush]
      | matmul33 _ _ = Ok _ =>
          first [eapply quiet_matmul33_r in E as K; [|cbn; eassumption|solve [hush]]
                |eapply quiet_matmul33_l in E as K; [|solve [hush]|cbn; eassumption]]
      end; clear E
  end.
Ltac quieten := repeat qstep;
  match goal with H : Ok _ = Ok _ |- _ => injection H as <- end;
  repeat (apply Forall_cons; [cbn [snd]; solve [hush]|]); apply Forall_nil.

Variable nl dnl : R -> R.
Lemma updown_quiet s c th r : all_sized s -> all_quiet A B c -> updown_costate dnl s c th = Ok r -> all_quiet A B r.
Proof. intros S C H. unfold updown_costate in H. quieten. Qed.
Lemma universal_quiet s c th r : all_sized s -> all_quiet A B c -> universal_costate dnl s c th = Ok r -> all_quiet A B r.
Proof. intros S C H. unfold universal_costate in H. quieten. Qed.
Lemma general_quiet s c th r : all_sized s -> all_quiet A B c -> general_costate dnl s c th = Ok r -> all_quiet A B r.
Proof. intros S C H. unfold general_costate in H. quieten. Qed.
Lemma symmetrized_quiet s c th r : all_sized s -> all_quiet A B c -> symmetrized_costate dnl s c th = Ok r -> all_quiet A B r.
Proof. intros S C H. unfold symmetrized_costate in H. quieten. Qed.
Lemma periodic_quiet s c th r : all_sized s -> all_quiet A B c -> periodic_costate dnl s c th = Ok r -> all_quiet A B r.
Proof. intros S C H. unfold periodic_costate in H. quieten. Qed.
Lemma simple_quiet s c th r : all_sized s -> all_quiet A B c -> simple_costate nl dnl B s c th = Ok r -> all_quiet A B r.
Proof. intros S C H. unfold simple_costate in H. quieten. Qed.
Lemma debug_quiet s c th r : all_sized s -> all_quiet A B c -> debug_costate nl dnl B s c th = Ok r -> all_quiet A B r.
Proof. intros S C H. unfold debug_costate in H. quieten. Qed.
End Quiet.

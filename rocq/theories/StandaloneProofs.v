(** Values of the standalone up-down script; agreement with the package. *)
From Coq Require Import List String Reals Arith Lia Lra Bool ZArith.
From Verif Require Import Base BaseFacts Tensor RealSum VecNet VecModel VecSpec VecProofs VecProofs2 VecProofs3 VecProofs4 VecProofs5
  StandaloneModel StandaloneSpec.
Import ListNotations.
Open Scope string_scope.
Open Scope R_scope.

Lemma add32_is x b N D d f g : is3 N D d f x -> is2 D d g b ->
  exists y, add32 x b = Ok y /\ is3 N D d (fun n i k => f n i k + g i k) y.
Proof.
  intros [[X0 [X1 X2]] Hx] [B0 [B1 Hb]]. unfold add32, zip3. cbn [n0 n1 n2]. rewrite X0, X1, X2, B0, B1, bdim_1.
  unfold bdim. rewrite !Nat.eqb_refl. cbn [bind]. eexists. split; [reflexivity|]. split; [repeat split|].
  cbn [v3 n0 n1 n2]. intros n i k Hn Hi Hk. rewrite !bidx_refl. rewrite Hx, Hb; auto.
Qed.

Lemma sum3_is x N D d f : is3 N D d f x -> sum3 x = rsum D (fun i => rsum d (fun k => rsum N (fun n => f n i k))).
Proof.
  intros [[A [B C]] H]. unfold sum3, sum2, sum0. cbn. rewrite B, C. apply rsum_ext; intros. apply rsum_ext; intros.
  rewrite A. apply rsum_ext; intros. auto.
Qed.

Lemma sum_squares x a b f : is2 a b f x ->
  sum2 (map2 (fun x => x ^ 2) x) = rsum a (fun i => rsum b (fun k => (f i k) ^ 2)).
Proof. intros [A [B H]]. unfold sum2. cbn [m0 m1 v2 map2]. rewrite A, B. apply rsum_ext; intros. apply rsum_ext; intros. rewrite H; auto. Qed.

(** The formulas. *)
Section Formulas.
Variables nl dnl : R -> R.
Variables N D d e : nat.
Variables p1 p2 q1 q2 : nat -> nat -> nat -> R.
Definition L1 (k j : nat) : R := rsum N (fun n => rsum D (fun i => nl (q2 n i j) * p1 n i k)) / INR N.
Definition L2 (j k : nat) : R := rsum N (fun n => rsum D (fun i => p2 n i j * q1 n i k)) / INR N.
Definition B1 (i k : nat) : R := rsum N (fun n => p1 n i k) / INR N.
Definition B2 (i j : nat) : R := rsum N (fun n => p2 n i j) / INR N.
Definition dq1 (n i k : nat) : R := rsum e (fun j => nl (q2 n i j) * L1 k j) + B1 i k.
Definition dq2 (n i j : nat) : R := rsum d (fun k => q1 n i k * L2 j k) + B2 i j.
Definition dp1 (n i k : nat) : R := - rsum e (fun j => p2 n i j * L2 j k).
Definition dp2 (n i j : nat) : R := - dnl (q2 n i j) * rsum d (fun k => p1 n i k * L1 k j).
Definition EE : R :=
  1 / 2 * (rsum e (fun j => rsum d (fun k => (L2 j k) ^ 2)) + rsum d (fun k => rsum e (fun j => (L1 k j) ^ 2))
           + rsum D (fun i => rsum e (fun j => (B2 i j) ^ 2)) + rsum D (fun i => rsum d (fun k => (B1 i k) ^ 2))).
End Formulas.

Section Values.
Variables nl dnl : R -> R.
Variables N D d e : nat.
Variables p1 p2 q1 q2 : t3.
Variables P1 P2 Q1 Q2 : nat -> nat -> nat -> R.
Hypothesis Hp1 : is3 N D d P1 p1.
Hypothesis Hp2 : is3 N D e P2 p2.
Hypothesis Hq1 : is3 N D d Q1 q1.
Hypothesis Hq2 : is3 N D e Q2 q2.
Notation s := [("p1", p1); ("p2", p2); ("q1", q1); ("q2", q2)].

Lemma parameters_is : exists l2 l1 b2 b1,
  compute_parameters nl s = Ok [("l2_weight", l2); ("l1_weight", l1); ("l2_bias", b2); ("l1_bias", b1)]
  /\ is2 e d (L2 N D P2 Q1) l2 /\ is2 d e (L1 nl N D P1 Q2) l1 /\ is2 D e (B2 N P2) b2 /\ is2 D d (B1 N P1) b1.
Proof.
  unfold compute_parameters. sdi.
  edestruct (matmul33_is (map3 nl (transpose12 q2)) p1) as [t [-> Ht]]; [apply map3_is, transpose12_is; exact Hq2|exact Hp1|].
  cbn [bind].
  edestruct (matmul33_is (transpose12 p2) q1) as [t' [-> Ht']]; [apply transpose12_is; exact Hp2|exact Hq1|].
  cbn [bind]. do 4 eexists. split; [reflexivity|].
  split; [exact (mean0_is _ _ _ _ _ Ht')|]. split; [exact (tr_is _ _ _ _ (mean0_is _ _ _ _ _ Ht))|].
  split; [exact (tr_is _ _ _ _ (mean0_is _ _ _ _ _ (transpose12_is _ _ _ _ _ Hp2)))|].
  exact (mean0_is _ _ _ _ _ Hp1).
Qed.

Lemma rhs_is : exists r1 r2 r3 r4,
  compute_rhs nl dnl s = Ok [("p1", r1); ("p2", r2); ("q1", r3); ("q2", r4)]
  /\ is3 N D d (dp1 N D e P2 Q1) r1 /\ is3 N D e (dp2 nl dnl N D d P1 Q2) r2
  /\ is3 N D d (dq1 nl N D e P1 Q2) r3 /\ is3 N D e (dq2 N D d P2 Q1) r4.
Proof.
  destruct parameters_is as [l2 [l1 [b2 [b1 [Ep [[L20 [L21 HL2]] [[L10 [L11 HL1]] [HB2 HB1]]]]]]]].
  unfold compute_rhs. rewrite Ep. sdi.
  destruct (matmul32_is (map3 nl q2) (tr l1) N D e d (fun n i k => nl (Q2 n i k))) as [a [-> Ha]]; auto; [apply map3_is; exact Hq2|].
  cbn [bind]. edestruct (add32_is a b1) as [r3 [-> Hr3]]; [exact Ha|exact HB1|]. cbn [bind].
  destruct (matmul32_is q1 (tr l2) N D d e Q1) as [b [-> Hb]]; auto.
  cbn [bind]. edestruct (add32_is b b2) as [r4 [-> Hr4]]; [exact Hb|exact HB2|]. cbn [bind].
  destruct (matmul32_is p1 l1 N D d e P1) as [m [-> Hm]]; auto. cbn [bind].
  edestruct (zip3_is Rmult (map3 Ropp (map3 dnl q2)) m) as [r2 [-> Hr2]]; [apply map3_is, map3_is; exact Hq2|exact Hm|]. cbn [bind].
  destruct (matmul32_is p2 l2 N D e d P2) as [m' [-> Hm']]; auto. cbn [bind].
  do 4 eexists. split; [reflexivity|].
  split; [|split; [|split]].
  - apply (map3_is Ropp) in Hm'. split; [apply Hm'|]. intros n i k Hn Hi Hk. rewrite (proj2 Hm') by auto.
    unfold dp1. f_equal. apply rsum_ext; intros. rewrite HL2; auto.
  - split; [apply Hr2|]. intros n i k Hn Hi Hk. rewrite (proj2 Hr2) by auto. unfold dp2. f_equal.
    apply rsum_ext; intros. rewrite HL1; auto.
  - split; [apply Hr3|]. intros n i k Hn Hi Hk. rewrite (proj2 Hr3) by auto. unfold dq1. f_equal.
    apply rsum_ext; intros. cbn. rewrite HL1; auto.
  - split; [apply Hr4|]. intros n i k Hn Hi Hk. rewrite (proj2 Hr4) by auto. unfold dq2. f_equal.
    apply rsum_ext; intros. cbn. rewrite HL2; auto.
Qed.

Lemma energy_is : compute_energy nl s = Ok (EE nl N D d e P1 P2 Q1 Q2).
Proof.
  destruct parameters_is as [l2 [l1 [b2 [b1 [Ep [HL2 [HL1 [HB2 HB1]]]]]]]].
  unfold compute_energy. rewrite Ep. cbn [bind fold_left snd].
  rewrite (sum_squares _ _ _ _ HL2), (sum_squares _ _ _ _ HL1), (sum_squares _ _ _ _ HB2), (sum_squares _ _ _ _ HB1).
  unfold EE. f_equal. ring.
Qed.
Hypothesis HN : (0 < N)%nat.

Let INRN : INR N <> 0. Proof. apply not_0_INR. lia. Qed.

(** Pairing momenta with the derivatives gives the squared parameters. *)
Lemma pair_weight a b (f g : nat -> nat -> nat -> R) (M : nat -> nat -> R) :
  (forall k j, M k j = rsum N (fun n => rsum D (fun i => g n i j * f n i k)) / INR N) ->
  rsum D (fun i => rsum a (fun k => rsum N (fun n => f n i k * rsum b (fun j => g n i j * M k j))))
  = INR N * rsum a (fun k => rsum b (fun j => (M k j) ^ 2)).
Proof.
  intros HM. rewrite rsum_swap, <- rsum_scal. apply rsum_ext; intros k _.
  transitivity (rsum D (fun i => rsum b (fun j => rsum N (fun n => f n i k * (g n i j * M k j))))).
  { apply rsum_ext; intros i _. rewrite rsum_swap. apply rsum_ext; intros n _. rewrite rsum_scal. reflexivity. }
  rewrite rsum_swap, <- rsum_scal. apply rsum_ext; intros j _.
  transitivity (M k j * rsum N (fun n => rsum D (fun i => g n i j * f n i k))).
  { rewrite rsum_swap, <- rsum_scal. apply rsum_ext; intros i _. rewrite <- rsum_scal. apply rsum_ext; intros n _. ring. }
  replace (rsum N (fun n => rsum D (fun i => g n i j * f n i k))) with (INR N * M k j) by (rewrite HM; field; auto).
  ring.
Qed.

Lemma pair_bias a (f : nat -> nat -> nat -> R) (M : nat -> nat -> R) :
  (forall i k, M i k = rsum N (fun n => f n i k) / INR N) ->
  rsum D (fun i => rsum a (fun k => rsum N (fun n => f n i k * M i k))) = INR N * rsum D (fun i => rsum a (fun k => (M i k) ^ 2)).
Proof.
  intros HM. rewrite <- rsum_scal. apply rsum_ext; intros i _. rewrite <- rsum_scal. apply rsum_ext; intros k _.
  rewrite rsum_scal_r. replace (rsum N (fun n => f n i k)) with (INR N * M i k) by (rewrite HM; field; auto). ring.
Qed.

Lemma rsum_plus3 a b c f g :
  rsum a (fun i => rsum b (fun k => rsum c (fun n => f n i k + g n i k)))
  = rsum a (fun i => rsum b (fun k => rsum c (fun n => f n i k))) + rsum a (fun i => rsum b (fun k => rsum c (fun n => g n i k))).
Proof. rewrite <- rsum_plus. apply rsum_ext; intros. rewrite <- rsum_plus. apply rsum_ext; intros. apply rsum_plus. Qed.

Lemma lagrangian_is : compute_lagrangian nl dnl s = Ok (2 * EE nl N D d e P1 P2 Q1 Q2).
Proof.
  destruct rhs_is as [r1 [r2 [r3 [r4 [Er [_ [_ [H3 H4]]]]]]]].
  unfold compute_lagrangian. sdi. rewrite Er. sdi.
  destruct (zip3_is Rmult p1 r3 N D d _ _ Hp1 H3) as [a [-> Ha]]. sdi.
  destruct (zip3_is Rmult p2 r4 N D e _ _ Hp2 H4) as [b [-> Hb]]. sdi.
  rewrite (sum3_is _ _ _ _ _ Ha), (sum3_is _ _ _ _ _ Hb), (proj1 (proj1 Hp1)). f_equal.
  transitivity ((INR N * rsum d (fun k => rsum e (fun j => (L1 nl N D P1 Q2 k j) ^ 2))
      + INR N * rsum D (fun i => rsum d (fun k => (B1 N P1 i k) ^ 2))
      + (INR N * rsum e (fun j => rsum d (fun k => (L2 N D P2 Q1 j k) ^ 2))
      + INR N * rsum D (fun i => rsum e (fun j => (B2 N P2 i j) ^ 2)))) / INR N).
  { f_equal. f_equal.
    - rewrite <- (pair_weight d e P1 (fun n i j => nl (Q2 n i j)) (L1 nl N D P1 Q2)) by reflexivity.
      rewrite <- (pair_bias d P1 (B1 N P1)) by reflexivity. rewrite <- rsum_plus3.
      apply rsum_ext; intros. apply rsum_ext; intros. apply rsum_ext; intros. unfold dq1. ring.
    - rewrite <- (pair_weight e d P2 Q1 (L2 N D P2 Q1)).
      2:{ intros. unfold L2. f_equal. apply rsum_ext; intros. apply rsum_ext; intros. ring. }
      rewrite <- (pair_bias e P2 (B2 N P2)) by reflexivity. rewrite <- rsum_plus3.
      apply rsum_ext; intros. apply rsum_ext; intros. apply rsum_ext; intros. unfold dq2. ring. }
  unfold EE. field. auto.
Qed.

Lemma hamiltonian_is : compute_hamiltonian nl dnl s = Ok (INR N * EE nl N D d e P1 P2 Q1 Q2).
Proof.
  unfold compute_hamiltonian. rewrite energy_is. cbn [bind]. rewrite lagrangian_is. sdi.
  rewrite (proj1 (proj1 Hp1)). f_equal. ring.
Qed.
End Values.

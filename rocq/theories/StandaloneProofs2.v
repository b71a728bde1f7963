(** The standalone script against the package, and its difference quotients. *)
From Coq Require Import List String Reals Arith Lia Lra Bool ZArith.
From Verif Require Import Base BaseFacts Tensor RealSum VecNet VecModel VecSpec VecProofs VecProofs2 VecProofs3 VecProofs4 VecProofs5
  StandaloneModel StandaloneSpec StandaloneProofs.
Import ListNotations.
Open Scope string_scope.
Open Scope R_scope.

Lemma ok_val {A} (x y : A) : Ok x = Ok y -> x = y. Proof. congruence. Qed.

(** ** Agreement *)
Section Package.
Variables nl dnl : R -> R.
Variable init : inits.
Variables N D d f : nat.
Notation e := (d * f)%nat.

Lemma package_agrees s : (0 < N)%nat -> standalone_states N D d e s ->
  exists th dq1 dq2 dp1 dp2 E,
    updown_parameters nl init d f None (package_states s) (package_costates s) = Ok th
    /\ updown_rhs nl (package_states s) th = Ok [("dot_q1", dq1); ("dot_q2", dq2)]
    /\ updown_costate dnl (package_states s) (package_costates s) th = Ok [("dot_p_q1", dp1); ("dot_p_q2", dp2)]
    /\ compute_rhs nl dnl s = Ok [("p1", dp1); ("p2", dp2); ("q1", dq1); ("q2", dq2)]
    /\ compute_energy nl s = Ok E /\ kinetic_energy th = E
    /\ compute_lagrangian nl dnl s = Ok (2 * E)
    /\ potential_energy (updown_rhs nl) (package_states s) (package_costates s) th = Ok (2 * E)
    /\ compute_hamiltonian nl dnl s = Ok (INR N * E)
    /\ lagrangian (updown_rhs nl) N (package_states s) (package_costates s) th = Ok (- (INR N * E)).
Proof.
  intros HN [p1 [p2 [q1 [q2 [-> [S1 [S2 [S3 S4]]]]]]]]. cbn [package_states package_costates].
  pose proof (own3 _ _ _ _ S1) as O1. pose proof (own3 _ _ _ _ S2) as O2.
  pose proof (own3 _ _ _ _ S3) as O3. pose proof (own3 _ _ _ _ S4) as O4.
  pose proof (energy_is nl N D d e _ _ _ _ _ _ _ _ O1 O2 O3 O4) as He.
  pose proof (lagrangian_is nl dnl N D d e _ _ _ _ _ _ _ _ O1 O2 O3 O4 HN) as Hl.
  pose proof (hamiltonian_is nl dnl N D d e _ _ _ _ _ _ _ _ O1 O2 O3 O4 HN) as Hh.
  set (E := EE nl N D d e (v3 p1) (v3 p2) (v3 q1) (v3 q2)) in *. clearbody E.
  destruct (matmul33_is (map3 nl (transpose12 q2)) p1 N e D d (fun n i k => nl (v3 q2 n k i)) (v3 p1)) as [t [Et Ht]];
    [apply (map3_is nl), transpose12_is; exact O4|exact O1|].
  destruct (matmul33_is (transpose12 p2) q1 N e D d (fun n i k => v3 p2 n k i) (v3 q1)) as [t' [Et' Ht']];
    [apply transpose12_is; exact O2|exact O3|].
  assert (Hpar : compute_parameters nl [("p1", p1); ("p2", p2); ("q1", q1); ("q2", q2)]
     = Ok [("l2_weight", mean0 t'); ("l1_weight", tr (mean0 t)); ("l2_bias", tr (mean0 (transpose12 p2))); ("l1_bias", mean0 p1)]).
  { unfold compute_parameters. sdi. rewrite Et. sdi. rewrite Et'. reflexivity. }
  assert (Hth : updown_parameters nl init d f None [("q1", q1); ("q2", q2)] [("p_q1", p1); ("p_q2", p2)]
     = Ok [("l1", mkLin (tr (mean0 t)) (Some (mean0 p1)) None None);
           ("l2", mkLin (mean0 t') (Some (tr (mean0 (transpose12 p2)))) None None)]).
  { unfold updown_parameters. sdi. rewrite Et. sdi. rewrite Et'. reflexivity. }
  destruct (rhs_is nl dnl N D d e _ _ _ _ _ _ _ _ O1 O2 O3 O4) as [r1 [r2 [r3 [r4 [Er [I1 [I2 [I3 I4]]]]]]]].
  pose proof (mean0_is _ _ _ _ _ O1) as M1. pose proof (tr_is _ _ _ _ (mean0_is _ _ _ _ _ (transpose12_is _ _ _ _ _ O2))) as M2.
  pose proof (mean0_is _ _ _ _ _ Ht) as M3. pose proof (mean0_is _ _ _ _ _ Ht') as M4.
  pose proof Er as Er'. unfold compute_rhs in Er'. rewrite Hpar in Er'. revert Er'. sdi.
  destruct (matmul32 (map3 nl q2) (tr (tr (mean0 t)))) as [a|] eqn:Ea; [|discriminate]. cbn [bind].
  destruct (add32 a (mean0 p1)) as [y1|] eqn:Ey1; [|discriminate]. cbn [bind].
  destruct (matmul32 q1 (tr (mean0 t'))) as [b|] eqn:Eb; [|discriminate]. cbn [bind].
  destruct (add32 b (tr (mean0 (transpose12 p2)))) as [y2|] eqn:Ey2; [|discriminate]. cbn [bind].
  destruct (matmul32 p1 (tr (mean0 t))) as [m|] eqn:Em; [|discriminate]. cbn [bind].
  destruct (zip3 Rmult (map3 Ropp (map3 dnl q2)) m) as [x2|] eqn:Ex2; [|discriminate]. cbn [bind].
  destruct (matmul32 p2 (mean0 t')) as [m'|] eqn:Em'; [|discriminate]. cbn [bind].
  intros Er'. injection Er' as E1 E2 E3 E4. subst r1 r2 r3 r4.
  assert (F1 : n0 y1 = n0 a /\ n1 y1 = n1 a /\ n2 y1 = n2 a).
  { revert Ea. unfold matmul32. destruct (Nat.eqb _ _); [|discriminate]. intros Ea. injection Ea as <-. cbn.
    destruct I3 as [[A [B C]] _]. destruct S4 as [A' [B' C']]. destruct M3 as [_ [M31 _]]. cbn in M31.
    rewrite A, B, C, A', B'. destruct Ht as [[_ [_ ?]] _]. auto. }
  assert (F2 : n0 y2 = n0 b /\ n1 y2 = n1 b /\ n2 y2 = n2 b).
  { revert Eb. unfold matmul32. destruct (Nat.eqb _ _); [|discriminate]. intros Eb. injection Eb as <-. cbn.
    destruct I4 as [[A [B C]] _]. destruct S3 as [A' [B' C']]. rewrite A, B, C, A', B'. destruct Ht' as [[_ [? ?]] _]. auto. }
  assert (Hf1 : forward (mkLin (tr (mean0 t)) (Some (mean0 p1)) None None) (map3 nl q2) = Ok y1).
  { unfold forward, f_linear. cbn [lin_weight lin_bias]. rewrite Ea. cbn [bind]. unfold add32 in Ey1. rewrite Ey1. cbn [bind].
    destruct F1 as [-> [-> ->]]. rewrite !Nat.eqb_refl. reflexivity. }
  assert (Hf2 : forward (mkLin (mean0 t') (Some (tr (mean0 (transpose12 p2)))) None None) q1 = Ok y2).
  { unfold forward, f_linear. cbn [lin_weight lin_bias]. rewrite Eb. cbn [bind]. unfold add32 in Ey2. rewrite Ey2. cbn [bind].
    destruct F2 as [-> [-> ->]]. rewrite !Nat.eqb_refl. reflexivity. }
  assert (Hrhs : updown_rhs nl [("q1", q1); ("q2", q2)]
     [("l1", mkLin (tr (mean0 t)) (Some (mean0 p1)) None None);
      ("l2", mkLin (mean0 t') (Some (tr (mean0 (transpose12 p2)))) None None)] = Ok [("dot_q1", y1); ("dot_q2", y2)]).
  { unfold updown_rhs. sdi. rewrite Hf1. sdi. rewrite Hf2. reflexivity. }
  assert (Hk : kinetic_energy [("l1", mkLin (tr (mean0 t)) (Some (mean0 p1)) None None);
      ("l2", mkLin (mean0 t') (Some (tr (mean0 (transpose12 p2)))) None None)] = E).
  { unfold compute_energy in He. rewrite Hpar in He. cbn [bind fold_left snd] in He. apply ok_val in He. rewrite <- He.
    unfold kinetic_energy. cbn [fold_left snd lin_weight lin_bias weight_of_weight weight_of_bias penalty]. ring. }
  assert (Hpot : pairing [("p_q1", p1); ("p_q2", p2)] [("dot_q1", y1); ("dot_q2", y2)] = Ok (2 * E)).
  { unfold compute_lagrangian in Hl. revert Hl. sdi. rewrite Er. sdi.
    destruct (zip3_is Rmult p1 y1 N D d _ _ O1 I3) as [z1 [Ez1 Hz1]].
    destruct (zip3_is Rmult p2 y2 N D e _ _ O2 I4) as [z2 [Ez2 Hz2]]. rewrite Ez1. sdi. rewrite Ez2. sdi. intros Hl.
    unfold pairing. cbn [combine foldM fst snd]. rewrite Ez1. cbn [bind]. rewrite Ez2. cbn [bind]. f_equal. apply ok_val in Hl. rewrite <- Hl.
    assert (Hm : forall z a b c, of_shape a b c z -> sum2 (mean0 z) = sum3 z / INR a).
    { intros z a' b' c' [Z0 [Z1 Z2]]. unfold sum3, sum2, mean0. cbn. rewrite Z0.
      unfold Rdiv. rewrite <- rsum_scal_r. apply rsum_ext; intros. rewrite <- rsum_scal_r. reflexivity. }
    rewrite (Hm z1 N D d), (Hm z2 N D e) by (apply Hz1 || apply Hz2). rewrite (proj1 S1). field.
    apply not_0_INR. lia. }
  do 5 eexists. exists E. split; [exact Hth|]. split; [exact Hrhs|].
  split. { unfold updown_costate. sdi. cbn [lin_weight]. rewrite Em. sdi. rewrite Ex2. sdi. rewrite Em'. reflexivity. }
  split; [exact Er|]. split; [exact He|]. split; [exact Hk|]. split; [exact Hl|].
  split. { unfold potential_energy. rewrite Hrhs. exact Hpot. }
  split; [exact Hh|]. unfold lagrangian, potential_energy. rewrite Hrhs. cbn [bind]. rewrite Hpot. cbn [bind].
  f_equal. rewrite Hk. ring.
Qed.
End Package.

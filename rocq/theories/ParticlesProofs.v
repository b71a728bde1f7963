(** Proofs: choosing particles evenly changes neither parameters nor data. *)
From Coq Require Import List String Bool Reals Arith Lia Lra FunctionalExtensionality.
From Verif Require Import Base BaseFacts RealSum VecModel ParticlesModel ParticlesSpec.
Import ListNotations.
Open Scope string_scope.
Open Scope list_scope.
Open Scope nat_scope.

(** ** Sums over chosen particles *)
Open Scope R_scope.
Lemma rsum_count N' (g : nat -> nat) j :
  rsum N' (fun n => if Nat.eqb (g n) j then 1 else 0) = INR (List.length (filter (fun n => Nat.eqb (g n) j) (seq 0 N'))).
Proof.
  induction N' as [|n IH]; [reflexivity|]. rewrite seq_S, filter_app, app_length, plus_INR. cbn [rsum].
  rewrite IH. cbn [Nat.add filter]. destruct (Nat.eqb (g n) j); cbn; lra.
Qed.

Lemma rsum_pick N (g : nat -> nat) n F : (g n < N)%nat -> F (g n) = rsum N (fun j => (if Nat.eqb (g n) j then 1 else 0) * F j).
Proof.
  intros H. rewrite (rsum_single N _ (g n) H).
  - rewrite Nat.eqb_refl. lra.
  - intros i _ NE. destruct (Nat.eqb_spec (g n) i); [congruence|lra].
Qed.

Lemma rsum_chosen (g : nat -> nat) N N' F : (forall n, (n < N')%nat -> (g n < N)%nat) ->
  forall m, (forall j, (j < N)%nat -> List.length (filter (fun n => Nat.eqb (g n) j) (seq 0 N')) = m) ->
  rsum N' (fun n => F (g n)) = INR m * rsum N F.
Proof.
  intros G m C. rewrite (rsum_ext N' _ (fun n => rsum N (fun j => (if Nat.eqb (g n) j then 1 else 0) * F j)))
    by (intros n Hn; apply rsum_pick; auto).
  rewrite rsum_swap, <- rsum_scal. apply rsum_ext. intros j Hj.
  rewrite rsum_scal_r, rsum_count, (C j Hj). reflexivity.
Qed.

Lemma rsum_one n : rsum n (fun _ => 1) = INR n.
Proof. induction n as [|n IH]; [reflexivity|]. rewrite S_INR. cbn [rsum]. rewrite IH. reflexivity. Qed.

Lemma mean_chosen g N N' F : evenly g N N' -> rsum N' (fun n => F (g n)) / INR N' = rsum N F / INR N.
Proof.
  intros (G & m & M & C). rewrite (rsum_chosen g N N' F G m C).
  pose proof (rsum_chosen g N N' (fun _ => 1) G m C) as E. rewrite !rsum_one in E.
  rewrite E. destruct N as [|N].
  - cbn. unfold Rdiv. rewrite Rmult_0_r. lra.
  - assert (INR (S N) <> 0) by (apply not_0_INR; discriminate). assert (INR m <> 0) by (apply not_0_INR; lia).
    field. split; assumption.
Qed.
Close Scope R_scope.

(** ** Operations on chosen particles *)
Section Chosen.
Variable g : nat -> nat.
Variable N N' : nat.
Notation "x ~> y" := (chosen g N N' x y) (at level 70).

Lemma chosen_map f x x' : x ~> x' -> map3 f x ~> map3 f x'.
Proof.
  intros (A & B & C & D & E). repeat split; cbn; auto. intros n i k H. rewrite E by exact H. reflexivity.
Qed.

Lemma chosen_transpose x x' : x ~> x' -> transpose12 x ~> transpose12 x'.
Proof. intros (A & B & C & D & E). repeat split; cbn; auto. Qed.

Lemma bdim_same a : bdim a a = Ok a.
Proof. unfold bdim. rewrite Nat.eqb_refl. reflexivity. Qed.
Lemma bidx_same a i : bidx a a i = i.
Proof. unfold bidx. rewrite Nat.eqb_refl. reflexivity. Qed.

Lemma chosen_zip f x y z x' y' : x ~> x' -> y ~> y' -> zip3 f x y = Ok z ->
  exists z', zip3 f x' y' = Ok z' /\ z ~> z'.
Proof.
  intros (A & B & C & D & E) (A1 & B1 & C1 & D1 & E1) H. unfold zip3 in H |- *.
  rewrite A, A1, bdim_same in H. rewrite B, B1, bdim_same, C, C1, D, D1. cbn [bind] in H |- *.
  apply bind_ok in H as (b & -> & H). apply bind_ok in H as (c & -> & H). injection H as <-. cbn [bind].
  eexists. split; [reflexivity|]. repeat split; auto. cbn [v3]. intros n i k Hn.
  rewrite !bidx_same, E, E1 by exact Hn. reflexivity.
Qed.

Lemma chosen_matmul32 x w z x' : x ~> x' -> matmul32 x w = Ok z -> exists z', matmul32 x' w = Ok z' /\ z ~> z'.
Proof.
  intros (A & B & C & D & E) H. unfold matmul32 in *. rewrite D. destruct (Nat.eqb (n2 x) (m0 w)); [|discriminate].
  injection H as <-. eexists. split; [reflexivity|]. repeat split; auto. cbn [v3]. intros n i k Hn.
  apply rsum_ext. intros j _. rewrite E by exact Hn. reflexivity.
Qed.

Lemma chosen_matmul33 x y z x' y' : x ~> x' -> y ~> y' -> matmul33 x y = Ok z ->
  exists z', matmul33 x' y' = Ok z' /\ z ~> z'.
Proof.
  intros (A & B & C & D & E) (A1 & B1 & C1 & D1 & E1) H. unfold matmul33 in *.
  rewrite A, A1, bdim_same in H. rewrite B, B1, bdim_same. cbn [bind] in H |- *. rewrite C1, D.
  destruct (Nat.eqb (n2 x) (n1 y)); [|discriminate]. injection H as <-.
  eexists. split; [reflexivity|]. repeat split; auto. cbn [v3]. intros n i k Hn.
  apply rsum_ext. intros j _. rewrite !bidx_same, E, E1 by exact Hn. reflexivity.
Qed.

Lemma bdim_one a : bdim a 1 = Ok a.
Proof. unfold bdim. destruct (Nat.eqb_spec a 1) as [->|]; [reflexivity|]. reflexivity. Qed.

Lemma chosen_forward l x z x' : x ~> x' -> forward l x = Ok z -> exists z', forward l x' = Ok z' /\ z ~> z'.
Proof.
  intros R H. unfold forward, f_linear in *. apply bind_ok in H as (y & EY & H).
  destruct (chosen_matmul32 _ _ _ _ R EY) as (y' & EY' & RY). rewrite EY'. cbn [bind].
  destruct (lin_bias l) as [b|]; [|injection H as <-; eauto].
  destruct RY as (A & B & C & D & E). unfold zip3 in *. cbn [n0 n1 n2 v3] in *.
  rewrite !bdim_one in *. cbn [bind] in *. rewrite C, D in *.
  apply bind_ok in H as (z0 & EZ & H). apply bind_ok in EZ as (b1 & E1 & EZ). apply bind_ok in EZ as (c1 & E2 & EZ).
  injection EZ as <-. rewrite E1, E2. cbn [bind n0 n1 n2] in *. rewrite !Nat.eqb_refl in *. cbn [andb] in *.
  destruct (Nat.eqb b1 (n1 y) && Nat.eqb c1 (n2 y)); [|discriminate]. injection H as <-.
  eexists. split; [reflexivity|]. repeat split; auto. cbn [v3]. intros n i k Hn.
  rewrite !bidx_same. rewrite E by exact Hn. reflexivity.
Qed.

Lemma chosen_item s s' k x : all_chosen g N N' s s' -> sd_item k s = Ok x ->
  exists x', sd_item k s' = Ok x' /\ x ~> x'.
Proof.
  induction 1 as [|[a y] [b y'] s s' [K R] F IH]; [discriminate|]. cbn in K. subst b.
  unfold sd_item in *. cbn [sd_get fst snd] in *. destruct (String.eqb k a); [|exact IH].
  intros H. injection H as <-. eauto.
Qed.

Lemma chosen_cons k x x' s s' : x ~> x' -> all_chosen g N N' s s' -> all_chosen g N N' ((k, x) :: s) ((k, x') :: s').
Proof. intros R A. constructor; [split; [reflexivity|exact R]|exact A]. Qed.

Lemma chosen_nil : all_chosen g N N' [] [].
Proof. constructor. Qed.

Hypothesis EV : evenly g N N'.

Lemma chosen_mean x x' : x ~> x' -> mean0 x' = mean0 x.
Proof.
  intros (A & B & C & D & E). unfold mean0, map2, sum0. cbn [m0 m1 v2]. rewrite A, B, C, D.
  f_equal. apply functional_extensionality. intros i. apply functional_extensionality. intros k.
  rewrite (rsum_ext N' _ (fun n => (fun n => v3 x n i k) (g n))) by (intros n Hn; apply E; exact Hn).
  apply (mean_chosen g N N' (fun n => v3 x n i k) EV).
Qed.
End Chosen.

(** ** The models *)
Lemma chosen_zeros g N N' x x' : chosen g N N' x x' -> chosen g N N' (zeros_like x) (zeros_like x').
Proof. intros (A & B & C & D & E). repeat split; auto. Qed.

Ltac choose := repeat first [simple apply chosen_map | simple apply chosen_transpose | simple apply chosen_zeros | eassumption].

Ltac step g N N' :=
  match goal with
  | H : bind _ _ = Ok _ |- _ =>
      let x := fresh "x" in let E := fresh "E" in let x' := fresh "x" in let E' := fresh "E" in let R := fresh "R" in
      apply bind_ok in H as (x & E & H); cbv beta zeta in H;
      first
        [ lazymatch type of E with
          | sd_item _ ?s = Ok _ =>
              match goal with A : all_chosen g N N' s _ |- _ =>
                destruct (chosen_item g N N' _ _ _ _ A E) as (x' & E' & R) end
          | forward _ _ = Ok _ =>
              edestruct (fun a b c e => chosen_forward g N N' a b c e) as (x' & E' & R); [|exact E|]; [solve [choose]|]
          | matmul32 _ _ = Ok _ =>
              edestruct (fun a b c e => chosen_matmul32 g N N' a b c e) as (x' & E' & R); [|exact E|]; [solve [choose]|]
          | matmul33 _ _ = Ok _ =>
              edestruct (fun a b c e f => chosen_matmul33 g N N' a b c e f) as (x' & E' & R); [| |exact E|];
                [solve [choose]|solve [choose]|]
          | zip3 _ _ _ = Ok _ =>
              edestruct (fun a b c e f h => chosen_zip g N N' a b c e f h) as (x' & E' & R); [| |exact E|];
                [solve [choose]|solve [choose]|]
          end; rewrite E'; cbn [bind]; clear E'
        | rewrite E; cbn [bind] ]; clear E
  end.

Ltac straight g N N' :=
  repeat step g N N';
  match goal with H : Ok _ = Ok _ |- _ => injection H as <- end;
  eexists; split; [reflexivity|]; repeat (apply chosen_cons; [solve [choose]|]); apply chosen_nil.

Section Models.
Variable g : nat -> nat.
Variable N N' : nat.
Variable nl dnl : R -> R.
Variable d e : nat.
Variable W : option R.
Variable init : string -> (nat -> nat -> R) * (nat -> R).
Variable ow : R.
Notation "s ~~> s'" := (all_chosen g N N' s s') (at level 70).

Lemma updown_rhs_chosen s s' p r : s ~~> s' -> updown_rhs nl s p = Ok r -> exists r', updown_rhs nl s' p = Ok r' /\ r ~~> r'.
Proof. intros A H. unfold updown_rhs in *. straight g N N'. Qed.
Lemma universal_rhs_chosen s s' p r : s ~~> s' -> universal_rhs nl s p = Ok r -> exists r', universal_rhs nl s' p = Ok r' /\ r ~~> r'.
Proof. intros A H. unfold universal_rhs in *. straight g N N'. Qed.
Lemma general_rhs_chosen s s' p r : s ~~> s' -> general_rhs nl s p = Ok r -> exists r', general_rhs nl s' p = Ok r' /\ r ~~> r'.
Proof. intros A H. unfold general_rhs in *. straight g N N'. Qed.
Lemma simple_rhs_chosen s s' p r : s ~~> s' -> simple_rhs nl s p = Ok r -> exists r', simple_rhs nl s' p = Ok r' /\ r ~~> r'.
Proof. intros A H. unfold simple_rhs in *. straight g N N'. Qed.
Lemma debug_rhs_chosen s s' p r : s ~~> s' -> debug_rhs nl s p = Ok r -> exists r', debug_rhs nl s' p = Ok r' /\ r ~~> r'.
Proof. intros A H. unfold debug_rhs in *. straight g N N'. Qed.
Lemma dampened_q2_rhs_chosen s s' p r : s ~~> s' -> dampened_q2_rhs nl s p = Ok r -> exists r', dampened_q2_rhs nl s' p = Ok r' /\ r ~~> r'.
Proof. intros A H. unfold dampened_q2_rhs in *. straight g N N'. Qed.
Lemma symmetrized_rhs_chosen s s' p r : s ~~> s' -> symmetrized_rhs nl s p = Ok r -> exists r', symmetrized_rhs nl s' p = Ok r' /\ r ~~> r'.
Proof. intros A H. unfold symmetrized_rhs in *. straight g N N'. Qed.
Lemma periodic_rhs_chosen s s' p r : s ~~> s' -> periodic_rhs nl s p = Ok r -> exists r', periodic_rhs nl s' p = Ok r' /\ r ~~> r'.
Proof. intros A H. unfold periodic_rhs in *. straight g N N'. Qed.
Lemma dampened_rhs_chosen s s' p r : s ~~> s' -> dampened_rhs nl s p = Ok r -> exists r', dampened_rhs nl s' p = Ok r' /\ r ~~> r'.
Proof. intros A H. unfold dampened_rhs in *. straight g N N'. Qed.

Lemma updown_costate_chosen s s' c c' p r : s ~~> s' -> c ~~> c' -> updown_costate dnl s c p = Ok r ->
  exists r', updown_costate dnl s' c' p = Ok r' /\ r ~~> r'.
Proof. intros A B H. unfold updown_costate in *. straight g N N'. Qed.
Lemma universal_costate_chosen s s' c c' p r : s ~~> s' -> c ~~> c' -> universal_costate dnl s c p = Ok r ->
  exists r', universal_costate dnl s' c' p = Ok r' /\ r ~~> r'.
Proof. intros A B H. unfold universal_costate in *. straight g N N'. Qed.
Lemma general_costate_chosen s s' c c' p r : s ~~> s' -> c ~~> c' -> general_costate dnl s c p = Ok r ->
  exists r', general_costate dnl s' c' p = Ok r' /\ r ~~> r'.
Proof. intros A B H. unfold general_costate in *. straight g N N'. Qed.
Lemma symmetrized_costate_chosen s s' c c' p r : s ~~> s' -> c ~~> c' -> symmetrized_costate dnl s c p = Ok r ->
  exists r', symmetrized_costate dnl s' c' p = Ok r' /\ r ~~> r'.
Proof. intros A B H. unfold symmetrized_costate in *. straight g N N'. Qed.
Lemma periodic_costate_chosen s s' c c' p r : s ~~> s' -> c ~~> c' -> periodic_costate dnl s c p = Ok r ->
  exists r', periodic_costate dnl s' c' p = Ok r' /\ r ~~> r'.
Proof. intros A B H. unfold periodic_costate in *. straight g N N'. Qed.

Hypothesis EV : evenly g N N'.
Ltac computed :=
  repeat (lazymatch goal with
          | H : bind (store_weight _ _ _) _ = Ok _ |- _ => fail
          | _ => step g N N'
          end);
  repeat match goal with
  | |- context [mean0 ?y] => erewrite (chosen_mean g N N' EV _ y) by (solve [choose])
  end; assumption.

Lemma updown_parameters_chosen s s' c c' th : s ~~> s' -> c ~~> c' -> updown_parameters nl init d e W s c = Ok th ->
  updown_parameters nl init d e W s' c' = Ok th.
Proof. intros A B H. unfold updown_parameters in *. computed. Qed.
Lemma universal_parameters_chosen s s' c c' th : s ~~> s' -> c ~~> c' -> universal_parameters nl init d e W ow s c = Ok th ->
  universal_parameters nl init d e W ow s' c' = Ok th.
Proof. intros A B H. unfold universal_parameters in *. computed. Qed.
Lemma general_parameters_chosen s s' c c' th : s ~~> s' -> c ~~> c' -> general_parameters nl init d e W s c = Ok th ->
  general_parameters nl init d e W s' c' = Ok th.
Proof. intros A B H. unfold general_parameters in *. computed. Qed.
Lemma symmetrized_parameters_chosen s s' c c' th : s ~~> s' -> c ~~> c' -> symmetrized_parameters nl init d e W s c = Ok th ->
  symmetrized_parameters nl init d e W s' c' = Ok th.
Proof. intros A B H. unfold symmetrized_parameters in *. computed. Qed.
Lemma periodic_parameters_chosen s s' c c' th : s ~~> s' -> c ~~> c' -> periodic_parameters nl init d e W s c = Ok th ->
  periodic_parameters nl init d e W s' c' = Ok th.
Proof. intros A B H. unfold periodic_parameters in *. computed. Qed.
End Models.

(** ** Loops over the particles *)
Lemma zip2_uniform f a b c h : (exists e, forall X Y, zip2 f (mkT2 a b X) (mkT2 c h Y) = Raise e) \/
  exists u w F, forall X Y, zip2 f (mkT2 a b X) (mkT2 c h Y) = Ok (mkT2 u w (F X Y)).
Proof.
  unfold zip2. cbn [m0 m1 v2]. destruct (bdim a c) as [u|x]; [|left; exists x; reflexivity].
  destruct (bdim b h) as [w|x]; [|left; exists x; reflexivity]. cbn [bind].
  right. exists u, w, (fun X Y i k => f (X (bidx a u i) (bidx b w k)) (Y (bidx c u i) (bidx h w k))). reflexivity.
Qed.

Section Loops.
Open Scope R_scope.
Variable g : nat -> nat.
Variable N N' : nat.
Variable nl dnl : R -> R.
Variable d : nat.
Hypothesis RG : forall n, (n < N')%nat -> (g n < N)%nat.

Lemma range_zero : N = 0%nat -> N' = 0%nat.
Proof. intros Z. destruct N' as [|n]; [reflexivity|]. specialize (RG 0%nat). lia. Qed.

Definition one (q0 q1 p0 p1 : nat) (A : t2) (X Y : nat -> nat -> R) : result t2 :=
  m <- matmul22 (mkT2 p0 p1 Y) A ;; zip2 Rmult (map2 Ropp (map2 dnl (mkT2 q0 q1 X))) m.

Lemma one_uniform q0 q1 p0 p1 A : (exists e, forall X Y, one q0 q1 p0 p1 A X Y = Raise e) \/
  exists u w F, forall X Y, one q0 q1 p0 p1 A X Y = Ok (mkT2 u w (F X Y)).
Proof.
  unfold one, matmul22, map2. cbn [m0 m1 v2]. destruct (Nat.eqb p1 (m0 A)); [|left; eexists; reflexivity]. cbn [bind].
  destruct (zip2_uniform Rmult q0 q1 p0 (m1 A)) as [(e & H)|(u & w & F & H)].
  - left. exists e. intros X Y. apply H.
  - right. exists u, w. eexists. intros X Y. apply H.
Qed.

Lemma costate_loop_rows n q p A F u w :
  n0 q = n -> n0 p = n -> (forall X Y, one (n1 q) (n2 q) (n1 p) (n2 p) A X Y = Ok (mkT2 u w (F X Y))) ->
  (Nat.eqb u (n1 p) || Nat.eqb u 1) && (Nat.eqb w (n2 p) || Nat.eqb w 1) = true ->
  exists z, costate_loop dnl n q p A = Ok z /\ n0 z = n /\ n1 z = n1 p /\ n2 z = n2 p /\
    forall a i k, (a < n)%nat -> v3 z a i k = F (v3 q a) (v3 p a) (bidx u (n1 p) i) (bidx w (n2 p) k).
Proof.
  intros Q0 P0 U C. unfold costate_loop.
  match goal with |- exists z, foldM ?F _ _ = _ /\ _ => set (st := F) end.
  assert (G : forall m a acc, (a + m = n)%nat -> n0 acc = n -> n1 acc = n1 p -> n2 acc = n2 p ->
    (forall b i k, (b < a)%nat -> v3 acc b i k = F (v3 q b) (v3 p b) (bidx u (n1 p) i) (bidx w (n2 p) k)) ->
    exists z, foldM st (seq a m) acc = Ok z /\ n0 z = n /\ n1 z = n1 p /\ n2 z = n2 p /\
      forall b i k, (b < n)%nat -> v3 z b i k = F (v3 q b) (v3 p b) (bidx u (n1 p) i) (bidx w (n2 p) k)).
  { induction m as [|m IH]; intros a acc S A0 A1 A2 V; cbn [seq foldM].
    - exists acc. repeat split; auto. intros. apply V. lia.
    - unfold st at 1. unfold row. rewrite Q0, P0. destruct (Nat.ltb_spec a n); [|lia]. cbn [bind].
      specialize (U (v3 q a) (v3 p a)). unfold one in U. apply bind_ok in U as (m' & -> & U). cbn [bind].
      rewrite U. cbn [bind]. unfold set_row. rewrite A0. destruct (Nat.ltb_spec a n); [|lia]. cbn [negb m0 m1].
      rewrite A1, A2, C. cbn [bind]. apply IH; [lia|reflexivity..|]. cbn [v3 v2]. intros b i k B.
      destruct (Nat.eqb_spec b a) as [->|]; [reflexivity|]. apply V. lia. }
  apply (G n 0%nat (zeros_like p)); auto. intros b i k B. lia.
Qed.

Lemma costate_loop_chosen q p A z q' p' : chosen g N N' q q' -> chosen g N N' p p' ->
  costate_loop dnl N q p A = Ok z -> exists z', costate_loop dnl N' q' p' A = Ok z' /\ chosen g N N' z z'.
Proof.
  intros (Q0 & Q0' & Q1 & Q2 & Q) (P0 & P0' & P1 & P2 & P) H.
  destruct (Nat.eq_dec N 0) as [Z|Z].
  - pose proof (range_zero Z) as Z'. rewrite Z in H. rewrite Z'. unfold costate_loop in *. cbn [seq foldM] in *.
    injection H as <-. eexists. split; [reflexivity|]. repeat split; cbn; auto; try congruence.
  - assert (first : exists r acc, one (n1 q) (n2 q) (n1 p) (n2 p) A (v3 q 0%nat) (v3 p 0%nat) = Ok r
              /\ set_row (zeros_like p) 0 r = Ok acc).
    { unfold costate_loop in H. destruct N as [|m]; [congruence|]. cbn [seq foldM] in H.
      apply bind_ok in H as (acc & H & _). unfold row in H. rewrite Q0, P0 in H. cbn [Nat.ltb Nat.leb bind] in H.
      apply bind_ok in H as (y & E & H). apply bind_ok in H as (r & E2 & H).
      exists r, acc. split; [|exact H]. unfold one. rewrite E. cbn [bind]. exact E2. }
    destruct first as (r & acc & O & S0).
    destruct (one_uniform (n1 q) (n2 q) (n1 p) (n2 p) A) as [(e & U)|(u & w & F & U)];
      [rewrite U in O; discriminate|]. rewrite U in O. injection O as <-.
    assert (C : (Nat.eqb u (n1 p) || Nat.eqb u 1) && (Nat.eqb w (n2 p) || Nat.eqb w 1) = true).
    { unfold set_row in S0. cbn [zeros_like n0 n1 n2 m0 m1] in S0. destruct (negb _); [discriminate|].
      destruct (_ && _); [reflexivity|discriminate]. }
    destruct (costate_loop_rows N q p A F u w Q0 P0 U C) as (y & E & Y0 & Y1 & Y2 & Y).
    rewrite E in H. injection H as <-.
    assert (C' : (Nat.eqb u (n1 p') || Nat.eqb u 1) && (Nat.eqb w (n2 p') || Nat.eqb w 1) = true) by (rewrite P1, P2; exact C).
    assert (U' : forall X Y, one (n1 q') (n2 q') (n1 p') (n2 p') A X Y = Ok (mkT2 u w (F X Y)))
      by (rewrite Q1, Q2, P1, P2; exact U).
    destruct (costate_loop_rows N' q' p' A F u w Q0' P0' U' C') as (y' & E' & Y0' & Y1' & Y2' & Y').
    exists y'. split; [exact E'|]. repeat split; auto; try congruence. intros n i k K.
    rewrite Y' by exact K. rewrite Y by (apply RG; exact K).
    assert (X1 : v3 q' n = v3 q (g n)) by (do 2 (apply functional_extensionality; intros ?); apply Q; exact K).
    assert (X2 : v3 p' n = v3 p (g n)) by (do 2 (apply functional_extensionality; intros ?); apply P; exact K).
    rewrite X1, X2, P1, P2. reflexivity.
Qed.

Lemma unused_chosen q q' l z : chosen g N N' q q' -> unused_dot_q nl q l = Ok z -> exists z', unused_dot_q nl q' l = Ok z'.
Proof.
  intros R H. unfold unused_dot_q in *. apply bind_ok in H as (y & EY & H).
  destruct (chosen_matmul32 g N N' _ _ _ _ (chosen_map g N N' nl _ _ R) EY) as (y' & EY' & RY). rewrite EY'. cbn [bind].
  destruct (lin_bias l) as [b|]; [|discriminate].
  destruct RY as (A & B & C & D & E). unfold zip3 in *. cbn [n0 n1 n2] in *. rewrite !bdim_one in *. cbn [bind] in *.
  rewrite C, D. apply bind_ok in H as (b1 & E1 & H). apply bind_ok in H as (c1 & E2 & H). rewrite E1, E2. cbn [bind]. eauto.
Qed.

Notation "s ~~> s'" := (all_chosen g N N' s s') (at level 70).

Lemma simple_costate_chosen s s' c c' p r : s ~~> s' -> c ~~> c' -> simple_costate nl dnl N s c p = Ok r ->
  exists r', simple_costate nl dnl N' s' c' p = Ok r' /\ r ~~> r'.
Proof.
  intros A B H. unfold simple_costate in *. do 3 step g N N'.
  apply bind_ok in H as (t & T & H). eapply unused_chosen in T as (t' & T); [|eassumption]. rewrite T. cbn [bind].
  apply bind_ok in H as (t2 & T2 & H). eapply costate_loop_chosen in T2 as (t2' & T2 & K2); [|eassumption..]. rewrite T2. cbn [bind].
  straight g N N'.
Qed.

Lemma debug_costate_chosen s s' c c' p r : s ~~> s' -> c ~~> c' -> debug_costate nl dnl N s c p = Ok r ->
  exists r', debug_costate nl dnl N' s' c' p = Ok r' /\ r ~~> r'.
Proof.
  intros A B H. unfold debug_costate in *. do 3 step g N N'.
  apply bind_ok in H as (t & T & H). eapply unused_chosen in T as (t' & T); [|eassumption]. rewrite T. cbn [bind].
  apply bind_ok in H as (t2 & T2 & H). eapply costate_loop_chosen in T2 as (t2' & T2 & K2); [|eassumption..]. rewrite T2. cbn [bind].
  do 5 step g N N'.
  apply bind_ok in H as (t3 & T3 & H). eapply unused_chosen in T3 as (t3' & T3); [|eassumption]. rewrite T3. cbn [bind].
  apply bind_ok in H as (t4 & T4 & H). eapply costate_loop_chosen in T4 as (t4' & T4 & K4); [|eassumption..]. rewrite T4. cbn [bind].
  straight g N N'.
Qed.
End Loops.

(** *** Weights *)
Section Weights.
Open Scope R_scope.
Variable g : nat -> nat.
Variable N N' : nat.
Variable nl : R -> R.
Variable d : nat.
Hypothesis EV : evenly g N N'.

Lemma evenly_positive : N <> 0%nat -> N' <> 0%nat.
Proof.
  destruct EV as [_ (m & M & C)]. intros Z ->. specialize (C 0%nat). cbn in C. lia.
Qed.

Definition term (q0 q1 p0 p1 : nat) (X Y : nat -> nat -> R) : result t2 :=
  zip2 Rmult (tr (mkT2 p0 p1 Y)) (map2 nl (mkT2 q0 q1 X)).

Lemma term_uniform q0 q1 p0 p1 : (exists e, forall X Y, term q0 q1 p0 p1 X Y = Raise e) \/
  exists u w F, forall X Y, term q0 q1 p0 p1 X Y = Ok (mkT2 u w (F X Y)).
Proof.
  unfold term, tr, map2. cbn [m0 m1 v2].
  destruct (zip2_uniform Rmult p1 p0 q0 q1) as [(e & H)|(u & w & F & H)].
  - left. exists e. intros X Y. apply H.
  - right. exists u, w. eexists. intros X Y. apply H.
Qed.

Lemma bdim_idem a b c : bdim a b = Ok c -> bdim c b = Ok c.
Proof.
  unfold bdim. destruct (Nat.eqb_spec a b) as [->|]; [intros H; injection H as <-; rewrite Nat.eqb_refl; reflexivity|].
  destruct (Nat.eqb_spec a 1); [intros H; injection H as <-; rewrite Nat.eqb_refl; reflexivity|].
  destruct (Nat.eqb_spec b 1) as [->|]; [|discriminate]. intros H. injection H as <-.
  destruct (Nat.eqb_spec a 1); [congruence|]. reflexivity.
Qed.

Lemma weight_loop_sum n q p F u w a b :
  n0 q = n -> n0 p = n -> n <> 0%nat -> (forall X Y, term (n1 q) (n2 q) (n1 p) (n2 p) X Y = Ok (mkT2 u w (F X Y))) ->
  bdim d w = Ok a -> bdim d u = Ok b ->
  weight_loop nl d n q p
  = Ok (mkT2 a b (fun i k => (1 / INR n * rsum n (fun m => F (v3 q m) (v3 p m) (bidx u b k) (bidx w a i)))%R)).
Proof.
  intros Q0 P0 Z U BA BB. unfold weight_loop.
  match goal with |- bind (foldM ?F _ _) _ = _ => set (st := F) end.
  set (S := fun c i k => rsum c (fun m => F (v3 q m) (v3 p m) (bidx u b k) (bidx w a i))).
  assert (ST : forall c x y V, (c < n)%nat -> bdim x w = Ok a -> bdim y u = Ok b ->
    st (mkT2 x y V) c = Ok (mkT2 a b (fun i k => V (bidx x a i) (bidx y b k) + F (v3 q c) (v3 p c) (bidx u b k) (bidx w a i)))).
  { intros c x y V K XA YB. unfold st, row. rewrite Q0, P0. destruct (Nat.ltb_spec c n); [|lia]. cbn [bind].
    specialize (U (v3 q c) (v3 p c)). unfold term in U. rewrite U. cbn [bind]. unfold zip2. cbn [m0 m1 v2 tr].
    rewrite XA, YB. cbn [bind]. reflexivity. }
  assert (G : forall m c, (c + m = n)%nat -> foldM st (seq c m) (mkT2 a b (S c)) = Ok (mkT2 a b (S n))).
  { induction m as [|m IH]; intros c K; cbn [seq foldM]; [do 2 f_equal; f_equal; lia|].
    rewrite ST; [|lia|apply (bdim_idem d); exact BA|apply (bdim_idem d); exact BB]. cbn [bind].
    rewrite <- (IH (Datatypes.S c)) by lia. f_equal. f_equal. do 2 (apply functional_extensionality; intros ?).
    rewrite !bidx_same. reflexivity. }
  destruct n as [|n]; [congruence|]. cbn [seq foldM]. rewrite ST by (auto; lia). cbn [bind].
  assert (E : (fun i k => 0 + F (v3 q 0%nat) (v3 p 0%nat) (bidx u b k) (bidx w a i)) = S 1%nat).
  { do 2 (apply functional_extensionality; intros ?). reflexivity. }
  rewrite E, (G n 1%nat) by lia. cbn [bind Nat.eqb]. reflexivity.
Qed.

Lemma weight_loop_chosen q p z q' p' : chosen g N N' q q' -> chosen g N N' p p' ->
  weight_loop nl d N q p = Ok z -> weight_loop nl d N' q' p' = Ok z.
Proof.
  intros (Q0 & Q0' & Q1 & Q2 & Q) (P0 & P0' & P1 & P2 & P) H.
  destruct (Nat.eq_dec N 0) as [Z|Z].
  - exfalso. unfold weight_loop in H. rewrite Z in H. discriminate.
  - assert (first : exists r acc, term (n1 q) (n2 q) (n1 p) (n2 p) (v3 q 0%nat) (v3 p 0%nat) = Ok r
              /\ zip2 Rplus (mkT2 d d (fun _ _ => 0)) (tr r) = Ok acc).
    { unfold weight_loop in H. destruct N as [|m]; [congruence|]. cbn [seq foldM] in H.
      apply bind_ok in H as (s & H & _).
      apply bind_ok in H as (acc & H & _). unfold row in H. rewrite Q0, P0 in H. cbn [Nat.ltb Nat.leb bind] in H.
      apply bind_ok in H as (y & E & H). exists y, acc. split; [exact E|exact H]. }
    destruct first as (r & acc & O & S0).
    destruct (term_uniform (n1 q) (n2 q) (n1 p) (n2 p)) as [(e & U)|(u & w & F & U)];
      [rewrite U in O; discriminate|]. rewrite U in O. injection O as <-.
    unfold zip2 in S0. cbn [m0 m1 tr] in S0. apply bind_ok in S0 as (a & BA & S0). apply bind_ok in S0 as (b & BB & _).
    rewrite (weight_loop_sum N q p F u w a b) in H by auto. injection H as <-.
    rewrite (weight_loop_sum N' q' p' F u w a b); auto;
      [|apply evenly_positive; exact Z|rewrite Q1, Q2, P1, P2; exact U].
    f_equal. f_equal. apply functional_extensionality; intros i. apply functional_extensionality; intros k.
    set (G := fun m => F (v3 q m) (v3 p m) (bidx u b k) (bidx w a i)).
    rewrite (rsum_ext N' _ (fun m => G (g m))).
    + pose proof (mean_chosen g N N' G EV) as M. unfold Rdiv in M |- *. rewrite !Rmult_1_l. rewrite (Rmult_comm (/ _)), M. apply Rmult_comm.
    + intros m K. unfold G.
      assert (X1 : v3 q' m = v3 q (g m)) by (do 2 (apply functional_extensionality; intros ?); apply Q; exact K).
      assert (X2 : v3 p' m = v3 p (g m)) by (do 2 (apply functional_extensionality; intros ?); apply P; exact K).
      rewrite X1, X2. reflexivity.
Qed.

Lemma bias_chosen p p' : chosen g N N' p p' -> bias_of N' p' = bias_of N p.
Proof.
  intros (A & B & C & D & E). unfold bias_of, map2, sum0. cbn [m0 m1 v2]. rewrite A, B, C, D. f_equal.
  apply functional_extensionality. intros i. apply functional_extensionality. intros k.
  rewrite (rsum_ext N' _ (fun n => (fun n => v3 p n i k) (g n))) by (intros n Hn; apply E; exact Hn).
  pose proof (mean_chosen g N N' (fun n => v3 p n i k) EV) as M. cbv beta in *. unfold Rdiv in *. rewrite !Rmult_1_l, (Rmult_comm (/ _)), M.
  apply Rmult_comm.
Qed.

Variable W : option R.
Variable init : string -> (nat -> nat -> R) * (nat -> R).
Notation "s ~~> s'" := (all_chosen g N N' s s') (at level 70).

Lemma simple_parameters_chosen s s' c c' th : s ~~> s' -> c ~~> c' -> simple_parameters nl init d W N s c = Ok th ->
  simple_parameters nl init d W N' s' c' = Ok th.
Proof.
  intros A B H. unfold simple_parameters in *. do 2 step g N N'.
  apply bind_ok in H as (t & T & H). eapply weight_loop_chosen in T; [|eassumption..]. rewrite T. cbn [bind].
  erewrite bias_chosen by eassumption. exact H.
Qed.

Lemma debug_parameters_chosen s s' c c' th : s ~~> s' -> c ~~> c' -> debug_parameters nl init d W N s c = Ok th ->
  debug_parameters nl init d W N' s' c' = Ok th.
Proof.
  intros A B H. unfold debug_parameters in *. do 2 step g N N'.
  apply bind_ok in H as (t & T & H). eapply weight_loop_chosen in T; [|eassumption..]. rewrite T. cbn [bind].
  apply bind_ok in H as (o & O & H). rewrite O. cbn [bind].
  erewrite bias_chosen by eassumption.
  apply bind_ok in H as (o1 & O1 & H). rewrite O1. cbn [bind].
  do 2 step g N N'.
  apply bind_ok in H as (t2 & T2 & H). eapply weight_loop_chosen in T2; [|eassumption..]. rewrite T2. cbn [bind].
  apply bind_ok in H as (o2 & O2 & H). rewrite O2. cbn [bind].
  erewrite bias_chosen by eassumption. exact H.
Qed.
End Weights.

(** The shipped vector models are nets. *)
From Coq Require Import List String Reals Arith Lia Lra Bool.
From Verif Require Import Base Tensor RealSum VecNet VecModel VecSpec VecProofs VecProofs2.
Import ListNotations.
Open Scope string_scope.
Open Scope R_scope.

(** ** Operations on tensors of matching sizes *)
Lemma bdim_1 a : bdim a 1 = Ok a.
Proof. unfold bdim. destruct (Nat.eqb_spec a 1); [subst; reflexivity|reflexivity]. Qed.

Lemma bidx_1 o i : (i < o)%nat -> bidx 1 o i = O.
Proof. intros H. unfold bidx. destruct (Nat.eqb_spec 1 o); [lia|reflexivity]. Qed.

Lemma bidx_refl o i : bidx o o i = i.
Proof. unfold bidx. rewrite Nat.eqb_refl. reflexivity. Qed.

(** [y] is a tensor of the given sizes with the given entries. *)
Definition is3 (a b c : nat) (f : nat -> nat -> nat -> R) (y : t3) : Prop :=
  of_shape a b c y /\ forall n i k, (n < a)%nat -> (i < b)%nat -> (k < c)%nat -> v3 y n i k = f n i k.

Definition bias_fits (m : lin) (bias : bool) (out : nat) : Prop :=
  if bias then exists b, lin_bias m = Some b /\ m0 b = 1%nat /\ m1 b = out else lin_bias m = None.

Definition bias_value (m : lin) (k : nat) : R := match lin_bias m with Some b => v2 b 0 k | None => 0 end.

Lemma forward_is m x a b inn out bias f :
  m0 (lin_weight m) = out -> m1 (lin_weight m) = inn -> bias_fits m bias out -> is3 a b inn f x ->
  exists y, forward m x = Ok y /\
    is3 a b out (fun n i k => rsum inn (fun j => f n i j * v2 (lin_weight m) k j) + bias_value m k) y.
Proof.
  intros H0 H1 Hb [[E0 [E1 E2]] Hx]. unfold forward, f_linear, matmul32. cbn [m0 tr]. rewrite E2, H1, Nat.eqb_refl. cbn [bind].
  assert (Hv : forall n i k, (n < a)%nat -> (i < b)%nat ->
     rsum inn (fun j => v3 x n i j * v2 (tr (lin_weight m)) j k) = rsum inn (fun j => f n i j * v2 (lin_weight m) k j)).
  { intros n i k Hn Hi. apply rsum_ext; intros j Hj. rewrite Hx by auto. reflexivity. }
  unfold bias_fits, bias_value in *. destruct bias.
  - destruct Hb as [bb [Eb [B0 B1]]]. rewrite Eb. unfold zip3. cbn [n0 n1 n2 m1 tr].
    rewrite B0, B1, H0, !bdim_1. cbn [bind]. unfold bdim at 1. rewrite Nat.eqb_refl. cbn [bind n0 n1 n2].
    rewrite !Nat.eqb_refl. cbn [andb]. eexists. split; [reflexivity|]. split; [repeat split; cbn; auto|].
    cbn [v3 n0 n1 n2]. intros n i k Hn Hi Hk. rewrite !bidx_refl. f_equal; [apply Hv; auto|].
    rewrite bidx_1; [reflexivity|congruence].
  - rewrite Hb. eexists. split; [reflexivity|]. split; [repeat split; cbn; auto|].
    cbn [v3]. intros n i k Hn Hi Hk. rewrite Hv by auto. ring.
Qed.

Lemma zip3_is op x y a b c f g : is3 a b c f x -> is3 a b c g y ->
  exists z, zip3 op x y = Ok z /\ is3 a b c (fun n i k => op (f n i k) (g n i k)) z.
Proof.
  intros [Sx Hx] [Sy Hy]. eexists. rewrite (zip3_same op x y a b c Sx Sy). split; [reflexivity|].
  split; [repeat split|]. cbn. intros. rewrite Hx, Hy; auto.
Qed.

Lemma map3_is op x a b c f : is3 a b c f x -> is3 a b c (fun n i k => op (f n i k)) (map3 op x).
Proof. intros [[A [B C]] H]. split; [repeat split; auto|]. cbn. intros. rewrite H; auto. Qed.

Lemma matmul32_is x w a b c d f : m0 w = c -> m1 w = d -> is3 a b c f x ->
  exists y, matmul32 x w = Ok y /\ is3 a b d (fun n i k => rsum c (fun j => f n i j * v2 w j k)) y.
Proof.
  intros W0 W1 [[A [B C]] H]. unfold matmul32. rewrite C, W0, Nat.eqb_refl. eexists. split; [reflexivity|].
  split; [repeat split; auto|]. cbn. intros. apply rsum_ext; intros. rewrite H; auto.
Qed.

Lemma matmul33_is x y a b c d f g : is3 a b c f x -> is3 a c d g y ->
  exists z, matmul33 x y = Ok z /\ is3 a b d (fun n i k => rsum c (fun j => f n i j * g n j k)) z.
Proof.
  intros [[A [B C]] H] [[A' [B' C']] H']. unfold matmul33, bdim. rewrite A, A', C, B', !Nat.eqb_refl. cbn [bind].
  eexists. split; [reflexivity|]. split; [repeat split; auto|]. cbn. intros. apply rsum_ext; intros.
  rewrite !bidx_refl, H, H'; auto.
Qed.

Lemma transpose12_is x a b c f : is3 a b c f x -> is3 a c b (fun n i k => f n k i) (transpose12 x).
Proof. intros [[A [B C]] H]. split; [repeat split; auto|]. cbn. intros. apply H; auto. Qed.

Definition is2 (a b : nat) (f : nat -> nat -> R) (y : t2) : Prop :=
  m0 y = a /\ m1 y = b /\ forall i k, (i < a)%nat -> (k < b)%nat -> v2 y i k = f i k.

Lemma mean0_is x a b c f : is3 a b c f x -> is2 b c (fun i k => rsum a (fun n => f n i k) / INR a) (mean0 x).
Proof.
  intros [[A [B C]] H]. repeat split; auto. cbn. intros. rewrite A. f_equal. apply rsum_ext; intros. apply H; auto.
Qed.

Lemma tr_is x a b f : is2 a b f x -> is2 b a (fun i k => f k i) (tr x).
Proof. intros [A [B H]]. repeat split; auto. cbn. intros. apply H; auto. Qed.

Lemma own3 x a b c : of_shape a b c x -> is3 a b c (v3 x) x.
Proof. intros H. split; auto. Qed.

Lemma divided t w i k : effective w <> 0 -> effective w * v2 (divide_by_if_not_none t w) i k = v2 t i k.
Proof. intros H. destruct w; cbn in *; [field; auto|ring]. Qed.

Lemma divided_sizes t w : m0 (divide_by_if_not_none t w) = m0 t /\ m1 (divide_by_if_not_none t w) = m1 t.
Proof. destruct w; auto. Qed.

(** ** Dictionaries of known names *)
Lemma states1 a da pre N D s : has_states [(a, da)] pre N D s ->
  exists x, s = [(pre ++ a, x)] /\ of_shape N D da x.
Proof.
  intros H. inversion H as [|? [q x] ? s' [Hq Hx] H']; subst. inversion H'; subst. cbn [fst snd] in *. subst. eauto.
Qed.
Lemma states2 a da b db pre N D s : has_states [(a, da); (b, db)] pre N D s ->
  exists x y, s = [(pre ++ a, x); (pre ++ b, y)] /\ of_shape N D da x /\ of_shape N D db y.
Proof.
  intros H. inversion H as [|? [q x] ? s' [Hq Hx] H']; subst. destruct (states1 _ _ _ _ _ _ H') as [y [-> Hy]].
  cbn [fst snd] in *. subst. eauto 6.
Qed.
Lemma states3 a da b db c dc pre N D s : has_states [(a, da); (b, db); (c, dc)] pre N D s ->
  exists x y z, s = [(pre ++ a, x); (pre ++ b, y); (pre ++ c, z)]
    /\ of_shape N D da x /\ of_shape N D db y /\ of_shape N D dc z.
Proof.
  intros H. inversion H as [|? [q x] ? s' [Hq Hx] H']; subst. destruct (states2 _ _ _ _ _ _ _ _ H') as [y [z [-> [Hy Hz]]]].
  cbn [fst snd] in *. subst. eauto 10.
Qed.

Lemma conses {A B} (P : A -> B -> Prop) a la lb : Forall2 P (a :: la) lb ->
  exists b lb', lb = b :: lb' /\ P a b /\ Forall2 P la lb'.
Proof. intros H. inversion H; subst. eauto. Qed.

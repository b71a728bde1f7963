(** Proofs for C157. *)
From Coq Require Import List String Arith ZArith QArith Qcanon Lia Sorting.Sorted.
From Verif Require Import Base IntegratorModel GridProofs FixedGridModel FixedGridSpec FixedGridProofs FixedGridProofs4 ReturnSpec.
Import ListNotations.
Open Scope string_scope.
Open Scope list_scope.
Open Scope nat_scope.

Lemma whole_steps_last {X} (adv : Qc -> Qc -> X -> X) h k : forall t x,
  whole_steps adv h t (S k) x = adv (t + times k h)%Qc h (whole_steps adv h t k x).
Proof.
  induction k as [|k IH]; intros t x.
  - cbn [whole_steps]. rewrite times_0. f_equal. ring.
  - change (whole_steps adv h t (S (S k)) x) with (whole_steps adv h (t + h)%Qc (S k) (adv t h x)).
    rewrite IH. cbn [whole_steps]. f_equal. rewrite times_S. ring.
Qed.

(** If every step is undone by the step back, so is every number of steps. *)
Lemma undone {X} (adv : Qc -> Qc -> X -> X) h : (forall t x, adv (t + h)%Qc (- h)%Qc (adv t h x) = x) ->
  forall j k t x, j <= k ->
  whole_steps adv (- h)%Qc (t + times k h)%Qc j (whole_steps adv h t k x) = whole_steps adv h t (k - j) x.
Proof.
  intros U. induction j as [|j IH]; intros k t x L.
  - rewrite Nat.sub_0_r. reflexivity.
  - destruct k as [|k]; [lia|]. rewrite (whole_steps_last adv h k t x). cbn [whole_steps].
    replace (t + times (S k) h)%Qc with (t + times k h + h)%Qc by (rewrite times_S; ring).
    rewrite U. replace (t + times k h + h + - h)%Qc with (t + times k h)%Qc by ring.
    rewrite IH by lia. reflexivity.
Qed.

Ltac qeq := apply Qc_is_canon; unfold Qcdiv; cbn [Qcplus Qcmult Qcopp Qcinv Q2Qc this];
  rewrite ?Qred_correct; field.

Section Space.
Context {X : Type}.
Variable add : X -> X -> X.
Variable mul : Qc -> X -> X.
Hypothesis SL : space_laws add mul.

Lemma cancelled u v h : add (add u (mul h v)) (mul (- h)%Qc v) = u.
Proof.
  destruct SL as [_ [As [_ [Ms Mz]]]]. rewrite As, <- Ms. replace (h + - h)%Qc with 0%Qc by ring. apply Mz.
Qed.

Lemma step_undone f name step : same_everywhere name f -> method add mul f name = Some step ->
  forall t h x, add (add x (step t h x)) (step (t + h)%Qc (- h)%Qc (add x (step t h x))) = x.
Proof.
  intros [S1 S2] E t h x. unfold method in E.
  destruct (String.eqb name "euler") eqn:N1; [|destruct (String.eqb name "midpoint") eqn:N2;
    [|destruct (String.eqb name "rk4") eqn:N3; [|discriminate]]]; injection E as <-.
  - apply String.eqb_eq in N1. specialize (S2 N1). unfold euler_step.
    rewrite (S2 (t + h)%Qc t), (S1 t (add x _) x). apply cancelled.
  - unfold midpoint_step. 
    replace (t + h + - h / Q2Qc 2)%Qc with (t + h / Q2Qc 2)%Qc by (qeq).
    rewrite (S1 _ (add (add x _) _) (add x (mul (h / Q2Qc 2)%Qc (f t x)))). apply cancelled.
  - unfold rk4_step. cbv zeta.
    set (third := (1 / Q2Qc 3)%Qc).
    replace (t + h + - h * third)%Qc with (t + h * (Q2Qc 2 * third))%Qc by (unfold third; qeq).
    replace (t + h + - h * (Q2Qc 2 * third))%Qc with (t + h * third)%Qc by (unfold third; qeq).
    replace (t + h + - h)%Qc with t by ring.
    assert (G : forall s y, f s y = f s x) by (intros; apply S1).
    repeat rewrite (G _ (add _ _)).
    replace (- h / Q2Qc 8)%Qc with (- (h / Q2Qc 8))%Qc by (unfold Qcdiv; ring).
    set (k1 := f t x). set (k2 := f (t + h * third)%Qc x). set (k3 := f (t + h * (Q2Qc 2 * third))%Qc x).
    set (k4 := f (t + h)%Qc x).
    replace (add (add (add k4 (mul (Q2Qc 3) k3)) (mul (Q2Qc 3) k2)) k1)
      with (add (add (add k1 (mul (Q2Qc 3) k2)) (mul (Q2Qc 3) k3)) k4).
    { apply cancelled. }
    destruct SL as [_ [As [Co _]]]. set (u := mul _ k2). set (v := mul _ k3).
    rewrite (Co (add (add k4 v) u) k1), (Co (add k4 v) u), (Co k4 v), !As. reflexivity.
Qed.
End Space.

Lemma on_grid_le h t0 k m : (0 < h)%Qc -> (t0 + times k h < t0 + times m h)%Qc -> k <= m.
Proof.
  intros H L. apply (times_le_inv _ _ h H). apply Qclt_le_weak.
  replace (times k h) with (t0 + times k h + - t0)%Qc by ring.
  replace (times m h) with (t0 + times m h + - t0)%Qc by ring.
  unfold Qclt in *. cbn [Qcplus this Q2Qc] in *. rewrite !Qred_correct in *.
  apply Qplus_lt_l. exact L.
Qed.

Lemma sorted_app_last (l : list Qc) a : StronglySorted Qclt (l ++ [a]) ->
  StronglySorted Qclt l /\ Forall (fun b => (b < a)%Qc) l.
Proof.
  induction l as [|b l IH]; intro S; [split; constructor|].
  inversion S as [|? ? S' F]; subst. destruct (IH S') as [S1 F1].
  apply Forall_app in F. destruct F as [F2 F3]. split; [constructor; assumption|].
  constructor; [exact (Forall_inv F3)|exact F1].
Qed.

Lemma sorted_snoc_gt (l : list Qc) a : StronglySorted (fun a b => (b < a)%Qc) l -> Forall (fun b => (a < b)%Qc) l ->
  StronglySorted (fun a b => (b < a)%Qc) (l ++ [a]).
Proof.
  induction 1 as [|b l S IH F]; intro G; [repeat constructor|].
  cbn [app]. constructor; [apply IH; exact (Forall_inv_tail G)|].
  apply Forall_app. split; [exact F|]. constructor; [exact (Forall_inv G)|constructor].
Qed.

Lemma sorted_rev (l : list Qc) : StronglySorted Qclt l -> StronglySorted (fun a b => (b < a)%Qc) (rev l).
Proof.
  induction 1 as [|a l S IH F]; [constructor|]. cbn [rev].
  apply sorted_snoc_gt; [exact IH|]. apply Forall_rev. exact F.
Qed.

Lemma nth_error_same {B} : forall (l m : list B), List.length l = List.length m ->
  (forall j, j < List.length l -> nth_error l j = nth_error m j) -> l = m.
Proof.
  induction l as [|a l IH]; intros [|b m] L H; try discriminate L; [reflexivity|].
  f_equal.
  - specialize (H 0 ltac:(cbn; lia)). cbn in H. congruence.
  - apply IH; [cbn in L; lia|]. intros j J. apply (H (S j)). cbn. lia.
Qed.

Lemma nth_error_rev {B} (l : list B) j : j < List.length l -> nth_error (rev l) j = nth_error l (List.length l - S j).
Proof.
  intro J. destruct l as [|d l']; [cbn in J; lia|]. set (l := d :: l') in *.
  rewrite (nth_error_nth' _ d) by (rewrite rev_length; exact J).
  rewrite (nth_error_nth' _ d) by lia. f_equal. apply rev_nth. exact J.
Qed.

Section Return.
Context {X : Type}.
Variable add : X -> X -> X.
Variable mul : Qc -> X -> X.

Lemma forth_and_back : space_laws add mul ->
  forall f other odesolver hp i step h x t0 t1 ts,
  same_everywhere (i_name i) f ->
  method add mul f (i_name i) = Some step -> step_option (heap_get hp (i_options i)) h -> (0 < h)%Qc ->
  i_library i = "odeint" -> i_nr_of_checkpoints i = None -> i_checkpointing_time_interval i = None ->
  StronglySorted Qclt (t0 :: t1 :: ts) -> Forall (on_grid h t0) (t1 :: ts) ->
  exists values v, integrate (fixed_odeint add mul f other) odesolver hp i x (t0 :: t1 :: ts)
    = (hp, Ok (Some (values ++ [v]))) /\
    integrate (fixed_odeint add mul f other) odesolver hp i v (rev (t0 :: t1 :: ts))
    = (hp, Ok (Some (rev (values ++ [v])))).
Proof.
  intros SL f other odesolver hp i step h x t0 t1 ts SE M O H L C1 C2 S G.
  destruct (forward add mul f other odesolver hp i step h x t0 t1 ts M O H L C1 C2 S) as [V [E [LV W]]].
  set (adv := fun t dt y => add y (step t dt y)) in *.
  assert (U : forall t z, adv (t + h)%Qc (- h)%Qc (adv t h z) = z).
  { intros t z. exact (step_undone add mul SL f _ _ SE M t h z). }
  assert (GT : Forall (on_grid h t0) (t0 :: t1 :: ts)).
  { constructor; [exists 0; rewrite times_0; ring|exact G]. }
  set (T := t0 :: t1 :: ts) in *.
  assert (LT : List.length V = List.length T) by (rewrite LV; reflexivity).
  assert (NT : T <> []) by discriminate.
  destruct (exists_last NT) as [F [tl ET]].
  assert (NV : V <> []) by (intro Z; rewrite Z in LT; discriminate LT).
  destruct (exists_last NV) as [V0 [v EV]].
  assert (LF : List.length V0 = List.length F).
  { rewrite EV, ET, !app_length in LT. cbn in LT. lia. }
  assert (GL : on_grid h t0 tl).
  { rewrite ET in GT. apply Forall_app in GT. exact (Forall_inv (proj2 GT)). }
  destruct GL as [kl EL].
  assert (Ev : v = whole_steps adv h t0 kl x).
  { specialize (W (List.length F) kl).
    rewrite EV, ET in W. rewrite <- LF in W at 2.
    rewrite !nth_error_app2, !Nat.sub_diag in W by lia. cbn [nth_error] in W.
    rewrite EL in W. specialize (W eq_refl). congruence. }
  exists V0, v. split; [rewrite <- EV; exact E|].
  pose proof (sorted_rev T S) as SR.
  assert (ER : rev T = tl :: rev F) by (rewrite ET, rev_app_distr; reflexivity).
  rewrite ER in SR |- *.
  destruct (backward add mul (proj1 SL) f other odesolver hp i step h v tl (rev F) M O H L C1 C2 SR) as [B [EB [LB WB]]].
  fold adv in WB. rewrite EB. f_equal. f_equal. f_equal. rewrite <- EV.
  assert (LBV : List.length B = List.length V).
  { rewrite LB, rev_length, EV, app_length, LF. cbn. lia. }
  apply nth_error_same; [rewrite rev_length; exact LBV|].
  intros j J. rewrite LBV in J. rewrite nth_error_rev by exact J.
  assert (J2 : List.length V - Datatypes.S j < List.length T) by lia.
  destruct (nth_error T (List.length V - Datatypes.S j)) as [s|] eqn:Es;
    [|apply nth_error_None in Es; lia].
  assert (Gs : on_grid h t0 s).
  { rewrite Forall_forall in GT. apply GT. eapply nth_error_In. exact Es. }
  destruct Gs as [ks Eks].
  assert (Le : ks <= kl).
  { rewrite ET in S. destruct (sorted_app_last _ _ S) as [_ FL].
    assert (I : In s (F ++ [tl])) by (rewrite <- ET; eapply nth_error_In; exact Es).
    apply in_app_or in I. destruct I as [I|[I|[]]].
    - rewrite Forall_forall in FL. specialize (FL s I). cbv beta in FL. rewrite Eks, EL in FL.
      exact (on_grid_le h t0 ks kl H FL).
    - apply (times_le_inv _ _ h H). subst s. rewrite EL in I.
      replace (times kl h) with (t0 + times kl h + - t0)%Qc by ring. rewrite I.
      replace (t0 + times ks h + - t0)%Qc with (times ks h) by ring. apply Qcle_refl. }
  rewrite (W _ ks) by (rewrite Es, Eks; reflexivity).
  rewrite (WB j (kl - ks)).
  - rewrite Ev, EL. rewrite undone by (exact U || lia). f_equal. f_equal. lia.
  - rewrite <- ER, nth_error_rev by lia. rewrite <- LT, Es, Eks, EL. f_equal.
    replace kl with ((kl - ks) + ks) at 1 by lia. rewrite times_add. ring.
Qed.
End Return.

(** Euler's method for linear velocities. *)
Lemma linear_steps a h k : forall t x,
  whole_steps (fun t dt y => y + euler_step Qcmult (fun _ y => a * y) t dt y)%Qc h t k x = (x * (1 + h * a) ^ k)%Qc.
Proof.
  induction k as [|k IH]; intros t x; cbn [whole_steps Qcpower].
  - ring.
  - rewrite IH. unfold euler_step. ring.
Qed.

Lemma power_mult a b k : (a ^ k * b ^ k = (a * b) ^ k)%Qc.
Proof. induction k as [|k IH]; cbn [Qcpower]; [ring|]. rewrite <- IH. ring. Qed.

Lemma two_values {B} (l : list B) a b : List.length l = 2 -> nth_error l 0 = Some a -> nth_error l 1 = Some b -> l = [a; b].
Proof. destruct l as [|? [|? [|]]]; cbn; intros L E1 E2; try discriminate L. congruence. Qed.

Lemma linear_forth_and_back a other odesolver hp i h x t0 k :
  i_name i = "euler" -> step_option (heap_get hp (i_options i)) h -> (0 < h)%Qc ->
  i_library i = "odeint" -> i_nr_of_checkpoints i = None -> i_checkpointing_time_interval i = None ->
  let solver := fixed_odeint Qcplus Qcmult (fun _ y => a * y)%Qc other in
  let t1 := (t0 + times (S k) h)%Qc in
  exists v, integrate solver odesolver hp i x [t0; t1] = (hp, Ok (Some [x; v])) /\
    integrate solver odesolver hp i v [t1; t0] = (hp, Ok (Some [v; x * (1 - (a * h) * (a * h)) ^ S k]))%Qc.
Proof.
  intros N O H L C1 C2 solver t1.
  assert (M : method Qcplus Qcmult (fun _ y => a * y)%Qc (i_name i) = Some (euler_step Qcmult (fun _ y => a * y)%Qc))
    by (rewrite N; reflexivity).
  assert (LT : (t0 < t1)%Qc).
  { replace t0 with (t0 + times 0 h)%Qc by (rewrite times_0; ring). unfold t1.
    pose proof (times_lt 0 (S k) h H ltac:(lia)) as TL. unfold Qclt in *. rewrite !this_plus.
    apply Qplus_lt_r. exact TL. }
  assert (LL : linear_laws Qcplus Qcmult) by (split; intros; ring).
  destruct (forward Qcplus Qcmult _ other odesolver hp i _ h x t0 t1 [] M O H L C1 C2) as [V [E [LV W]]].
  { repeat constructor; assumption. }
  pose proof (W 0 0) as W0. pose proof (W 1 (S k) eq_refl) as W1.
  cbn [nth_error] in W0. rewrite times_0 in W0. specialize (W0 ltac:(f_equal; ring)).
  rewrite linear_steps in W1. cbn [whole_steps] in W0.
  rewrite (two_values _ _ _ LV W0 W1) in E.
  eexists. split; [exact E|].
  set (v := (x * (1 + h * a) ^ S k)%Qc) in *.
  destruct (backward Qcplus Qcmult LL _ other odesolver hp i _ h v t1 [t0] M O H L C1 C2) as [B [EB [LB WB]]].
  { repeat constructor; assumption. }
  pose proof (WB 0 0) as B0. pose proof (WB 1 (S k)) as B1. cbn [nth_error] in B0, B1.
  rewrite times_0 in B0. specialize (B0 ltac:(f_equal; ring)). specialize (B1 ltac:(f_equal; unfold t1; ring)).
  rewrite linear_steps in B1. cbn [whole_steps] in B0.
  unfold solver. rewrite EB. rewrite (two_values _ _ _ LB B0 B1). f_equal. f_equal. f_equal. f_equal. f_equal.
  unfold v. rewrite <- Qcmult_assoc, power_mult. f_equal. f_equal. ring.
Qed.

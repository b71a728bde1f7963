(** Proofs: without an activation predictions are affine in the data. *)
From Coq Require Import List String Bool Reals Arith Lia Lra QArith Qcanon Qreals FunctionalExtensionality.
From Verif Require Import Base BaseFacts RealSum IntegratorModel FixedGridModel VecModel ParticlesModel ParticlesProofs2 AffineSpec.
Import ListNotations.
Open Scope string_scope.
Open Scope list_scope.
Open Scope R_scope.

Lemma t3_ext a b c f g : (forall n i k, f n i k = g n i k) -> mkT3 a b c f = mkT3 a b c g.
Proof. intros H. f_equal. apply functional_extensionality; intros n. apply functional_extensionality; intros i. apply functional_extensionality; intros k. apply H. Qed.

Section Mixtures.
Variable a : R.

Lemma item_mix k s r x y : alikes s r -> sd_item k s = Ok x -> sd_item k r = Ok y -> alike x y /\ sd_item k (mixes a s r) = Ok (mix a x y).
Proof.
  intros A. unfold sd_item. revert x y. induction A as [|[k1 x1] [k2 x2] s r [E B] A IH]; intros x y; [discriminate|].
  cbn [fst snd] in *. subst k2. cbn [sd_get mixes combine map fst snd]. destruct (String.eqb k k1).
  - intros X Y. injection X as <-. injection Y as <-. split; [exact B|reflexivity].
  - exact (IH x y).
Qed.

Definition linear2 (f : R -> R -> R) : Prop := forall x y u v, f (a * x + (1 - a) * y) (a * u + (1 - a) * v) = a * f x u + (1 - a) * f y v.
Lemma plus_linear : linear2 Rplus. Proof. intros x y u v. ring. Qed.
Lemma minus_linear : linear2 Rminus. Proof. intros x y u v. ring. Qed.

Lemma zip_mix f x y u v r r' : linear2 f -> alike x y -> alike u v -> zip3 f x u = Ok r -> zip3 f y v = Ok r' ->
  alike r r' /\ zip3 f (mix a x y) (mix a u v) = Ok (mix a r r').
Proof.
  intros L (A0 & A1 & A2) (B0 & B1 & B2). unfold zip3. cbn [n0 n1 n2 mix v3]. rewrite <- A0, <- A1, <- A2, <- B0, <- B1, <- B2.
  destruct (bdim (n0 x) (n0 u)) as [d0|]; [|discriminate]. destruct (bdim (n1 x) (n1 u)) as [d1|]; [|discriminate].
  destruct (bdim (n2 x) (n2 u)) as [d2|]; [|discriminate]. cbn [bind]. intros X Y. injection X as <-. injection Y as <-.
  split; [repeat split|]. f_equal. apply t3_ext. intros. apply L.
Qed.

Lemma scale_mix f x y : (forall u v, f (a * u + (1 - a) * v) = a * f u + (1 - a) * f v) -> map3 f (mix a x y) = mix a (map3 f x) (map3 f y).
Proof. intros L. unfold map3, mix. cbn. apply t3_ext. intros. apply L. Qed.
Lemma times_mix b x y : map3 (Rmult b) (mix a x y) = mix a (map3 (Rmult b) x) (map3 (Rmult b) y).
Proof. apply scale_mix. intros. ring. Qed.
Lemma alike_map f x y : alike x y -> alike (map3 f x) (map3 f y).
Proof. exact (fun A => A). Qed.

Lemma matmul_mix x y w r r' : alike x y -> matmul32 x w = Ok r -> matmul32 y w = Ok r' ->
  alike r r' /\ matmul32 (mix a x y) w = Ok (mix a r r').
Proof.
  intros (A0 & A1 & A2). unfold matmul32. cbn [n0 n1 n2 mix v3]. rewrite <- A0, <- A1, <- A2. destruct (Nat.eqb _ _); [|discriminate].
  intros X Y. injection X as <-. injection Y as <-. split; [repeat split|]. f_equal. apply t3_ext. intros. cbn [v3].
  rewrite <- !rsum_scal, <- rsum_plus. apply rsum_ext. intros. ring.
Qed.

Lemma forward_mix l x y r r' : alike x y -> forward l x = Ok r -> forward l y = Ok r' ->
  alike r r' /\ forward l (mix a x y) = Ok (mix a r r').
Proof.
  intros A. unfold forward, f_linear. intros H H'. apply bind_ok in H as (m & M & H). apply bind_ok in H' as (m' & M' & H').
  destruct (matmul_mix _ _ _ _ _ A M M') as (B & ->). cbn [bind]. destruct (lin_bias l) as [b|].
  - apply bind_ok in H as (z & Z & H). apply bind_ok in H' as (z' & Z' & H').
    set (B3 := mkT3 1 (m0 b) (m1 b) (fun _ => v2 b)) in *.
    assert (EB : B3 = mix a B3 B3). { unfold mix, B3. cbn. apply t3_ext. intros. ring. }
    destruct (zip_mix Rplus m m' B3 B3 z z' plus_linear B (conj eq_refl (conj eq_refl eq_refl)) Z Z') as (C & ZZ). rewrite <- EB in ZZ. rewrite ZZ. cbn [bind].
    cbn [n0 n1 n2 mix]. destruct (_ && _); [|discriminate]. destruct (_ && _) in H'; [|discriminate]. injection H as <-. injection H' as <-.
    split; [exact C|reflexivity].
  - injection H as <-. injection H' as <-. split; [exact B|reflexivity].
Qed.

Definition same (x : R) : R := x.
Lemma map_same x : map3 same x = x.
Proof. destruct x. reflexivity. Qed.

(** The right-hand side of a model keeps mixtures. *)
Definition affine_rhs (rhs : states -> pars -> result states) : Prop := forall th s r u v, alikes s r -> rhs s th = Ok u -> rhs r th = Ok v ->
  alikes u v /\ rhs (mixes a s r) th = Ok (mixes a u v).

Ltac data H H' lem := let x := fresh "x" in let y := fresh "y" in let X := fresh "X" in let Y := fresh "Y" in let A := fresh "A" in let E := fresh "E" in
  apply bind_ok in H as (x & X & H); apply bind_ok in H' as (y & Y & H');
  edestruct lem as (A & E); [..|exact X|exact Y|rewrite E; clear E; cbn [bind]].
Ltac steps th H H' := rewrite ?map_same in *;
  repeat (match type of H with
  | bind (sd_item ?k th) _ = _ => destruct (sd_item k th); cbn [bind] in *; [|discriminate H]
  | bind (sd_item _ _) _ = _ => data H H' item_mix; [eassumption|]
  | bind (forward _ _) _ = _ => data H H' forward_mix; [eassumption|]
  | bind (zip3 Rplus _ _) _ = _ => data H H' (zip_mix Rplus); [exact plus_linear|eassumption|eassumption|]
  | bind (zip3 Rminus _ (map3 (Rmult _) _)) _ = _ => rewrite ?times_mix; data H H' (zip_mix Rminus); [exact minus_linear|eassumption|apply alike_map; eassumption|]
  end; rewrite ?map_same in *).
Ltac affine := intros th s r u v AL H H'; steps th H H'; injection H as <-; injection H' as <-;
  (split; [repeat (constructor; [split; [reflexivity|eassumption]|]); constructor|reflexivity]).

Lemma updown_affine : affine_rhs (updown_rhs same).
Proof. unfold updown_rhs. affine. Qed.
Lemma universal_affine : affine_rhs (universal_rhs same).
Proof. unfold universal_rhs. affine. Qed.
Lemma general_affine : affine_rhs (general_rhs same).
Proof. unfold general_rhs. affine. Qed.
Lemma debug_affine : affine_rhs (debug_rhs same).
Proof. unfold debug_rhs. affine. Qed.
Lemma simple_affine : affine_rhs (simple_rhs same).
Proof. unfold simple_rhs. affine. Qed.
Lemma dampened_q2_affine : affine_rhs (dampened_q2_rhs same).
Proof. unfold dampened_q2_rhs. affine. Qed.
Lemma symmetrized_affine : affine_rhs (symmetrized_rhs same).
Proof. unfold symmetrized_rhs. affine. Qed.
Lemma periodic_affine : affine_rhs (periodic_rhs same).
Proof. unfold periodic_rhs. affine. Qed.

Lemma all_affine dnl init d e W ow N m : In m (vector_equations same dnl init d e W ow N) -> affine_rhs (eq_rhs m).
Proof.
  intros I. cbn [vector_equations] in I. repeat (destruct I as [I|I]; [rewrite <- I; cbn [eq_rhs]|]); [..|contradiction].
  - exact updown_affine.
  - exact universal_affine.
  - exact general_affine.
  - exact debug_affine.
  - exact simple_affine.
  - exact dampened_q2_affine.
  - exact symmetrized_affine.
  - exact periodic_affine.
Qed.

(** ** Whole runs *)
Definition mixed (y y' w : system) : Prop :=
  let '(s, c, z) := y in let '(s', c', z') := y' in s' = s /\ c' = c /\ alikes z z' /\ w = (s, c, mixes a z z').
Definition pairs (P : result system * result system) (w : result system) : Prop :=
  forall y y', fst P = Ok y -> snd P = Ok y' -> exists w', w = Ok w' /\ mixed y y' w'.

Lemma plus_mixes z : forall z' d d' t t', alikes z z' -> alikes d d' -> plus_states z d = Ok t -> plus_states z' d' = Ok t' ->
  alikes t t' /\ plus_states (mixes a z z') (mixes a d d') = Ok (mixes a t t').
Proof.
  induction z as [|[k x] z IH]; intros z' d d' t t' A B.
  - inversion A; subst. inversion B; subst; [|discriminate]. intros X Y. injection X as <-. injection Y as <-. split; [constructor|reflexivity].
  - destruct z' as [|[k' x'] z']; [inversion A|]. destruct d as [|[j u] d]; [discriminate|]. destruct d' as [|[j' u'] d']; [inversion B|].
    assert (A1 : k = k' /\ alike x x') by (inversion A; assumption). assert (A2 : alikes z z') by (inversion A; assumption).
    assert (B1 : j = j' /\ alike u u') by (inversion B; assumption). assert (B2 : alikes d d') by (inversion B; assumption). clear A B.
    destruct A1 as (<- & C0 & C1 & C2). destruct B1 as (<- & D0 & D1 & D2). cbn [plus_states mixes combine map fst snd].
    unfold plus3. cbn [n0 n1 n2 mix]. rewrite <- C0, <- C1, <- C2, <- D0, <- D1, <- D2.
    destruct (_ && _); [|discriminate]. cbn [bind]. intros X Y. apply bind_ok in X as (t1 & T1 & X). apply bind_ok in Y as (t2 & T2 & Y).
    injection X as <-. injection Y as <-. destruct (IH _ _ _ _ _ A2 B2 T1 T2) as (E1 & E2). fold (mixes a z z'). fold (mixes a d d'). rewrite E2. cbn [bind].
    split; [constructor; [repeat split|exact E1]|]. cbn [mixes combine map fst snd]. unfold mix. cbn [n0 n1 n2 v3]. do 3 f_equal. apply t3_ext. intros. ring.
Qed.
Lemma times_mixes b z z' : times_states b (mixes a z z') = mixes a (times_states b z) (times_states b z').
Proof.
  unfold times_states, mixes. revert z'. induction z as [|[k x] z IH]; intros [|[k' x'] z']; try reflexivity. cbn [combine map fst snd].
  rewrite times_mix, IH. reflexivity.
Qed.
Lemma times_alikes b z z' : alikes z z' -> alikes (times_states b z) (times_states b z').
Proof. intros A. unfold alikes, times_states. induction A as [|p q z z' [E B] A IH]; cbn; constructor; [split; assumption|exact IH]. Qed.

Definition plus_pair (P Q : result system * result system) := (plus_system (fst P) (fst Q), plus_system (snd P) (snd Q)).
Definition times_pair b (P : result system * result system) := (times_system b (fst P), times_system b (snd P)).
Definition field_pair m (t : Qc) (P : result system * result system) := (system_field m t (fst P), system_field m t (snd P)).

Lemma plus_system_ok (p q : result system) r : plus_system p q = Ok r -> exists s c z ds dc dz s' c' z', p = Ok (s, c, z) /\ q = Ok (ds, dc, dz) /\
  plus_states s ds = Ok s' /\ plus_states c dc = Ok c' /\ plus_states z dz = Ok z' /\ r = (s', c', z').
Proof.
  unfold plus_system. intros H. apply bind_ok in H as ([[s c] z] & -> & H). apply bind_ok in H as ([[ds dc] dz] & -> & H).
  apply bind_ok in H as (s' & A & H). apply bind_ok in H as (c' & B & H). apply bind_ok in H as (z' & C & H). injection H as <-.
  repeat eexists; eassumption.
Qed.

Lemma run_mixed m other adj name o s c z z' t ys ys' : affine_rhs (eq_rhs m) -> alikes z z' -> In name ["euler"; "midpoint"; "rk4"] ->
  fixed_odeint plus_system times_system (system_field m) other adj name o (Ok (s, c, z)) t = Ok (map Ok ys) ->
  fixed_odeint plus_system times_system (system_field m) other adj name o (Ok (s, c, z')) t = Ok (map Ok ys') ->
  fixed_odeint plus_system times_system (system_field m) other adj name o (Ok (s, c, mixes a z z')) t
  = Ok (map Ok (map (fun p => mix_data a (fst p) (snd p)) (combine ys ys'))).
Proof.
  intros AF AL NM R R'.
  pose (no := fun (_ : bool) (_ : string) (_ : opts) (_ : result system * result system) (_ : list Qc) => Raise ValueError : result (list (result system * result system))).
  (* the two runs side by side *)
  destruct (fixed_odeint_rel plus_system times_system plus_pair times_pair (fun x P => fst P = x)) with
    (f := system_field m) (f' := field_pair m) (otherX := other) (otherY := no) (adj := adj) (name := name) (o := o)
    (x := Ok (s, c, z) : result system) (y := (Ok (s, c, z), Ok (s, c, z')) : result system * result system) (t := t)
    (xs := map Ok ys : list (result system)) as (Ps & RP & F1);
    [intros ? ? ? ? <- <-; reflexivity|intros ? ? ? <-; reflexivity|intros ? ? ? <-; reflexivity|exact NM|reflexivity|exact R|].
  destruct (fixed_odeint_rel plus_system times_system plus_pair times_pair (fun x P => snd P = x)) with
    (f := system_field m) (f' := field_pair m) (otherX := other) (otherY := no) (adj := adj) (name := name) (o := o)
    (x := Ok (s, c, z') : result system) (y := (Ok (s, c, z), Ok (s, c, z')) : result system * result system) (t := t)
    (xs := map Ok ys' : list (result system)) as (Ps' & RP' & F2);
    [intros ? ? ? ? <- <-; reflexivity|intros ? ? ? <-; reflexivity|intros ? ? ? <-; reflexivity|exact NM|reflexivity|exact R'|].
  rewrite RP in RP'. injection RP' as <-.
  destruct (fixed_odeint_rel plus_pair times_pair plus_system times_system pairs) with
    (f := field_pair m) (f' := system_field m) (otherX := no) (otherY := other) (adj := adj) (name := name) (o := o)
    (x := (Ok (s, c, z), Ok (s, c, z')) : result system * result system) (y := Ok (s, c, mixes a z z') : result system) (t := t)
    (xs := Ps) as (ws & RW & F3).
  - intros [x1 x2] [u1 u2] w w' A B y y' E E'. cbn [fst snd plus_pair] in *.
    apply plus_system_ok in E as (s1 & c1 & z1 & ds & dc & dz & s2 & c2 & z2 & -> & -> & P1 & P2 & P3 & ->).
    apply plus_system_ok in E' as (s1' & c1' & z1' & ds' & dc' & dz' & s2' & c2' & z2' & -> & -> & P1' & P2' & P3' & ->).
    destruct (A _ _ eq_refl eq_refl) as (w1 & -> & -> & -> & A1 & ->). destruct (B _ _ eq_refl eq_refl) as (w2 & -> & -> & -> & B1 & ->).
    cbn [plus_system bind]. rewrite P1, P2. cbn [bind]. destruct (plus_mixes _ _ _ _ _ _ A1 B1 P3 P3') as (C & ->). cbn [bind].
    eexists. split; [reflexivity|]. rewrite P1 in P1'. rewrite P2 in P2'. injection P1' as ->. injection P2' as ->. repeat split. exact C.
  - intros b [x1 x2] w A y y' E E'. cbn [fst snd times_pair] in *. unfold times_system in E, E'.
    apply bind_ok in E as ([[s1 c1] z1] & -> & E). apply bind_ok in E' as ([[s1' c1'] z1'] & -> & E'). injection E as <-. injection E' as <-.
    destruct (A _ _ eq_refl eq_refl) as (w1 & -> & -> & -> & A1 & ->). cbn [times_system bind]. eexists. split; [reflexivity|].
    split; [reflexivity|]. split; [reflexivity|]. split; [apply times_alikes; exact A1|]. rewrite times_mixes. reflexivity.
  - intros t0 [x1 x2] w A y y' E E'. cbn [fst snd field_pair] in *. unfold system_field in *.
    apply bind_ok in E as ([[s1 c1] z1] & -> & E). apply bind_ok in E' as ([[s1' c1'] z1'] & -> & E').
    destruct (A _ _ eq_refl eq_refl) as (w1 & -> & -> & -> & A1 & ->). cbn [bind]. unfold system_rhs in *.
    apply bind_ok in E as (th & T & E). rewrite T in *. cbn [bind] in *.
    apply bind_ok in E as (ds & D & E). rewrite D in *. cbn [bind] in *.
    apply bind_ok in E as (dz & Z & E). apply bind_ok in E' as (dz' & Z' & E').
    apply bind_ok in E as (dc & C & E). rewrite C in *. cbn [bind] in *. injection E as <-. injection E' as <-.
    destruct (AF _ _ _ _ _ A1 Z Z') as (B & ->). cbn [bind]. eexists. split; [reflexivity|]. repeat split. exact B.
  - exact NM.
  - intros y y' E E'. injection E as <-. injection E' as <-. eexists. split; [reflexivity|]. repeat split. exact AL.
  - exact RP.
  - rewrite RW. f_equal. clear -F1 F2 F3. revert ys ys' ws F1 F2 F3. induction Ps as [|P Ps IH]; intros ys ys' ws F1 F2 F3.
    + inversion F3; subst. inversion F1 as [Y|]. destruct ys; [reflexivity|discriminate Y].
    + inversion F3 as [|? w ? ws' W FW]; subst. inversion F1 as [|? ? yl ? Y FY EY]; subst. inversion F2 as [|? ? yl' ? Y' FY' EY']; subst.
      destruct ys as [|y ys]; [discriminate EY|]. destruct ys' as [|y' ys']; [discriminate EY'|]. cbn [map] in EY, EY'. injection EY as E1 E2. injection EY' as E1' E2'. subst yl yl'.
      cbn [combine map fst snd]. rewrite (IH _ _ _ FY FY' FW). f_equal. destruct (W y y' E1 E1') as (w' & -> & M). f_equal.
      destruct y as [[s c] z], y' as [[s' c'] z']. destruct M as (_ & _ & _ & ->). reflexivity.
Qed.
End Mixtures.

Lemma runs_affine dnl init d e W ow N m : In m (vector_equations (fun x => x) dnl init d e W ow N) ->
  forall a other adj name o s c z z' t ys ys', alikes z z' -> In name ["euler"; "midpoint"; "rk4"] ->
  fixed_odeint plus_system times_system (system_field m) other adj name o (Ok (s, c, z)) t = Ok (map Ok ys) ->
  fixed_odeint plus_system times_system (system_field m) other adj name o (Ok (s, c, z')) t = Ok (map Ok ys') ->
  fixed_odeint plus_system times_system (system_field m) other adj name o (Ok (s, c, mixes a z z')) t
  = Ok (map Ok (map (fun p => mix_data a (fst p) (snd p)) (combine ys ys'))).
Proof. intros I a other adj name o s c z z' t ys ys'. apply run_mixed. exact (all_affine a _ _ _ _ _ _ _ _ I). Qed.

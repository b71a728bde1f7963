(** Proofs about the recording hook. *)
From Coq Require Import List String Ascii Bool Reals Arith Lia Lra.
From Verif Require Import Base Tensor EnergyModel HooksModel HooksSpec.
Import ListNotations.
Open Scope R_scope.
Open Scope string_scope.
Open Scope list_scope.

(** ** Names *)
Lemma sapp_assoc a b c : ((a ++ b) ++ c = a ++ (b ++ c))%string.
Proof. induction a; cbn; congruence. Qed.

Lemma sapp_inj a b c : (a ++ b = a ++ c)%string -> b = c.
Proof. induction a; cbn; [auto|]. intros H. injection H. auto. Qed.

Lemma dotted_not_free x y : ~ dotfree (x ++ "." ++ y)%string.
Proof. induction x as [|c x IH]; cbn; [tauto|]. intros (_ & H). auto. Qed.

Lemma dotted_inj x y x' y' : dotfree y -> dotfree y' ->
  (x ++ "." ++ y = x' ++ "." ++ y')%string -> x = x' /\ y = y'.
Proof.
  intros F F'. revert x'. induction x as [|c x IH]; intros [|c' x']; cbn; intros H.
  - injection H as ->. auto.
  - injection H as <- ->. destruct (dotted_not_free x' y' F).
  - injection H as -> <-. destruct (dotted_not_free x y F').
  - injection H as -> H. destruct (IH x' H) as (-> & ->). auto.
Qed.

Lemma dotfree_app x y : dotfree (x ++ y)%string <-> dotfree x /\ dotfree y.
Proof. induction x; cbn; tauto. Qed.

Definition kvar (b n v : string) : string := (b ++ "." ++ n ++ "." ++ v)%string.
Definition knorm (pre k p : string) : string := (pre ++ k ++ "." ++ p)%string.

Lemma kvar_dotted b n v : kvar b n v = ((b ++ "." ++ n) ++ "." ++ v)%string.
Proof. unfold kvar. rewrite !sapp_assoc. reflexivity. Qed.

Lemma knorm_dotted pre k p : knorm pre k p = ((pre ++ k) ++ "." ++ p)%string.
Proof. unfold knorm. rewrite sapp_assoc. reflexivity. Qed.

(** ** Series *)
Definition vals (K : string) (l : list (string * val)) : list val :=
  map snd (filter (fun kv => String.eqb (fst kv) K) l).

Lemma vals_app K l1 l2 : vals K (l1 ++ l2) = vals K l1 ++ vals K l2.
Proof. unfold vals. rewrite filter_app, map_app. reflexivity. Qed.

Lemma vals_cons_eq K v l : vals K ((K, v) :: l) = v :: vals K l.
Proof. unfold vals; cbn. rewrite String.eqb_refl. reflexivity. Qed.

Lemma vals_cons_ne K k v l : k <> K -> vals K ((k, v) :: l) = vals K l.
Proof. intros N. unfold vals; cbn. apply String.eqb_neq in N. rewrite N. reflexivity. Qed.

Lemma pd_get_set {A} k (v : A) d K : pd_get K (pd_set k v d) = if String.eqb K k then Some v else pd_get K d.
Proof.
  unfold pd_get. induction d as [|(k', v') d IH]; cbn; [reflexivity|].
  destruct (String.eqb k k') eqn:E; cbn.
  - apply String.eqb_eq in E; subst. destruct (String.eqb K k'); reflexivity.
  - destruct (String.eqb K k') eqn:E2; [|exact IH].
    apply String.eqb_eq in E2; subst. rewrite String.eqb_sym, E. reflexivity.
Qed.

Lemma series_append d k v K :
  series (append_to d (k, v)) K = series d K ++ (if String.eqb k K then [v] else []).
Proof.
  unfold series, append_to; cbn. rewrite pd_get_set, (String.eqb_sym K k).
  destruct (String.eqb k K) eqn:E; [|rewrite app_nil_r; reflexivity].
  apply String.eqb_eq in E; subst. destruct (pd_get K d); reflexivity.
Qed.

Lemma series_all l d K : series (fold_left append_to l d) K = series d K ++ vals K l.
Proof.
  revert d. induction l as [|(k, v) l IH]; intros d; cbn; [rewrite app_nil_r; reflexivity|].
  rewrite IH, series_append, <- app_assoc. f_equal. unfold vals; cbn.
  destruct (String.eqb k K); reflexivity.
Qed.

(** ** Flat list of what one call records *)
Definition var_recs (n : string) (dd : sdict (sdict (tensor R))) : list (string * val) :=
  flat_map (fun bd => flat_map (fun vt => [(kvar (fst bd) n (fst vt), VTen (snd vt))]) (snd bd)) dd.

Definition pdicts (os : pobjs) : sdict (sdict (tensor R)) :=
  map (fun op => (fst op, po_pars (snd op))) os.

Definition par_recs (os : pobjs) : list (string * val) :=
  flat_map (fun bd => flat_map (fun vt => [((fst bd ++ "." ++ fst vt)%string, VTen (snd vt))]) (snd bd))
    (pdicts os).

Section Norms.
Variables nuclear_norm spectral_norm : tensor R -> R.

Definition norm_entries (k p : string) (t : tensor R) : list (string * R) :=
  if String.eqb p "bias" then []
  else [(knorm "sqr_frobenius_norm_" k p, sum_squares t);
        (knorm "sqr_nuclear_norm_" k p, nuclear_norm t ^ 2);
        (knorm "sqr_spectral_norm_" k p, spectral_norm t ^ 2)].

Definition norm_list (os : pobjs) : list (string * R) :=
  flat_map (fun bd => flat_map (fun vt => norm_entries (fst bd) (fst vt) (snd vt)) (snd bd)) (pdicts os).

Definition sums_list (os : pobjs) : list (string * R) :=
  [("sum_sqr_frobenius_norm", sum_of_norms sum_squares os);
   ("sum_sqr_nuclear_norm", sum_of_norms (fun t => nuclear_norm t ^ 2) os);
   ("sum_sqr_spectral_norm", sum_of_norms (fun t => spectral_norm t ^ 2) os)].

Definition num_recs (l : list (string * R)) : list (string * val) :=
  map (fun kv => (fst kv, VNum (snd kv))) l.

Definition first_recs (a : hook_args) : list (string * val) :=
  [("t", VNum (h_t a))] ++ par_recs (h_pars a) ++ [("energy", VNum (energy_of (h_pars a)))] ++
  flat_map (fun nd => var_recs (fst nd) (snd nd)) (dictionaries a).

Definition recs (a : hook_args) : list (string * val) :=
  first_recs a ++ num_recs (norm_list (h_pars a) ++ sums_list (h_pars a)).

Lemma fold_nested {A B S} (f : S -> string * A -> S) (g : string -> string * B -> list (string * A))
    (step : string -> S -> string * B -> S) (dd : sdict (sdict B)) s :
  (forall b s vt, step b s vt = fold_left f (g b vt) s) ->
  fold_left (fun s bd => fold_left (step (fst bd)) (snd bd) s) dd s =
  fold_left f (flat_map (fun bd => flat_map (g (fst bd)) (snd bd)) dd) s.
Proof.
  intros E. revert s. induction dd as [|(b, d) dd IH]; intros s; cbn; [reflexivity|].
  rewrite fold_left_app, IH. f_equal. clear IH.
  revert s. induction d as [|vt d IH]; intros s; cbn; [reflexivity|].
  rewrite fold_left_app, IH, E. reflexivity.
Qed.

Lemma record_generic_flat n dd data :
  record_generic_dict_of_dicts n dd data = fold_left append_to (var_recs n dd) data.
Proof.
  unfold record_generic_dict_of_dicts, var_recs.
  apply (fold_nested append_to (fun b vt => [(kvar b n (fst vt), VTen (snd vt))])
           (fun b data var => append_to data (kvar b n (fst var), VTen (snd var)))).
  reflexivity.
Qed.

Lemma fold_pair {A S E} (f : S -> A -> S) (g : E -> A -> E) l s e :
  fold_left (fun se a => let '(s, e) := se in (f s a, g e a)) l (s, e) = (fold_left f l s, fold_left g l e).
Proof. revert s e. induction l; intros; cbn; auto. Qed.

Lemma fold_plus {A} (g : A -> R) l e : fold_left (fun e a => e + g a) l e = e + fold_right Rplus 0 (map g l).
Proof. revert e. induction l; intros; cbn; [lra|]. rewrite IHl. lra. Qed.

Lemma fold_right_app_plus l1 l2 : fold_right Rplus 0 (l1 ++ l2) = fold_right Rplus 0 l1 + fold_right Rplus 0 l2.
Proof. induction l1; cbn; [lra|]. rewrite IHl1. lra. Qed.

Lemma scale_sum {A} c (g : A -> R) l : fold_right Rplus 0 (map (fun a => c * g a) l) = c * fold_right Rplus 0 (map g l).
Proof. induction l; cbn; [lra|]. rewrite IHl. lra. Qed.

Lemma record_parameters_flat os data :
  record_parameters os data = (fold_left append_to (par_recs os) data, energy_of os).
Proof.
  unfold record_parameters, energy_of, sum_parameters.
  assert (G : forall e,
    fold_left (fun s op =>
      fold_left (fun s pt => let '(data, e) := s in
        (append_to data ((fst op ++ "." ++ fst pt)%string, VTen (snd pt)),
         e + 1 / 2 * sum_squares (snd pt))) (po_pars (snd op)) s) os (data, e) =
    (fold_left append_to (par_recs os) data,
     e + 1 / 2 * fold_right Rplus 0 (flat_map (fun op => map (fun pt => sum_squares (snd pt)) (po_pars (snd op))) os))).
  { revert data. induction os as [|(k, o) os IH]; intros data e; cbn; [f_equal; lra|].
    rewrite (fold_pair (fun data pt => append_to data ((k ++ "." ++ fst pt)%string, VTen (snd pt)))
               (fun e pt => e + 1 / 2 * sum_squares (snd pt))).
    rewrite IH. rewrite (fold_plus (fun pt => 1 / 2 * sum_squares (snd pt))).
    rewrite scale_sum, fold_right_app_plus. f_equal; [|lra].
    unfold par_recs; cbn. rewrite fold_left_app. f_equal.
    generalize data. induction (po_pars o) as [|pt d IHd]; intros dt; cbn; auto. }
  rewrite G. f_equal. lra.
Qed.

(** Norms *)
Lemma norms_of_ok k d f n s p t :
  norms_of nuclear_norm spectral_norm k (d, (f, n, s)) (p, t) =
  if String.eqb p "bias" then Ok (d, (f, n, s))
  else if negb (Nat.eqb (List.length (tshape t)) 2) then Raise RuntimeError
  else if Nat.eqb (prod (tshape t)) 0 then Raise IndexError
  else Ok (fold_left (fun d kv => pd_set (fst kv) (snd kv) d) (norm_entries k p t) d,
           (f + sum_squares t, n + nuclear_norm t ^ 2, s + spectral_norm t ^ 2)).
Proof.
  unfold norms_of, norm_entries. destruct (String.eqb p "bias"); reflexivity.
Qed.

Definition matrices (pars : sdict (tensor R)) : Prop :=
  forall p t, In (p, t) pars -> p <> "bias" ->
    List.length (tshape t) = 2%nat /\ prod (tshape t) <> 0%nat.

Definition nsum (norm2 : tensor R -> R) (pars : sdict (tensor R)) : R :=
  fold_right Rplus 0 (map (fun pt => if String.eqb (fst pt) "bias" then 0 else norm2 (snd pt)) pars).

Notation sets l d := (fold_left (fun acc kv => pd_set (fst kv) (snd kv) acc) l d).

Lemma norms_object_ok k pars : matrices pars -> forall d f n s,
  foldM (norms_of nuclear_norm spectral_norm k) pars (d, (f, n, s)) =
  Ok (sets (flat_map (fun vt => norm_entries k (fst vt) (snd vt)) pars) d,
      (f + nsum sum_squares pars, n + nsum (fun t => nuclear_norm t ^ 2) pars,
       s + nsum (fun t => spectral_norm t ^ 2) pars)).
Proof.
  induction pars as [|(p, t) pars IH]; intros M d f n s.
  { cbn. unfold nsum; cbn. rewrite !Rplus_0_r. reflexivity. }
  assert (M' : matrices pars) by (intros p' t' I; apply M; right; exact I).
  cbn [foldM]. rewrite norms_of_ok. cbn [flat_map fst snd]. unfold nsum; cbn [map fold_right fst snd].
  destruct (String.eqb p "bias") eqn:E.
  - cbn [bind]. rewrite IH by exact M'. unfold nsum. f_equal. f_equal.
    + unfold norm_entries. rewrite E. reflexivity.
    + f_equal; [f_equal|]; lra.
  - destruct (M p t (or_introl eq_refl)) as (A & B); [intros ->; discriminate|].
    rewrite A. cbn [Nat.eqb negb]. destruct (Nat.eqb (prod (tshape t)) 0) eqn:E2;
      [apply Nat.eqb_eq in E2; contradiction|].
    cbn [bind]. rewrite IH by exact M'. unfold nsum. f_equal. f_equal.
    + rewrite fold_left_app. reflexivity.
    + f_equal; [f_equal|]; lra.
Qed.

Lemma norms_object_inv k pars d f n s r :
  foldM (norms_of nuclear_norm spectral_norm k) pars (d, (f, n, s)) = Ok r -> matrices pars.
Proof.
  revert d f n s r. induction pars as [|(p, t) pars IH]; intros d f n s r H; [intros ? ? []|].
  cbn [foldM] in H. rewrite norms_of_ok in H.
  destruct (String.eqb p "bias") eqn:E.
  - cbn [bind] in H. apply IH in H. intros p' t' [I|I] N; [|apply (H p' t' I N)].
    injection I as <- <-. apply String.eqb_eq in E. contradiction.
  - destruct (Nat.eqb (List.length (tshape t)) 2) eqn:E1; cbn [negb] in H; [|discriminate].
    destruct (Nat.eqb (prod (tshape t)) 0) eqn:E2; [discriminate|].
    cbn [bind] in H. apply IH in H. intros p' t' [I|I] N; [|apply (H p' t' I N)].
    injection I as <- <-. apply Nat.eqb_eq in E1. apply Nat.eqb_neq in E2. auto.
Qed.

Lemma sum_of_norms_cons norm2 k o os :
  sum_of_norms norm2 ((k, o) :: os) = nsum norm2 (po_pars o) + sum_of_norms norm2 os.
Proof.
  unfold sum_of_norms, sum_parameters, nsum; cbn. rewrite fold_right_app_plus. reflexivity.
Qed.

Lemma norms_all_ok os : only_matrices os -> forall d f n s,
  foldM (fun s op => foldM (norms_of nuclear_norm spectral_norm (fst op)) (po_pars (snd op)) s) os (d, (f, n, s)) =
  Ok (sets (norm_list os) d,
      (f + sum_of_norms sum_squares os, n + sum_of_norms (fun t => nuclear_norm t ^ 2) os,
       s + sum_of_norms (fun t => spectral_norm t ^ 2) os)).
Proof.
  induction os as [|(k, o) os IH]; intros M d f n s.
  { cbn. rewrite !Rplus_0_r. reflexivity. }
  cbn [foldM fst snd]. rewrite norms_object_ok; [|intros p t I N; exact (M k o p t (or_introl eq_refl) I N)].
  cbn [bind]. rewrite IH; [|intros k' o' p t I; apply (M k' o' p t (or_intror I))].
  rewrite !sum_of_norms_cons. f_equal. f_equal.
  - unfold norm_list; cbn. rewrite fold_left_app. reflexivity.
  - f_equal; [f_equal|]; lra.
Qed.

Lemma norms_all_inv os d f n s r :
  foldM (fun s op => foldM (norms_of nuclear_norm spectral_norm (fst op)) (po_pars (snd op)) s) os (d, (f, n, s)) = Ok r ->
  only_matrices os.
Proof.
  revert d f n s r. induction os as [|(k, o) os IH]; intros d f n s r H; [intros ? ? ? ? []|].
  cbn [foldM fst snd] in H.
  destruct (foldM (norms_of nuclear_norm spectral_norm k) (po_pars o) (d, (f, n, s))) as [(d', ((f', n'), s'))|] eqn:E;
    [|discriminate]. cbn [bind] in H.
  apply norms_object_inv in E. apply IH in H.
  intros k' o' p t [I|I] IP N; [injection I as <- <-; apply (E p t IP N)|apply (H k' o' p t I IP N)].
Qed.

Lemma pd_set_new {A} k (v : A) d : ~ In k (keys d) -> pd_set k v d = d ++ [(k, v)].
Proof.
  induction d as [|(k', v') d IH]; cbn; intros N; [reflexivity|].
  destruct (String.eqb k k') eqn:E; [apply String.eqb_eq in E; subst; tauto|].
  rewrite IH by tauto. reflexivity.
Qed.

Lemma sets_distinct {A} (l d : pdict A) : NoDup (keys (d ++ l)) -> sets l d = d ++ l.
Proof.
  revert d. induction l as [|(k, v) l IH]; intros d N; cbn; [rewrite app_nil_r; reflexivity|].
  assert (E : d ++ (k, v) :: l = (d ++ [(k, v)]) ++ l) by (rewrite <- app_assoc; reflexivity).
  rewrite pd_set_new, IH; [auto| |].
  - rewrite <- E. exact N.
  - unfold keys in *. rewrite map_app in N. cbn in N.
    apply NoDup_remove_2 in N. intros I. apply N. apply in_or_app. auto.
Qed.

(** Distinct norm names. *)
Lemma in_norm_list os K x : In (K, x) (norm_list os) ->
  exists pre k d p t, In (k, d) (pdicts os) /\ In (p, t) d /\
    K = knorm pre k p /\ (pre = "sqr_frobenius_norm_" \/ pre = "sqr_nuclear_norm_" \/ pre = "sqr_spectral_norm_").
Proof.
  unfold norm_list. intros H. apply in_flat_map in H as ((k, d) & I & H).
  apply in_flat_map in H as ((p, t) & J & H). unfold norm_entries in H. cbn [fst snd] in H, J.
  destruct (String.eqb p "bias"); [destruct H|].
  destruct H as [H|[H|[H|[]]]]; apply (f_equal fst) in H; cbn [fst] in H; subst K.
  - exists "sqr_frobenius_norm_", k, d, p, t. auto.
  - exists "sqr_nuclear_norm_", k, d, p, t. split; [exact I|]. split; [exact J|]. split; [reflexivity|]. auto.
  - exists "sqr_spectral_norm_", k, d, p, t. split; [exact I|]. split; [exact J|]. split; [reflexivity|]. auto.
Qed.

Lemma pre_inj pre pre' k k' :
  (pre = "sqr_frobenius_norm_" \/ pre = "sqr_nuclear_norm_" \/ pre = "sqr_spectral_norm_") ->
  (pre' = "sqr_frobenius_norm_" \/ pre' = "sqr_nuclear_norm_" \/ pre' = "sqr_spectral_norm_") ->
  (pre ++ k = pre' ++ k')%string -> pre = pre' /\ k = k'.
Proof.
  intros [->|[->| ->]] [->|[->| ->]] H; try (cbn in H; discriminate); split; auto; eapply sapp_inj; eauto.
Qed.

Lemma NoDup_flat_map {A B} (f : A -> list B) l :
  NoDup l -> (forall a, In a l -> NoDup (f a)) ->
  (forall a a' b, In a l -> In a' l -> In b (f a) -> In b (f a') -> a = a') ->
  NoDup (flat_map f l).
Proof.
  induction l as [|a l IH]; intros N F D; cbn; [constructor|].
  inversion N; subst.
  assert (G : forall l1 l2 : list B, NoDup l1 -> NoDup l2 -> (forall b, In b l1 -> ~ In b l2) -> NoDup (l1 ++ l2)).
  { clear. induction l1; cbn; intros l2 N1 N2 H; auto. inversion N1; subst. constructor.
    - rewrite in_app_iff. intros [?|I]; [auto|]. apply (H a); auto.
    - apply IHl1; auto. }
  apply G.
  - apply F. left; auto.
  - apply IH; auto.
    + intros; apply F; right; auto.
    + intros a1 a2 b I1 I2. apply D; right; auto.
  - intros b I1 I2. apply in_flat_map in I2 as (a' & I & J).
    assert (a = a') by (apply (D a a' b); cbn; auto). subst. contradiction.
Qed.

Lemma NoDup_keys {A} (d : sdict A) : NoDup (keys d) -> NoDup d.
Proof. apply NoDup_map_inv. Qed.

Lemma keys_inj {A} (d : sdict A) k v v' : NoDup (keys d) -> In (k, v) d -> In (k, v') d -> v = v'.
Proof.
  induction d as [|(k0, v0) d IH]; cbn; intros N I I'; [tauto|]. inversion N; subst.
  destruct I as [I|I], I' as [I'|I'].
  - congruence.
  - injection I as -> ->. destruct H1. change k with (fst (k, v')). apply in_map. exact I'.
  - injection I' as -> ->. destruct H1. change k with (fst (k, v)). apply in_map. exact I.
  - auto.
Qed.

Lemma norm_names_distinct os : names_ok (pdicts os) ->
  NoDup (keys (norm_list os)).
Proof.
  intros (N & V). unfold keys, norm_list.
  rewrite flat_map_concat_map, concat_map, map_map, <- flat_map_concat_map.
  apply NoDup_flat_map.
  - apply NoDup_keys, N.
  - intros (k, d) I. cbn. destruct (V k d I) as (Nd & Vd).
    rewrite flat_map_concat_map, concat_map, map_map, <- flat_map_concat_map.
    apply NoDup_flat_map.
    + apply NoDup_keys, Nd.
    + intros (p, t) _. cbn. unfold norm_entries. destruct (String.eqb p "bias"); [constructor|].
      cbn. repeat constructor; cbn; intros H; repeat destruct H as [H|H]; try discriminate; exact H.
    + intros (p, t) (p', t') b I1 I2 J1 J2. cbn in J1, J2.
      assert (P : forall q u, In b (map fst (norm_entries k q u)) ->
        exists pre, b = knorm pre k q /\ (pre = "sqr_frobenius_norm_" \/ pre = "sqr_nuclear_norm_" \/ pre = "sqr_spectral_norm_")).
      { intros q u J. unfold norm_entries in J. destruct (String.eqb q "bias"); [destruct J|].
        cbn [map fst] in J. destruct J as [J|[J|[J|[]]]]; eauto. }
      destruct (P _ _ J1) as (pre & E & Q). destruct (P _ _ J2) as (pre' & E' & Q').
      rewrite E, !knorm_dotted in E'.
      apply dotted_inj in E' as (_ & ->).
      * f_equal. eapply keys_inj; eauto.
      * apply Vd. change p with (fst (p, t)). apply in_map, I1.
      * apply Vd. change p' with (fst (p', t')). apply in_map, I2.
  - intros (k, d) (k', d') b I1 I2 J1 J2. cbn in J1, J2.
    assert (P : forall q e, In (q, e) (pdicts os) ->
      In b (map fst (flat_map (fun vt => norm_entries q (fst vt) (snd vt)) e)) ->
      exists pre p, dotfree p /\ b = knorm pre q p /\ (pre = "sqr_frobenius_norm_" \/ pre = "sqr_nuclear_norm_" \/ pre = "sqr_spectral_norm_")).
    { intros q e Iq J. apply in_map_iff in J as ((b', x) & Eb & J). cbn in Eb; subst b'.
      apply in_flat_map in J as ((p, t) & Ip & J). cbn in J. unfold norm_entries in J.
      assert (D : dotfree p). { apply (proj2 (V q e Iq)). change p with (fst (p, t)). apply in_map, Ip. }
      destruct (String.eqb p "bias"); [destruct J|].
      destruct J as [J|[J|[J|[]]]]; apply (f_equal fst) in J; cbn [fst] in J; subst b;
        eexists _, p; (split; [exact D|]); (split; [reflexivity|]); auto. }
    destruct (P _ _ I1 J1) as (pre & p & D & E & Q). destruct (P _ _ I2 J2) as (pre' & p' & D' & E' & Q').
    rewrite E, !knorm_dotted in E'. apply dotted_inj in E' as (E' & _); auto.
    apply pre_inj in E' as (_ & ->); auto. f_equal. eapply keys_inj; eauto.
Qed.

Lemma compute_norms_ok os : names_ok (pdicts os) -> only_matrices os ->
  compute_parameter_norms nuclear_norm spectral_norm os = Ok (norm_list os ++ sums_list os).
Proof.
  intros V M. unfold compute_parameter_norms. rewrite norms_all_ok by exact M. cbn [bind].
  rewrite !Rplus_0_l.
  pose proof (norm_names_distinct os V) as N.
  rewrite (sets_distinct (norm_list os) []) by exact N. cbn [app].
  change (Ok (sets (sums_list os) (norm_list os)) = Ok (norm_list os ++ sums_list os)).
  f_equal. apply sets_distinct. unfold keys. rewrite map_app.
  assert (F : forall K, In K (keys (norm_list os)) -> ~ dotfree K).
  { intros K I. apply in_map_iff in I as ((K', x) & <- & I).
    apply in_norm_list in I as (pre & k & d & p & t & _ & _ & E & _). cbn. rewrite E, knorm_dotted.
    apply dotted_not_free. }
  assert (G : forall l1 l2 : list string, NoDup l1 -> NoDup l2 -> (forall b, In b l1 -> ~ In b l2) -> NoDup (l1 ++ l2)).
  { clear. induction l1; cbn; intros l2 N1 N2 H; auto. inversion N1; subst. constructor.
    - rewrite in_app_iff. intros [?|I]; [auto|]. apply (H a); auto.
    - apply IHl1; auto. }
  apply G; [exact N| |].
  - cbn. repeat constructor; cbn; intros H; repeat destruct H as [H|H]; try discriminate; exact H.
  - intros K I J. apply (F K I). cbn in J. destruct J as [<-|[<-|[<-|[]]]]; cbn; repeat split; discriminate.
Qed.

Lemma hook_run a data :
  parameter_evolution_hook nuclear_norm spectral_norm a (HRecord data) =
  match compute_parameter_norms nuclear_norm spectral_norm (h_pars a) with
  | Raise e => (Raise e, HRecord (fold_left append_to (first_recs a) data))
  | Ok l => (Ok tt, HRecord (fold_left append_to (first_recs a ++ num_recs l) data))
  end.
Proof.
  unfold parameter_evolution_hook. rewrite record_parameters_flat. rewrite !record_generic_flat.
  assert (E : fold_left append_to (first_recs a) data =
    fold_left append_to (var_recs "dot_data" (h_dot_data a))
     (fold_left append_to (var_recs "dot_costate" (h_dot_costate a))
      (fold_left append_to (var_recs "dot_state" (h_dot_state a))
       (fold_left append_to (var_recs "data" (h_data a))
        (fold_left append_to (var_recs "costate" (h_costate a))
         (fold_left append_to (var_recs "state" (h_state a))
          (append_to (fold_left append_to (par_recs (h_pars a)) (append_to data ("t", VNum (h_t a))))
            ("energy", VNum (energy_of (h_pars a)))))))))).
  { unfold first_recs, dictionaries. cbn [flat_map fst snd]. rewrite app_nil_r, !fold_left_app. reflexivity. }
  rewrite <- E. destruct (compute_parameter_norms _ _ _) as [l|e]; [|reflexivity].
  rewrite fold_left_app. f_equal. f_equal. unfold num_recs.
  generalize (fold_left append_to (first_recs a) data). induction l; intros d; cbn; auto.
Qed.

Lemma hook_ok_iff a data : names_ok (pdicts (h_pars a)) ->
  (fst (parameter_evolution_hook nuclear_norm spectral_norm a (HRecord data)) = Ok tt <-> only_matrices (h_pars a)).
Proof.
  intros V. rewrite hook_run. split.
  - destruct (compute_parameter_norms _ _ _) as [l|e] eqn:E; cbn; [|discriminate]. intros _.
    unfold compute_parameter_norms in E.
    destruct (foldM _ _ _) as [r|] eqn:F; [|discriminate]. eapply norms_all_inv; eauto.
  - intros M. rewrite compute_norms_ok; auto.
Qed.

Lemma hook_ok a data : names_ok (pdicts (h_pars a)) ->
  forall d', parameter_evolution_hook nuclear_norm spectral_norm a (HRecord data) = (Ok tt, d') ->
  d' = HRecord (fold_left append_to (recs a) data).
Proof.
  intros V d' H.
  assert (M : only_matrices (h_pars a)) by (apply (hook_ok_iff a data V); rewrite H; reflexivity).
  rewrite hook_run, compute_norms_ok in H by auto. injection H as <-. reflexivity.
Qed.

Lemma run_hook_recs calls : Forall (fun a => names_ok (pdicts (h_pars a))) calls ->
  forall data d', run_hook nuclear_norm spectral_norm calls (HRecord data) = (Ok tt, d') ->
  d' = HRecord (fold_left append_to (flat_map recs calls) data).
Proof.
  induction 1 as [|a calls V F IH]; intros data d' H; cbn [run_hook] in H.
  - injection H as <-. reflexivity.
  - destruct (parameter_evolution_hook nuclear_norm spectral_norm a (HRecord data)) as ([[]|e], d1) eqn:E;
      [|discriminate].
    apply hook_ok in E; [|exact V]. subst d1. apply IH in H. rewrite H. cbn [flat_map].
    rewrite fold_left_app. reflexivity.
Qed.

Lemma run_series calls d K : Forall args_ok calls ->
  run_hook nuclear_norm spectral_norm calls (HRecord []) = (Ok tt, HRecord d) ->
  series d K = flat_map (fun a => vals K (recs a)) calls.
Proof.
  intros A H. apply run_hook_recs in H.
  - injection H as ->. rewrite series_all. change (series [] K) with (@nil val). cbn [app].
    induction calls as [|a calls IH]; cbn [flat_map]; [reflexivity|].
    rewrite vals_app. f_equal. apply IH. inversion A; auto.
  - eapply Forall_impl; [|exact A]. intros a (_ & V & _). exact V.
Qed.

(** ** What a call records under a name *)
Lemma vals_seg {B} (h : string -> string * B -> list (string * val)) (dd : sdict (sdict B)) K b v (r : B -> list val) :
  NoDup (keys dd) -> (forall b d, In (b, d) dd -> NoDup (keys d)) ->
  (forall b' d' v' t', In (b', d') dd -> In (v', t') d' ->
     vals K (h b' (v', t')) = if String.eqb b' b && String.eqb v' v then r t' else []) ->
  vals K (flat_map (fun bd => flat_map (h (fst bd)) (snd bd)) dd) =
  match value_of dd b v with Some t => r t | None => [] end.
Proof.
  intros N Nd H.
  assert (Z : forall b' d', In (b', d') dd ->
    vals K (flat_map (h b') d') =
    if String.eqb b' b then match sd_get v d' with Some t => r t | None => [] end else []).
  { intros b' d' I. assert (H' := fun v' t' => H b' d' v' t' I). assert (Nd' := Nd b' d' I).
    clear - H' Nd'. induction d' as [|(v', t') d' IH]; cbn [flat_map].
    - cbn. destruct (String.eqb b' b); reflexivity.
    - rewrite vals_app, (H' v' t') by (left; reflexivity). inversion Nd'; subst.
      rewrite IH; [|intros; apply H'; right; assumption|assumption].
      cbn [sd_get]. rewrite (String.eqb_sym v v'). destruct (String.eqb b' b); cbn [andb]; [|reflexivity].
      destruct (String.eqb v' v) eqn:E; [|reflexivity]. apply String.eqb_eq in E; subst v'.
      assert (Q : sd_get v d' = None).
      { clear - H1. induction d' as [|(k, x) d' IH]; cbn in *; [reflexivity|].
        destruct (String.eqb v k) eqn:E; [apply String.eqb_eq in E; subst; tauto|]. apply IH. tauto. }
      rewrite Q, app_nil_r. reflexivity. }
  clear H Nd. unfold value_of. induction dd as [|(b', d') dd IH]; cbn [flat_map fst snd]; [reflexivity|].
  inversion N; subst. rewrite vals_app, (Z b' d') by (left; reflexivity).
  rewrite IH; [|assumption|intros; apply Z; right; assumption].
  cbn [sd_get]. rewrite (String.eqb_sym b b'). destruct (String.eqb b' b) eqn:E; [|reflexivity].
  apply String.eqb_eq in E; subst b'.
  assert (Q : sd_get b dd = None).
  { clear - H1. induction dd as [|(k, x) d' IH]; cbn in *; [reflexivity|].
    destruct (String.eqb b k) eqn:E; [apply String.eqb_eq in E; subst; tauto|]. apply IH. tauto. }
  rewrite Q, app_nil_r. reflexivity.
Qed.

Lemma vals_none K l : (forall k v, In (k, v) l -> k <> K) -> vals K l = [].
Proof.
  induction l as [|(k, v) l IH]; intros H; [reflexivity|].
  rewrite vals_cons_ne by (apply (H k v); left; reflexivity). apply IH. intros; apply (H k0 v0); right; auto.
Qed.

Lemma in_var_recs n dd k x : In (k, x) (var_recs n dd) ->
  exists b d v t, In (b, d) dd /\ In (v, t) d /\ k = kvar b n v.
Proof.
  unfold var_recs. intros H. apply in_flat_map in H as ((b, d) & I & H).
  apply in_flat_map in H as ((v, t) & J & H). destruct H as [H|[]].
  apply (f_equal fst) in H. cbn [fst snd] in H, J. subst k.
  exists b, d, v, t. auto.
Qed.

Lemma in_par_recs os k x : In (k, x) (par_recs os) ->
  exists b d v t, In (b, d) (pdicts os) /\ In (v, t) d /\ k = (b ++ "." ++ v)%string.
Proof.
  unfold par_recs. intros H. apply in_flat_map in H as ((b, d) & I & H).
  apply in_flat_map in H as ((v, t) & J & H). destruct H as [H|[]].
  apply (f_equal fst) in H. cbn [fst snd] in H, J. subst k.
  exists b, d, v, t. auto.
Qed.

Lemma num_recs_app l1 l2 : num_recs (l1 ++ l2) = num_recs l1 ++ num_recs l2.
Proof. apply map_app. Qed.

Lemma in_num_recs l k x : In (k, x) (num_recs l) -> exists y, In (k, y) l.
Proof. unfold num_recs. intros H. apply in_map_iff in H as ((k', y) & E & I). injection E as <- _. eauto. Qed.

Lemma value_pdicts os k p : value_of (pdicts os) k p = parameter_of os k p.
Proof.
  unfold value_of, parameter_of, pdicts. induction os as [|(k', o) os IH]; cbn; [reflexivity|].
  destruct (String.eqb k k'); [reflexivity|exact IH].
Qed.

Definition kind_names : list string := ["state"; "costate"; "data"; "dot_state"; "dot_costate"; "dot_data"].

Lemma kinds_dotfree n : In n kind_names -> dotfree n.
Proof. intros H. repeat destruct H as [<-|H]; try (cbn; repeat split; discriminate). destruct H. Qed.

Lemma names_dotfree {A} (dd : sdict (sdict A)) b d v t :
  names_ok dd -> In (b, d) dd -> In (v, t) d -> dotfree v.
Proof. intros (_ & V) I J. apply (proj2 (V b d I)). change v with (fst (v, t)). apply in_map, J. Qed.

Lemma dictionaries_kind a n dd : In (n, dd) (dictionaries a) -> In n kind_names.
Proof. intros H. repeat destruct H as [H|H]; try (injection H as <- _; cbn; tauto). destruct H. Qed.

(** Under an undotted name only the matching fixed entries are recorded. *)
Lemma recs_undotted a K : args_ok a -> dotfree K ->
  vals K (recs a) = vals K ([("t", VNum (h_t a)); ("energy", VNum (energy_of (h_pars a)))] ++ num_recs (sums_list (h_pars a))).
Proof.
  intros (D & V & _) F. unfold recs, first_recs. rewrite num_recs_app, !vals_app.
  rewrite (vals_none K (par_recs _)).
  2:{ intros k x I E. subst. apply in_par_recs in I as (b & d & v & t & _ & _ & E). rewrite E in F. exact (dotted_not_free _ _ F). }
  rewrite (vals_none K (flat_map _ _)).
  2:{ intros k x I E. subst. apply in_flat_map in I as ((n, dd) & _ & I). cbn in I.
      apply in_var_recs in I as (b & d & v & t & _ & _ & E). rewrite E, kvar_dotted in F. exact (dotted_not_free _ _ F). }
  rewrite (vals_none K (num_recs (norm_list _))).
  2:{ intros k x I E. subst. apply in_num_recs in I as (y & I).
      apply in_norm_list in I as (pre & k & d & p & t & _ & _ & E & _). rewrite E, knorm_dotted in F.
      exact (dotted_not_free _ _ F). }
  cbn [app]. rewrite app_nil_r. unfold vals. cbn [filter fst].
  repeat match goal with |- context[String.eqb ?k K] => destruct (String.eqb k K) end; reflexivity.
Qed.

(** Under a dotted name nothing of the fixed entries is recorded. *)
Lemma fixed_none x v l : Forall (fun kv : string * val => dotfree (fst kv)) l -> vals (x ++ "." ++ v)%string l = [].
Proof.
  intros F. apply vals_none. intros k y I ->. rewrite Forall_forall in F.
  apply F in I. exact (dotted_not_free _ _ I).
Qed.

Lemma fixed_t a : Forall (fun kv : string * val => dotfree (fst kv)) [("t", VNum (h_t a))].
Proof. repeat constructor; cbn; discriminate. Qed.
Lemma fixed_e x : Forall (fun kv : string * val => dotfree (fst kv)) [("energy", VNum x)].
Proof. repeat constructor; cbn; discriminate. Qed.
Lemma fixed_s os : Forall (fun kv : string * val => dotfree (fst kv)) (num_recs (sums_list os)).
Proof. repeat constructor; cbn; discriminate. Qed.

Lemma sqr_prefix pre k : (pre = "sqr_frobenius_norm_" \/ pre = "sqr_nuclear_norm_" \/ pre = "sqr_spectral_norm_") ->
  String.prefix "sqr_" (pre ++ k) = true.
Proof. intros [->|[->| ->]]; reflexivity. Qed.

Lemma object_names a k d : args_ok a -> In (k, d) (pdicts (h_pars a)) ->
  dotfree k /\ String.prefix "sqr_" k = false.
Proof.
  intros (_ & _ & O) I. apply O. unfold pdicts in I. apply in_map_iff in I as ((k', o) & E & I).
  injection E as <- _. change k' with (fst (k', o)). apply in_map, I.
Qed.

Lemma pre_dotfree pre : (pre = "sqr_frobenius_norm_" \/ pre = "sqr_nuclear_norm_" \/ pre = "sqr_spectral_norm_") -> dotfree pre.
Proof. intros [->|[->| ->]]; cbn; repeat split; discriminate. Qed.

(** A dotted name splits into three cases. *)
Lemma recs_dotted a x v : args_ok a -> dotfree v ->
  vals (x ++ "." ++ v)%string (recs a) =
  vals (x ++ "." ++ v)%string (par_recs (h_pars a)) ++
  flat_map (fun nd => vals (x ++ "." ++ v)%string (var_recs (fst nd) (snd nd))) (dictionaries a) ++
  vals (x ++ "." ++ v)%string (num_recs (norm_list (h_pars a))).
Proof.
  intros A F. unfold recs, first_recs. rewrite num_recs_app, !vals_app.
  rewrite (fixed_none x v _ (fixed_t a)), (fixed_none x v _ (fixed_e _)), (fixed_none x v _ (fixed_s _)).
  cbn [app]. rewrite app_nil_r, <- app_assoc. f_equal. f_equal.
  generalize (dictionaries a). induction l as [|nd l IH]; cbn [flat_map]; [reflexivity|].
  rewrite vals_app, IH. reflexivity.
Qed.

Lemma par_none a x v : args_ok a -> dotfree v -> (forall k, dotfree k -> String.prefix "sqr_" k = false -> x <> k) ->
  vals (x ++ "." ++ v)%string (par_recs (h_pars a)) = [].
Proof.
  intros A F H. apply vals_none. intros k y I E.
  apply in_par_recs in I as (b & d & p & t & I & J & ->).
  destruct (object_names a b d A I) as (Db & Pb).
  apply dotted_inj in E as (E & _); auto.
  - exact (H b Db Pb (eq_sym E)).
  - destruct A as (_ & V & _). eapply names_dotfree; eauto.
Qed.

Lemma var_none a x v n dd : args_ok a -> dotfree v -> In (n, dd) (dictionaries a) ->
  (forall b, x <> (b ++ "." ++ n)%string) ->
  vals (x ++ "." ++ v)%string (var_recs n dd) = [].
Proof.
  intros (D & _) F I H. apply vals_none. intros k y J E.
  apply in_var_recs in J as (b & d & u & t & Ib & Iu & ->).
  rewrite kvar_dotted in E. apply dotted_inj in E as (E & _); auto.
  - exact (H b (eq_sym E)).
  - rewrite Forall_forall in D. specialize (D _ I). eapply names_dotfree; eauto.
Qed.

Lemma norm_none a x v : args_ok a -> dotfree v ->
  (forall pre k, (pre = "sqr_frobenius_norm_" \/ pre = "sqr_nuclear_norm_" \/ pre = "sqr_spectral_norm_") ->
     dotfree k -> x <> (pre ++ k)%string) ->
  vals (x ++ "." ++ v)%string (num_recs (norm_list (h_pars a))) = [].
Proof.
  intros A F H. apply vals_none. intros k y I E. apply in_num_recs in I as (z & I).
  apply in_norm_list in I as (pre & b & d & p & t & I & J & -> & Q).
  destruct (object_names a b d A I) as (Db & Pb).
  rewrite knorm_dotted in E. apply dotted_inj in E as (E & _); auto.
  - exact (H pre b Q Db (eq_sym E)).
  - destruct A as (_ & V & _). eapply names_dotfree; eauto.
Qed.

Lemma no_dot_eq x b n : dotfree x -> x <> (b ++ "." ++ n)%string.
Proof. intros F ->. exact (dotted_not_free _ _ F). Qed.

(** Parameters. *)
Lemma recs_parameter a k p : args_ok a -> dotfree k -> String.prefix "sqr_" k = false -> dotfree p ->
  vals (k ++ "." ++ p)%string (recs a) =
  match parameter_of (h_pars a) k p with Some t => [VTen t] | None => [] end.
Proof.
  intros A Dk Pk Dp. rewrite recs_dotted by auto.
  assert (E1 : flat_map (fun nd => vals (k ++ "." ++ p)%string (var_recs (fst nd) (snd nd))) (dictionaries a) = []).
  { assert (G : forall l, incl l (dictionaries a) ->
      flat_map (fun nd => vals (k ++ "." ++ p)%string (var_recs (fst nd) (snd nd))) l = []).
    { induction l as [|(n, dd) l IH]; intros I; cbn [flat_map fst snd]; [reflexivity|].
      rewrite (var_none a k p n dd), IH; auto.
      - intros y Hy; apply I; right; auto.
      - apply I; left; reflexivity.
      - intros b. apply no_dot_eq, Dk. }
    apply G, incl_refl. }
  rewrite E1, norm_none; auto.
  2:{ intros pre q Q _ ->. rewrite sqr_prefix in Pk by exact Q. discriminate. }
  rewrite app_nil_r. cbn [app].
  destruct A as (_ & V & _). unfold par_recs.
  rewrite (vals_seg (fun b vt => [((b ++ "." ++ fst vt)%string, VTen (snd vt))]) (pdicts (h_pars a))
            (k ++ "." ++ p)%string k p (fun t => [VTen t])).
  - rewrite value_pdicts. reflexivity.
  - apply V.
  - intros b d I. apply (proj2 V b d I).
  - intros b d v t I J. assert (Dv : dotfree v) by (eapply names_dotfree; eauto). cbn [fst snd].
    destruct (String.eqb b k && String.eqb v p) eqn:E.
    + apply andb_true_iff in E as (E & E'). apply String.eqb_eq in E, E'. subst. apply vals_cons_eq.
    + rewrite vals_cons_ne; [reflexivity|]. intros H. apply dotted_inj in H as (-> & ->); auto.
      rewrite !String.eqb_refl in E. discriminate.
Qed.

(** States, costates, data and their derivatives. *)
Lemma sapp_inj_r a b c : (a ++ c = b ++ c)%string -> a = b.
Proof.
  assert (L : forall u w, String.length (u ++ w)%string = (String.length u + String.length w)%nat).
  { induction u; cbn; auto. }
  revert b. induction a as [|x a IH]; intros [|y b] H; cbn in H; auto.
  - apply (f_equal String.length) in H. cbn in H. rewrite L in H. lia.
  - apply (f_equal String.length) in H. cbn in H. rewrite L in H. lia.
  - injection H as -> H. f_equal. auto.
Qed.

Lemma recs_variable a n sel b v : args_ok a -> dotfree v -> In (n, sel) (dictionaries a) ->
  vals (kvar b n v) (recs a) =
  match value_of sel b v with Some t => [VTen t] | None => [] end.
Proof.
  intros A Dv I. rewrite kvar_dotted, recs_dotted by auto.
  rewrite par_none, norm_none; auto.
  2:{ intros pre k Q Dk. intros H. apply (dotted_not_free b n). rewrite H. apply dotfree_app.
      split; [apply pre_dotfree, Q|exact Dk]. }
  2:{ intros k Dk _ H. apply (dotted_not_free b n). rewrite H. exact Dk. }
  rewrite app_nil_r. cbn [app].
  assert (Dn : dotfree n) by (eapply kinds_dotfree, dictionaries_kind; eauto).
  assert (HIT : vals ((b ++ "." ++ n) ++ "." ++ v)%string (var_recs n sel) =
                match value_of sel b v with Some t => [VTen t] | None => [] end).
  { destruct A as (D & _). rewrite Forall_forall in D. specialize (D _ I). cbn in D.
    unfold var_recs.
    apply (vals_seg (fun b vt => [(kvar b n (fst vt), VTen (snd vt))]) sel _ b v (fun t => [VTen t])).
    - apply D.
    - intros b' d' J. apply (proj2 D b' d' J).
    - intros b' d' v' t' J J'. assert (Dv' : dotfree v') by (eapply names_dotfree; eauto). cbn [fst snd].
      rewrite <- kvar_dotted. destruct (String.eqb b' b && String.eqb v' v) eqn:E.
      + apply andb_true_iff in E as (E & E'). apply String.eqb_eq in E, E'. subst. apply vals_cons_eq.
      + rewrite vals_cons_ne; [reflexivity|]. rewrite !kvar_dotted. intros H.
        apply dotted_inj in H as (H & ->); auto. apply sapp_inj_r in H as ->.
        rewrite !String.eqb_refl in E. discriminate. }
  assert (MISS : forall n' dd', In (n', dd') (dictionaries a) -> n' <> n ->
                 vals ((b ++ "." ++ n) ++ "." ++ v)%string (var_recs n' dd') = []).
  { intros n' dd' I' N. apply (var_none a); auto. intros b' H.
    apply dotted_inj in H as (_ & H); auto. eapply kinds_dotfree, dictionaries_kind; eauto. }
  rewrite <- HIT. clear HIT.
  cbn [dictionaries In] in I. destruct I as [I|[I|[I|[I|[I|[I|[]]]]]]]; injection I as <- <-; cbn [dictionaries flat_map fst snd];
    repeat match goal with
    | |- context[vals ?K (var_recs ?n' ?dd')] =>
        rewrite (MISS n' dd') by (first [discriminate | cbn; tauto])
    end; cbn [app]; rewrite ?app_nil_r; reflexivity.
Qed.

(** Norms of parameters. *)
Lemma recs_norm a pre norm2 k p : args_ok a ->
  (pre, norm2) = ("sqr_frobenius_norm_", sum_squares) \/
  (pre, norm2) = ("sqr_nuclear_norm_", fun t => nuclear_norm t ^ 2) \/
  (pre, norm2) = ("sqr_spectral_norm_", fun t => spectral_norm t ^ 2) ->
  dotfree k -> dotfree p ->
  vals (knorm pre k p) (recs a) =
  match parameter_of (h_pars a) k p with
  | Some t => if String.eqb p "bias" then [] else [VNum (norm2 t)]
  | None => [] end.
Proof.
  intros A Q Dk Dp.
  assert (Qp : pre = "sqr_frobenius_norm_" \/ pre = "sqr_nuclear_norm_" \/ pre = "sqr_spectral_norm_")
    by (destruct Q as [Q|[Q|Q]]; injection Q as -> _; auto).
  rewrite knorm_dotted, recs_dotted by auto.
  rewrite par_none; auto.
  2:{ intros q Dq Pq H. rewrite <- H, sqr_prefix in Pq by exact Qp. discriminate. }
  assert (E1 : flat_map (fun nd => vals ((pre ++ k) ++ "." ++ p)%string (var_recs (fst nd) (snd nd))) (dictionaries a) = []).
  { assert (G : forall l, incl l (dictionaries a) ->
      flat_map (fun nd => vals ((pre ++ k) ++ "." ++ p)%string (var_recs (fst nd) (snd nd))) l = []).
    { induction l as [|(n, dd) l IH]; intros I; cbn [flat_map fst snd]; [reflexivity|].
      rewrite (var_none a (pre ++ k)%string p n dd), IH; auto.
      - intros y Hy; apply I; right; auto.
      - apply I; left; reflexivity.
      - intros b. apply no_dot_eq. apply dotfree_app. split; [apply pre_dotfree, Qp|exact Dk]. }
    apply G, incl_refl. }
  rewrite E1. cbn [app]. rewrite <- knorm_dotted.
  destruct A as (_ & V & _). unfold norm_list, num_recs.
  rewrite flat_map_concat_map, concat_map, map_map, <- flat_map_concat_map.
  assert (EQ : flat_map (fun x => map (fun kv : string * R => (fst kv, VNum (snd kv)))
                 (flat_map (fun vt => norm_entries (fst x) (fst vt) (snd vt)) (snd x))) (pdicts (h_pars a)) =
               flat_map (fun bd => flat_map (fun vt => num_recs (norm_entries (fst bd) (fst vt) (snd vt))) (snd bd)) (pdicts (h_pars a))).
  { apply flat_map_ext. intros (b, d). cbn. unfold num_recs.
    rewrite flat_map_concat_map, concat_map, map_map, <- flat_map_concat_map. reflexivity. }
  rewrite EQ. clear EQ.
  rewrite (vals_seg (fun b vt => num_recs (norm_entries b (fst vt) (snd vt))) (pdicts (h_pars a)) (knorm pre k p) k p
            (fun t => if String.eqb p "bias" then [] else [VNum (norm2 t)])).
  - rewrite value_pdicts. reflexivity.
  - apply V.
  - intros b d I. apply (proj2 V b d I).
  - intros b d v t I J. assert (Dv : dotfree v) by (eapply names_dotfree; eauto). cbn [fst snd].
    destruct (String.eqb b k && String.eqb v p) eqn:E.
    + apply andb_true_iff in E as (E & E'). apply String.eqb_eq in E, E'. subst b v.
      unfold norm_entries. destruct (String.eqb p "bias"); [reflexivity|]. unfold num_recs; cbn [map fst snd].
      assert (NE : forall pre1 pre2 : string, String.get 4 pre1 <> String.get 4 pre2 ->
         (pre1 = "sqr_frobenius_norm_" \/ pre1 = "sqr_nuclear_norm_" \/ pre1 = "sqr_spectral_norm_") ->
         (pre2 = "sqr_frobenius_norm_" \/ pre2 = "sqr_nuclear_norm_" \/ pre2 = "sqr_spectral_norm_") ->
         knorm pre1 k p <> knorm pre2 k p).
      { intros p1 p2 NE0 Q1 Q2 H. rewrite !knorm_dotted in H. apply dotted_inj in H as (H & _); auto.
        apply pre_inj in H as (-> & _); auto. }
      destruct Q as [Q|[Q|Q]]; injection Q as -> ->;
        repeat first [ rewrite vals_cons_eq
                     | rewrite vals_cons_ne by (apply NE; [cbn; discriminate|tauto|tauto]) ]; reflexivity.
    + apply vals_none. intros K y IK ->. apply in_num_recs in IK as (z & IK).
      unfold norm_entries in IK. destruct (String.eqb v "bias"); [destruct IK|].
      assert (X : exists pre', knorm pre k p = knorm pre' b v /\
         (pre' = "sqr_frobenius_norm_" \/ pre' = "sqr_nuclear_norm_" \/ pre' = "sqr_spectral_norm_")).
      { destruct IK as [IK|[IK|[IK|[]]]]; apply (f_equal fst) in IK; cbn [fst] in IK; rewrite <- IK;
          eexists; (split; [reflexivity|]); auto. }
      destruct X as (pre' & X & Q'). rewrite !knorm_dotted in X. apply dotted_inj in X as (X & ->); auto.
      apply pre_inj in X as (_ & ->); auto. rewrite !String.eqb_refl in E. discriminate.
Qed.

(** Fixed names. *)
Lemma recs_fixed a : args_ok a ->
  vals "t" (recs a) = [VNum (h_t a)] /\
  vals "energy" (recs a) = [VNum (energy_of (h_pars a))] /\
  vals "sum_sqr_frobenius_norm" (recs a) = [VNum (sum_of_norms sum_squares (h_pars a))] /\
  vals "sum_sqr_nuclear_norm" (recs a) = [VNum (sum_of_norms (fun t => nuclear_norm t ^ 2) (h_pars a))] /\
  vals "sum_sqr_spectral_norm" (recs a) = [VNum (sum_of_norms (fun t => spectral_norm t ^ 2) (h_pars a))].
Proof.
  intros A. repeat split; rewrite recs_undotted by (auto; cbn; repeat split; discriminate); reflexivity.
Qed.
End Norms.

(** ** Statements *)
Lemma flat_single {A B} (f : A -> B) l : flat_map (fun a => [f a]) l = map f l.
Proof. induction l; cbn; congruence. Qed.

Lemma flat_map_ext_in {A B} (f g : A -> list B) l :
  (forall a, In a l -> f a = g a) -> flat_map f l = flat_map g l.
Proof. induction l; cbn; intros H; [reflexivity|]. rewrite H, IHl; auto. Qed.

Section Statements.
Variables nuclear_norm spectral_norm : tensor R -> R.
Variables (calls : list hook_args) (d : record).
Hypothesis A : Forall args_ok calls.
Hypothesis H : run_hook nuclear_norm spectral_norm calls (HRecord []) = (Ok tt, HRecord d).

Let each K (f : hook_args -> list val) :
  (forall a, args_ok a -> vals K (recs nuclear_norm spectral_norm a) = f a) ->
  series d K = flat_map f calls.
Proof.
  intros G. rewrite (run_series nuclear_norm spectral_norm calls d K A H).
  apply flat_map_ext_in. intros a I. apply G. rewrite Forall_forall in A. auto.
Qed.

Lemma series_time : series d "t" = map (fun a => VNum (h_t a)) calls.
Proof. rewrite <- flat_single. apply each. intros a Ha. apply (recs_fixed nuclear_norm spectral_norm a Ha). Qed.

Lemma series_energy : series d "energy" = map (fun a => VNum (energy_of (h_pars a))) calls.
Proof. rewrite <- flat_single. apply each. intros a Ha. apply (recs_fixed nuclear_norm spectral_norm a Ha). Qed.

Lemma series_sums :
  series d "sum_sqr_frobenius_norm" = map (fun a => VNum (sum_of_norms sum_squares (h_pars a))) calls /\
  series d "sum_sqr_nuclear_norm" = map (fun a => VNum (sum_of_norms (fun t => nuclear_norm t ^ 2) (h_pars a))) calls /\
  series d "sum_sqr_spectral_norm" = map (fun a => VNum (sum_of_norms (fun t => spectral_norm t ^ 2) (h_pars a))) calls.
Proof.
  split; [|split]; rewrite <- flat_single; apply each; intros a Ha;
    apply (recs_fixed nuclear_norm spectral_norm a Ha).
Qed.

Lemma series_variable n (sel : hook_args -> sdict (sdict (tensor R))) b v :
  (forall a, In (n, sel a) (dictionaries a)) -> dotfree v ->
  series d (b ++ "." ++ n ++ "." ++ v)%string =
  flat_map (fun a => match value_of (sel a) b v with Some t => [VTen t] | None => [] end) calls.
Proof. intros S Dv. apply each. intros a Ha. exact (recs_variable nuclear_norm spectral_norm a n (sel a) b v Ha Dv (S a)). Qed.

Lemma series_parameter k p : dotfree k -> String.prefix "sqr_" k = false -> dotfree p ->
  series d (k ++ "." ++ p)%string =
  flat_map (fun a => match parameter_of (h_pars a) k p with Some t => [VTen t] | None => [] end) calls.
Proof. intros Dk Pk Dp. apply each. intros a Ha. apply recs_parameter; auto. Qed.

Lemma series_norms k p : dotfree k -> dotfree p -> p <> "bias" ->
  let norm2s f := flat_map (fun a => match parameter_of (h_pars a) k p with Some t => [VNum (f t)] | None => [] end) calls in
  series d ("sqr_frobenius_norm_" ++ k ++ "." ++ p)%string = norm2s sum_squares /\
  series d ("sqr_nuclear_norm_" ++ k ++ "." ++ p)%string = norm2s (fun t => nuclear_norm t ^ 2) /\
  series d ("sqr_spectral_norm_" ++ k ++ "." ++ p)%string = norm2s (fun t => spectral_norm t ^ 2).
Proof.
  intros Dk Dp N. apply String.eqb_neq in N. cbv zeta.
  split; [|split]; apply each; intros a Ha;
    (eapply eq_trans;
     [first [ exact (recs_norm nuclear_norm spectral_norm a "sqr_frobenius_norm_" sum_squares k p Ha (or_introl eq_refl) Dk Dp)
            | exact (recs_norm nuclear_norm spectral_norm a "sqr_nuclear_norm_" (fun t => nuclear_norm t ^ 2) k p Ha (or_intror (or_introl eq_refl)) Dk Dp)
            | exact (recs_norm nuclear_norm spectral_norm a "sqr_spectral_norm_" (fun t => spectral_norm t ^ 2) k p Ha (or_intror (or_intror eq_refl)) Dk Dp) ]
     |rewrite N; reflexivity]).
Qed.
End Statements.

(** ** The recorded energy *)
Lemma kinetic_sum os :
  kinetic_energy os =
  1 / 2 * fold_right Rplus 0 (flat_map (fun op => map (fun pt => par_penalty (po_weights (snd op)) (fst pt) (snd pt)) (po_pars (snd op))) os).
Proof.
  unfold kinetic_energy. f_equal.
  assert (G : forall e, fold_left (fun e op =>
     fold_left (fun e kt => e + par_penalty (po_weights (snd op)) (fst kt) (snd kt)) (po_pars (snd op)) e) os e =
     e + fold_right Rplus 0 (flat_map (fun op => map (fun pt => par_penalty (po_weights (snd op)) (fst pt) (snd pt)) (po_pars (snd op))) os)).
  { induction os as [|op os IH]; intros e; cbn; [lra|].
    rewrite (fold_plus (fun kt => par_penalty (po_weights (snd op)) (fst kt) (snd kt))), IH, fold_right_app_plus. lra. }
  rewrite G. lra.
Qed.

Lemma sum_squares_nonneg t : 0 <= sum_squares t.
Proof.
  unfold sum_squares, total.
  assert (G : forall l e, 0 <= e -> 0 <= fold_left Rplus (map (fun x => x ^ 2) l) e).
  { induction l as [|x l IH]; intros e E; cbn; [exact E|]. apply IH. nra. }
  apply G. lra.
Qed.

Lemma energy_compare (P : R -> R -> Prop) os :
  P 0 0 -> (forall a b c e, P a b -> P c e -> P (a + c) (b + e)) ->
  (forall k o p t, In (k, o) os -> In (p, t) (po_pars o) -> P (sum_squares t) (par_penalty (po_weights o) p t)) ->
  exists x y, energy_of os = 1 / 2 * x /\ kinetic_energy os = 1 / 2 * y /\ P x y.
Proof.
  intros P0 PP Hp. rewrite kinetic_sum. unfold energy_of, sum_parameters.
  eexists _, _. split; [reflexivity|]. split; [reflexivity|].
  induction os as [|(k, o) os IH]; cbn; [exact P0|].
  rewrite !fold_right_app_plus. apply PP.
  - assert (Ho := fun p t => Hp k o p t (or_introl eq_refl)). clear - Ho P0 PP.
    assert (G : forall l, incl l (po_pars o) -> P (fold_right Rplus 0 (map (fun pt => sum_squares (snd pt)) l))
         (fold_right Rplus 0 (map (fun pt => par_penalty (po_weights o) (fst pt) (snd pt)) l))).
    { induction l as [|(p, t) l IH]; cbn; intros I; [exact P0|]. apply PP.
      - apply Ho. apply I; left; reflexivity.
      - apply IH. intros x Hx; apply I; right; exact Hx. }
    apply G, incl_refl.
  - apply IH. intros; eapply Hp; eauto. right; eauto.
Qed.

Lemma energy_unit_weights os : unit_weights os -> energy_of os = kinetic_energy os.
Proof.
  intros U. destruct (energy_compare eq os) as (x & y & -> & -> & ->); auto.
  - intros; congruence.
  - intros k o p t I J. unfold par_penalty.
    destruct (sd_get p (po_weights o)) as [[w|]|] eqn:E; auto.
    rewrite (U k o p w I E). lra.
Qed.

Lemma energy_large_weights os :
  (forall k o p w, In (k, o) os -> sd_get p (po_weights o) = Some (Some w) -> 1 <= w) ->
  energy_of os <= kinetic_energy os.
Proof.
  intros U. destruct (energy_compare Rle os) as (x & y & -> & -> & L).
  - lra.
  - intros; lra.
  - intros k o p t I J. unfold par_penalty. pose proof (sum_squares_nonneg t).
    destruct (sd_get p (po_weights o)) as [[w|]|] eqn:E; try lra.
    pose proof (U k o p w I E). nra.
  - lra.
Qed.

Lemma energy_split os :
  energy_of os = 1 / 2 * (sum_of_norms sum_squares os +
     sum_parameters (fun p t => if String.eqb p "bias" then sum_squares t else 0) os).
Proof.
  unfold energy_of, sum_of_norms, sum_parameters. f_equal.
  induction os as [|(k, o) os IH]; cbn; [lra|]. rewrite !fold_right_app_plus, IH. clear.
  assert (G : fold_right Rplus 0 (map (fun pt => sum_squares (snd pt)) (po_pars o)) =
    fold_right Rplus 0 (map (fun pt => if String.eqb (fst pt) "bias" then 0 else sum_squares (snd pt)) (po_pars o)) +
    fold_right Rplus 0 (map (fun pt => if String.eqb (fst pt) "bias" then sum_squares (snd pt) else 0) (po_pars o))).
  { induction (po_pars o) as [|(p, t) l IH]; cbn; [lra|]. rewrite IH. destruct (String.eqb p "bias"); lra. }
  lra.
Qed.

(** ** When the hook succeeds *)
Lemma run_ok_iff nuc spec calls : Forall args_ok calls ->
  forall data, fst (run_hook nuc spec calls (HRecord data)) = Ok tt <->
    Forall (fun a => only_matrices (h_pars a)) calls.
Proof.
  induction 1 as [|a calls Ha F IH]; intros data; cbn [run_hook].
  - split; [constructor|reflexivity].
  - assert (V : names_ok (pdicts (h_pars a))) by apply Ha.
    pose proof (hook_ok_iff nuc spec a data V) as E.
    pose proof (hook_run nuc spec a data) as R.
    destruct (parameter_evolution_hook nuc spec a (HRecord data)) as ([[]|e], d1) eqn:Q.
    + destruct (compute_parameter_norms nuc spec (h_pars a)); [|discriminate]. injection R as ->.
      rewrite IH. cbn [fst] in E. split.
      * intros; constructor; auto. apply E; reflexivity.
      * intros X; inversion X; auto.
    + cbn [fst] in *. split; [discriminate|]. intros X; inversion X; subst. apply E in H1. discriminate.
Qed.

Lemma hook_no_record nuc spec a : parameter_evolution_hook nuc spec a HOther = (Raise ValueError, HOther).
Proof. reflexivity. Qed.

Lemma norms_raise nuc spec os e : compute_parameter_norms nuc spec os = Raise e -> e = RuntimeError \/ e = IndexError.
Proof.
  unfold compute_parameter_norms. destruct (foldM _ os _) as [(d, ((f, n), s))|e'] eqn:E; [discriminate|].
  cbn [bind]. intros X; injection X as <-.
  revert E. generalize (@nil (string * R), (0, 0, 0)).
  induction os as [|(k, o) os IH]; intros st; cbn [foldM fst snd]; [discriminate|].
  destruct (foldM (norms_of nuc spec k) (po_pars o) st) as [st'|e1] eqn:E1; cbn [bind]; [apply IH|].
  intros X; injection X as <-. clear IH. revert E1. generalize st.
  induction (po_pars o) as [|(p, t) l IH]; intros s0; cbn [foldM]; [discriminate|].
  destruct s0 as (d0, ((f0, n0), q0)). rewrite norms_of_ok.
  destruct (String.eqb p "bias"); cbn [bind]; [apply IH|].
  destruct (negb _); cbn [bind]; [intros X; injection X as <-; auto|].
  destruct (Nat.eqb _ 0); cbn [bind]; [intros X; injection X as <-; auto|]. apply IH.
Qed.

Lemma hook_failure nuc spec a data e d : args_ok a ->
  parameter_evolution_hook nuc spec a (HRecord data) = (Raise e, HRecord d) ->
  (e = RuntimeError \/ e = IndexError) /\
  series d "t" = series data "t" ++ [VNum (h_t a)] /\
  series d "energy" = series data "energy" ++ [VNum (energy_of (h_pars a))] /\
  series d "sum_sqr_frobenius_norm" = series data "sum_sqr_frobenius_norm".
Proof.
  intros A. rewrite hook_run. destruct (compute_parameter_norms _ _ _) as [l|e'] eqn:E; [discriminate|].
  intros X; injection X as <- <-. split; [eapply norms_raise; eauto|].
  assert (G : forall K, dotfree K -> vals K (first_recs a) =
     vals K [("t", VNum (h_t a)); ("energy", VNum (energy_of (h_pars a)))]).
  { intros K F. unfold first_recs. rewrite !vals_app.
    rewrite (vals_none K (par_recs _)).
    2:{ intros k x I EE. subst. apply in_par_recs in I as (b & d & v & t & _ & _ & EE). rewrite EE in F. exact (dotted_not_free _ _ F). }
    rewrite (vals_none K (flat_map _ _)).
    2:{ intros k x I EE. subst. apply in_flat_map in I as ((n, dd) & _ & I). cbn in I.
        apply in_var_recs in I as (b & d & v & t & _ & _ & EE). rewrite EE, kvar_dotted in F. exact (dotted_not_free _ _ F). }
    cbn [app]. rewrite app_nil_r. unfold vals; cbn [filter fst].
    repeat match goal with |- context[String.eqb ?k K] => destruct (String.eqb k K) end; reflexivity. }
  assert (Gs : forall K, dotfree K -> series (fold_left append_to (first_recs a) data) K =
     series data K ++ vals K [("t", VNum (h_t a)); ("energy", VNum (energy_of (h_pars a)))]).
  { intros K F. rewrite series_all, G by exact F. reflexivity. }
  split; [rewrite Gs by (cbn; repeat split; discriminate); reflexivity|].
  split; [rewrite Gs by (cbn; repeat split; discriminate); reflexivity|].
  rewrite Gs by (cbn; repeat split; discriminate). cbn. apply app_nil_r.
Qed.

Lemma linear_matrices os : Forall (fun ko => linear_object (snd ko)) os -> only_matrices os.
Proof.
  intros F k o p t I J N. rewrite Forall_forall in F. specialize (F _ I p t J).
  destruct F as [F|(_ & m & n & ->)]; [contradiction|]. cbn. split; [reflexivity|lia].
Qed.

Lemma sd_get_in {A} k (d : sdict A) v : sd_get k d = Some v -> In (k, v) d.
Proof.
  induction d as [|(k', v') d IH]; cbn; [discriminate|].
  destruct (String.eqb k k') eqn:E; [|auto]. apply String.eqb_eq in E; subst. intros X; injection X as ->. auto.
Qed.

Lemma conv_not_matrices k o os : In (k, o) os -> conv_object o -> ~ only_matrices os.
Proof.
  intros I (t & c1 & c2 & k1 & k2 & G & S) M.
  destruct (M k o "weight" t I (sd_get_in _ _ _ G)) as (L & _); [discriminate|].
  rewrite S in L. discriminate.
Qed.

Lemma linear_calls nuc spec calls data : Forall args_ok calls ->
  Forall (fun a => Forall (fun ko => linear_object (snd ko)) (h_pars a)) calls ->
  fst (run_hook nuc spec calls (HRecord data)) = Ok tt.
Proof.
  intros A F. apply run_ok_iff; auto. eapply Forall_impl; [|exact F]. intros a. apply linear_matrices.
Qed.

Lemma conv_calls nuc spec a data : args_ok a -> (exists k o, In (k, o) (h_pars a) /\ conv_object o) ->
  fst (parameter_evolution_hook nuc spec a (HRecord data)) <> Ok tt.
Proof.
  intros A (k & o & I & C) E. apply hook_ok_iff in E; [|apply A]. eapply conv_not_matrices; eauto.
Qed.

(** ** Instances *)
Definition example_call (t w : R) : hook_args :=
  mkArgs t [("block", [("q1", mkT [1%nat] [t])])] [] [] [] [] []
    [("l1", mkPobj [("weight", mkT [1%nat; 2%nat] [w; 2]); ("bias", mkT [1%nat] [3])] [])].

Definition example_conv : pobj :=
  mkPobj [("weight", mkT [1; 1; 1; 1]%nat [2]); ("bias", mkT [1%nat] [3])] [].
Definition example_conv_call : hook_args := mkArgs 0 [] [] [] [] [] [] [("conv1", example_conv)].

Ltac nodup := cbn; repeat constructor; cbn; intros X; repeat destruct X as [X|X]; try discriminate; exact X.

Lemma no_names : names_ok (@nil (string * sdict (tensor R))).
Proof. split; [constructor|intros ? ? []]. Qed.

Lemma example_call_ok t w : args_ok (example_call t w).
Proof.
  split; [|split].
  - cbn. constructor; [|repeat (constructor; [exact no_names|]); constructor]. split.
    + nodup.
    + intros b d [I|[]]. injection I as <- <-. split; [nodup|].
      intros v [<-|[]]. cbn. repeat split; discriminate.
  - split.
    + nodup.
    + intros b d [I|[]]. injection I as <- <-. split; [nodup|].
      intros v [<-|[<-|[]]]; cbn; repeat split; discriminate.
  - intros k [<-|[]]. split; [cbn; repeat split; discriminate|reflexivity].
Qed.

Lemma example_conv_ok : args_ok example_conv_call.
Proof.
  split; [|split].
  - repeat (constructor; [exact no_names|]); constructor.
  - split.
    + nodup.
    + intros b d [I|[]]. injection I as <- <-. split; [nodup|].
      intros v [<-|[<-|[]]]; cbn; repeat split; discriminate.
  - intros k [<-|[]]. split; [cbn; repeat split; discriminate|reflexivity].
Qed.

Lemma example_conv_object : conv_object example_conv.
Proof. exists (mkT [1; 1; 1; 1]%nat [2]), 1%nat, 1%nat, 1%nat, 1%nat. split; reflexivity. Qed.

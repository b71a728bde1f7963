(** Proofs about the energies: parameter objects as vectors. *)
From Coq Require Import List String Bool Reals Arith Lia Lra.
From Verif Require Import Base BaseFacts Tensor TensorFacts ScdModel ScdProofs ScdProofs2.
From Verif Require Import RealSum EnergyModel EnergySpec.
Import ListNotations.
Open Scope R_scope.

(** ** Filling in entries *)

Definition pars_entries (d : sdict (tensor R)) : list R := flat_map (fun kt => tdata (snd kt)) d.

Lemma entries_cons o p r : entries ((o, p) :: r) = pars_entries (po_pars p) ++ entries r.
Proof.
  unfold entries, parameters, pars_entries. cbn [flat_map snd]. rewrite flat_map_app. f_equal.
  induction (po_pars p) as [|[k t] d IH]; cbn; [reflexivity|]. rewrite IH. reflexivity.
Qed.

Lemma fill_pars_entries d : forall x, List.length x = size_of d -> pars_entries (fill_pars d x) = x.
Proof.
  unfold size_of. induction d as [|[k t] d IH]; intros x L; cbn in *.
  - destruct x; [reflexivity|discriminate].
  - rewrite app_length in L. rewrite IH by (rewrite skipn_length; lia). apply firstn_skipn.
Qed.

Lemma fill_pars_length d : forall x, List.length x = size_of d -> size_of (fill_pars d x) = size_of d.
Proof. intros x L. unfold size_of. fold (pars_entries (fill_pars d x)). rewrite fill_pars_entries; auto. Qed.

Definition pars_layout (a b : sdict (tensor R)) : Prop :=
  Forall2 (fun u v : string * tensor R => fst u = fst v /\ tshape (snd u) = tshape (snd v)) a b.

Definition pars_ok (d : sdict (tensor R)) : Prop := sd_wf d /\ Forall (fun kt => twf (snd kt)) d.

Lemma fill_pars_layout d : forall x, pars_layout d (fill_pars d x).
Proof. unfold pars_layout. induction d as [|[k t] d IH]; intros x; cbn; constructor; auto. Qed.

Lemma layout_keys a b : pars_layout a b -> keys a = keys b.
Proof. unfold keys. induction 1 as [|x y a b [E _] F IH]; cbn; [reflexivity|]. rewrite E, IH. reflexivity. Qed.

Lemma layout_determines a b : pars_layout a b -> Forall (fun kt => twf (snd kt)) a ->
  Forall (fun kt => twf (snd kt)) b -> fill_pars a (pars_entries b) = b.
Proof.
  induction 1 as [|[k t] [k' t'] a b [E1 E2] F IH]; intros Wa Wb; cbn in *; [reflexivity|].
  subst k'. inversion Wa as [|? ? Ha Wa']; subst. inversion Wb as [|? ? Hb Wb']; subst.
  unfold twf in Ha, Hb. cbn in Ha, Hb.
  replace (List.length (tdata t)) with (List.length (tdata t')) by congruence.
  rewrite firstn_app, Nat.sub_diag, firstn_all, skipn_app, Nat.sub_diag, skipn_all. cbn.
  unfold pars_entries in IH. rewrite app_nil_r, IH, E2 by auto. destruct t'; reflexivity.
Qed.

Lemma fill_pars_wf d : forall x, List.length x = size_of d -> Forall (fun kt => twf (snd kt)) d ->
  Forall (fun kt => twf (snd kt)) (fill_pars d x).
Proof.
  unfold size_of. induction d as [|[k t] d IH]; intros x L W; cbn in *; [constructor|].
  rewrite app_length in L. inversion W as [|? ? Ht W']; subst. constructor.
  - unfold twf in *. cbn [snd tdata tshape] in *. rewrite firstn_length. lia.
  - apply IH; auto. rewrite skipn_length. lia.
Qed.

Lemma with_entries_layout os : forall x, same_layout os (with_entries os x).
Proof.
  unfold same_layout. induction os as [|[o p] os IH]; intros x; constructor; cbn [fst snd po_weights po_pars]; auto.
  split; [reflexivity|]. split; [reflexivity|]. apply fill_pars_layout.
Qed.

Lemma with_entries_entries os : forall x, List.length x = List.length (entries os) ->
  entries (with_entries os x) = x.
Proof.
  induction os as [|[o p] os IH]; intros x L.
  - destruct x; [reflexivity|discriminate].
  - cbn [with_entries]. rewrite entries_cons in *. rewrite app_length in L. cbn [po_pars].
    assert (S : List.length (pars_entries (po_pars p)) = size_of (po_pars p)) by reflexivity.
    rewrite fill_pars_entries by (rewrite firstn_length; lia).
    rewrite IH by (rewrite skipn_length; lia). apply firstn_skipn.
Qed.

Lemma sd_wf_keys {A B} (a : sdict A) (b : sdict B) : keys a = keys b -> sd_wf a -> sd_wf b.
Proof. unfold sd_wf. intros ->; auto. Qed.

Lemma same_layout_keys a b : same_layout a b -> keys a = keys b.
Proof. unfold keys. induction 1 as [|x y a b [E _] F IH]; cbn; [reflexivity|]. rewrite E, IH. reflexivity. Qed.

Lemma objects_wf_layout a b : same_layout a b -> objects_wf a ->
  Forall (fun op => Forall (fun kt => twf (snd kt)) (po_pars (snd op))) b -> objects_wf b.
Proof.
  intros L [W F] T. split; [exact (sd_wf_keys _ _ (same_layout_keys _ _ L) W)|].
  clear W. revert F T. induction L as [|x y a b (_ & _ & E) L IH]; intros F T; constructor.
  - inversion F as [|? ? [H1 _] _]; subst. inversion T; subst. split; [|assumption].
    exact (sd_wf_keys _ _ (layout_keys _ _ E) H1).
  - inversion F; inversion T; auto.
Qed.

Lemma with_entries_wf os : forall x, List.length x = List.length (entries os) -> objects_wf os ->
  objects_wf (with_entries os x).
Proof.
  intros x L W. apply (objects_wf_layout os); [apply with_entries_layout|exact W|].
  destruct W as [_ F]. revert x L. induction os as [|[o p] os IH]; intros x L; constructor; cbn [with_entries] in *.
  - inversion F as [|? ? [_ H] _]; subst. cbn [snd po_pars] in *. rewrite entries_cons, app_length in L.
    assert (S : List.length (pars_entries (po_pars p)) = size_of (po_pars p)) by reflexivity.
    apply fill_pars_wf; auto. rewrite firstn_length. lia.
  - inversion F; subst. rewrite entries_cons, app_length in L. apply IH; auto.
    assert (S : List.length (pars_entries (po_pars p)) = size_of (po_pars p)) by reflexivity.
    rewrite skipn_length. lia.
Qed.

Lemma layout_sizes a b : pars_layout a b -> Forall (fun kt => twf (snd kt)) a ->
  Forall (fun kt => twf (snd kt)) b -> size_of a = size_of b.
Proof.
  unfold size_of. induction 1 as [|[k t] [k' t'] a b [_ E2] F IH]; intros Wa Wb; cbn in *; [reflexivity|].
  inversion Wa as [|? ? Ha Wa']; inversion Wb as [|? ? Hb Wb']; subst. rewrite !app_length, IH by auto.
  unfold twf in Ha, Hb. cbn in *. congruence.
Qed.

Lemma same_layout_entries_length a b : same_layout a b -> objects_wf a -> objects_wf b ->
  List.length (entries a) = List.length (entries b).
Proof.
  intros L [_ Fa] [_ Fb]. induction L as [|[o p] [o' p'] a b (_ & _ & E) L IH]; [reflexivity|].
  inversion Fa as [|? ? [_ Ha] Fa']; inversion Fb as [|? ? [_ Hb] Fb']; subst. cbn [snd] in *.
  rewrite !entries_cons, !app_length, IH by auto. f_equal. exact (layout_sizes _ _ E Ha Hb).
Qed.

Lemma same_layout_determines a b : same_layout a b -> objects_wf a -> objects_wf b ->
  with_entries a (entries b) = b.
Proof.
  intros L [_ Fa] [_ Fb]. induction L as [|[o p] [o' p'] a b (E1 & E2 & E) L IH]; [reflexivity|].
  inversion Fa as [|? ? [_ Ha] Fa']; inversion Fb as [|? ? [_ Hb] Fb']; subst. cbn [fst snd] in *. subst o'.
  cbn [with_entries]. rewrite entries_cons.
  pose proof (layout_sizes _ _ E Ha Hb) as S. rewrite S.
  assert (S' : List.length (pars_entries (po_pars p')) = size_of (po_pars p')) by reflexivity.
  rewrite <- S' at 1 2.
  rewrite firstn_app, Nat.sub_diag, firstn_all, skipn_app, Nat.sub_diag, skipn_all. cbn [firstn skipn app].
  rewrite app_nil_r, IH by auto. rewrite (layout_determines _ _ E Ha Hb), E2. destruct p'; reflexivity.
Qed.

Lemma same_layout_sym a b : same_layout a b -> same_layout b a.
Proof.
  unfold same_layout. induction 1 as [|x y a b (E1 & E2 & E3) F IH]; constructor; auto.
  split; [congruence|]. split; [congruence|]. clear -E3.
  induction E3 as [|u v l l' [H1 H2] F IH]; constructor; auto.
Qed.

Lemma pars_layout_trans a b c : pars_layout a b -> pars_layout b c -> pars_layout a c.
Proof.
  unfold pars_layout. intros H. revert c.
  induction H as [|u v l l' [H1 H2] F IH]; intros c Hc; inversion Hc as [|? w ? ? [H3 H4]]; subst; constructor.
  - split; congruence.
  - apply IH; assumption.
Qed.

Lemma same_layout_trans a b c : same_layout a b -> same_layout b c -> same_layout a c.
Proof.
  unfold same_layout. intros H. revert c.
  induction H as [|x y a b (E1 & E2 & E3) F IH]; intros c Hc; inversion Hc as [|? z ? ? (G1 & G2 & G3)]; subst; constructor.
  - split; [congruence|]. split; [congruence|]. exact (pars_layout_trans _ _ _ E3 G3).
  - apply IH; assumption.
Qed.

Lemma same_layout_refl a : same_layout a a.
Proof.
  unfold same_layout. induction a as [|x a IH]; constructor; auto.
  split; [reflexivity|]. split; [reflexivity|].
  induction (po_pars (snd x)); constructor; auto.
Qed.

(** Objects of one layout are determined by their entries. *)
Lemma same_layout_entries_eq a b : same_layout a b -> objects_wf a -> objects_wf b ->
  entries a = entries b -> a = b.
Proof.
  intros L Wa Wb E.
  rewrite <- (same_layout_determines a a (same_layout_refl a) Wa Wa), E.
  apply same_layout_determines; auto.
Qed.

Definition pars_weights (ws : sdict (option R)) (d : sdict (tensor R)) : list R :=
  flat_map (fun kt => repeat (effective_weight ws (fst kt)) (List.length (tdata (snd kt)))) d.

Lemma weights_cons o p r : weights ((o, p) :: r) = pars_weights (po_weights p) (po_pars p) ++ weights r.
Proof. reflexivity. Qed.

Lemma pars_weights_length ws d : List.length (pars_weights ws d) = size_of d.
Proof.
  unfold pars_weights, size_of. induction d as [|[k t] d IH]; cbn; [reflexivity|].
  rewrite !app_length, repeat_length, IH. reflexivity.
Qed.

Lemma weights_length os : List.length (weights os) = List.length (entries os).
Proof.
  induction os as [|[o p] os IH]; [reflexivity|].
  rewrite weights_cons, entries_cons, !app_length, IH, pars_weights_length. reflexivity.
Qed.

Lemma pars_weights_layout ws a b : pars_layout a b -> Forall (fun kt => twf (snd kt)) a ->
  Forall (fun kt => twf (snd kt)) b -> pars_weights ws a = pars_weights ws b.
Proof.
  unfold pars_weights. induction 1 as [|[k t] [k' t'] a b [E1 E2] F IH]; intros Wa Wb; cbn in *; [reflexivity|].
  inversion Wa as [|? ? Ha Wa']; inversion Wb as [|? ? Hb Wb']; subst. rewrite IH by auto.
  unfold twf in *. cbn in *. rewrite Ha, Hb, E2. reflexivity.
Qed.

Lemma same_layout_weights a b : same_layout a b -> objects_wf a -> objects_wf b -> weights a = weights b.
Proof.
  intros L [_ Fa] [_ Fb]. induction L as [|[o p] [o' p'] a b (_ & E2 & E) L IH]; [reflexivity|].
  inversion Fa as [|? ? [_ Ha] Fa']; inversion Fb as [|? ? [_ Hb] Fb']; subst. cbn [snd] in *.
  rewrite !weights_cons, IH, E2 by auto. f_equal. exact (pars_weights_layout _ _ _ E Ha Hb).
Qed.

(** ** The kinetic energy *)

Lemma total_from l : forall s, fold_left Rplus l s = s + total l.
Proof.
  unfold total. induction l as [|a l IH]; intros s; cbn; [lra|]. rewrite IH, (IH (0 + a)). lra.
Qed.

Lemma total_cons a l : total (a :: l) = a + total l.
Proof. unfold total at 1. cbn. rewrite total_from. lra. Qed.

Definition wsquare (p : R * R) : R := fst p * snd p ^ 2.
Definition wdot (ws x : list R) : R := total (map wsquare (combine ws x)).

Lemma total_app a b : total (a ++ b) = total a + total b.
Proof.
  induction a as [|x a IH]; cbn [app]; [unfold total at 2; cbn; lra|]. rewrite !total_cons, IH. lra.
Qed.

Lemma combine_app {A B} (a a' : list A) (b b' : list B) : List.length a = List.length b ->
  combine (a ++ a') (b ++ b') = combine a b ++ combine a' b'.
Proof.
  revert b; induction a as [|x a IH]; intros [|y b] L; try discriminate; cbn; [reflexivity|].
  rewrite IH by (cbn in L; lia). reflexivity.
Qed.

Lemma wdot_app w w' x x' : List.length w = List.length x -> wdot (w ++ w') (x ++ x') = wdot w x + wdot w' x'.
Proof. intros L. unfold wdot. rewrite combine_app, map_app, total_app by exact L. reflexivity. Qed.

Lemma wdot_repeat w x : wdot (repeat w (List.length x)) x = w * total (map (fun y => y ^ 2) x).
Proof.
  unfold wdot. induction x as [|y x IH]; [unfold total; cbn; lra|].
  cbn [List.length repeat combine map]. rewrite !total_cons, IH. unfold wsquare. cbn [fst snd]. lra.
Qed.

Lemma par_penalty_eq ws k t :
  par_penalty ws k t = wdot (repeat (effective_weight ws k) (List.length (tdata t))) (tdata t).
Proof.
  rewrite wdot_repeat. unfold par_penalty, effective_weight, sum_squares.
  destruct (sd_get k ws) as [[w|]|]; lra.
Qed.

Lemma pars_energy ws d : forall e,
  fold_left (fun e kt => e + par_penalty ws (fst kt) (snd kt)) d e = e + wdot (pars_weights ws d) (pars_entries d).
Proof.
  induction d as [|[k t] d IH]; intros e; cbn [fold_left].
  - unfold wdot, total. cbn. lra.
  - rewrite IH. cbn [pars_weights pars_entries flat_map fst snd].
    rewrite wdot_app by apply repeat_length. rewrite par_penalty_eq. unfold pars_weights, pars_entries. lra.
Qed.

Lemma kinetic_wdot os : kinetic_energy os = 1 / 2 * wdot (weights os) (entries os).
Proof.
  unfold kinetic_energy. f_equal.
  assert (G : forall e, fold_left (fun e op =>
     fold_left (fun e kt => e + par_penalty (po_weights (snd op)) (fst kt) (snd kt))
       (po_pars (snd op)) e) os e = e + wdot (weights os) (entries os)).
  { induction os as [|[o p] os IH]; intros e; cbn [fold_left].
    - unfold wdot, total. cbn. lra.
    - rewrite IH. cbn [snd]. rewrite pars_energy, weights_cons, entries_cons.
      rewrite wdot_app by (rewrite pars_weights_length; reflexivity). lra. }
  rewrite G. lra.
Qed.

Lemma total_rsum l : total l = rsum (List.length l) (at_ l).
Proof.
  induction l as [|a l IH]; [reflexivity|]. rewrite total_cons. cbn [List.length]. rewrite rsum_shift, IH. reflexivity.
Qed.

Lemma wdot_rsum w x : List.length w = List.length x ->
  wdot w x = rsum (List.length x) (fun e => at_ w e * at_ x e ^ 2).
Proof.
  intros L. unfold wdot. rewrite total_rsum, map_length, combine_length, L, Nat.min_id.
  apply rsum_ext. intros i Hi. unfold at_.
  rewrite (nth_indep _ 0 (wsquare (0, 0)))
    by (rewrite map_length, combine_length; lia).
  rewrite map_nth, combine_nth by exact L. reflexivity.
Qed.

Lemma kinetic_rsum os :
  kinetic_energy os = 1 / 2 * rsum (List.length (entries os)) (fun e => at_ (weights os) e * at_ (entries os) e ^ 2).
Proof. rewrite kinetic_wdot, wdot_rsum by apply weights_length. reflexivity. Qed.

(** ** Updating all parameters *)

Lemma Forall2_len {A B} (P : A -> B -> Prop) a b : Forall2 P a b -> List.length a = List.length b.
Proof. induction 1; cbn; congruence. Qed.

Lemma sd_set_middle {A} pre k (v w : A) suf : sd_wf (pre ++ (k, w) :: suf) ->
  sd_set k v (pre ++ (k, w) :: suf) = pre ++ (k, v) :: suf.
Proof.
  induction pre as [|[k' u] pre IH]; intros H.
  - cbn. rewrite String.eqb_refl. reflexivity.
  - cbn [app sd_set] in *. apply sd_wf_cons_inv in H as [H Hk].
    assert (L : str_lt k' k).
    { rewrite Forall_forall in Hk. apply Hk. unfold keys. rewrite map_app, in_app_iff. right. left. reflexivity. }
    destruct (String.eqb_spec k k') as [->|N].
    + exfalso. exact (str_lt_irrefl _ L).
    + replace (str_ltb k k') with false.
      * rewrite IH by exact H. reflexivity.
      * symmetry. destruct (str_ltb k k') eqn:E; [|reflexivity]. exfalso.
        exact (str_lt_irrefl _ (str_lt_trans _ _ _ L E)).
Qed.

Lemma sd_get_middle {A} pre k (w : A) suf : sd_wf (pre ++ (k, w) :: suf) ->
  sd_get k (pre ++ (k, w) :: suf) = Some w.
Proof.
  induction pre as [|[k' u] pre IH]; intros H.
  - cbn. rewrite String.eqb_refl. reflexivity.
  - cbn [app sd_get] in *. apply sd_wf_cons_inv in H as [H Hk].
    assert (L : str_lt k' k).
    { rewrite Forall_forall in Hk. apply Hk. unfold keys. rewrite map_app, in_app_iff. right. left. reflexivity. }
    destruct (String.eqb_spec k k') as [->|N]; [exfalso; exact (str_lt_irrefl _ L)|]. apply IH, H.
Qed.

(** One object: [step] replaces the value of one key. *)
Lemma update_pars (step : sdict (tensor R) -> string * tensor R -> result (sdict (tensor R)))
    (G : string * tensor R -> tensor R -> tensor R) d vs :
  Forall2 (fun kt v => forall p, sd_get (fst kt) p = Some (snd kt) ->
             step p (fst kt, v) = Ok (sd_set (fst kt) (G kt v) p)) d vs ->
  forall pre, sd_wf (pre ++ d) ->
  foldM step (combine (keys d) vs) (pre ++ d)
  = Ok (pre ++ map (fun p => (fst (fst p), G (fst p) (snd p))) (combine d vs)).
Proof.
  induction 1 as [|[k t] v d vs H F IH]; intros pre W; cbn.
  - reflexivity.
  - cbn [fst snd] in H. rewrite H by (apply sd_get_middle; exact W). cbn [bind].
    rewrite sd_set_middle by exact W.
    replace (pre ++ (k, G (k, t) v) :: d) with ((pre ++ [(k, G (k, t) v)]) ++ d) by (rewrite <- app_assoc; reflexivity).
    rewrite IH.
    + rewrite <- app_assoc. reflexivity.
    + rewrite <- app_assoc. cbn. eapply sd_wf_keys; [|exact W]. unfold keys. rewrite !map_app. reflexivity.
Qed.

Lemma mapM_lookup {A B C} (h : string * A -> B -> result C) (r : string * A -> B -> C) (D : sdict B) :
  sd_wf D -> forall os ds, Forall2 (fun x d => fst x = fst d /\ h x (snd d) = Ok (r x (snd d))) os ds ->
  Forall (fun d => In d D) ds ->
  mapM (fun x => b <- sd_item (fst x) D ;; h x b) os = Ok (map (fun p => r (fst p) (snd (snd p))) (combine os ds)).
Proof.
  intros W. induction 1 as [|x d os ds [E H] F IH]; intros I; [reflexivity|]. cbn [mapM combine map].
  inversion I as [|? ? I1 I2]; subst.
  assert (G : sd_get (fst x) D = Some (snd d)).
  { rewrite E. apply in_split in I1 as (pre & suf & ->). destruct d as [k b]. apply sd_get_middle. exact W. }
  unfold sd_item at 1. rewrite G. cbn [bind]. rewrite H. cbn [bind]. rewrite IH by exact I2. reflexivity.
Qed.

Lemma split_vals {P : tensor R -> tensor R -> Prop} os : forall g, Forall2 P (parameters os) g ->
  exists vals, g = List.concat vals /\
    Forall2 (fun (op : string * pobj) vs => Forall2 P (map snd (po_pars (snd op))) vs) os vals.
Proof.
  induction os as [|[o p] os IH]; intros g F.
  - inversion F. exists []. split; [reflexivity|constructor].
  - unfold parameters in F. cbn [flat_map] in F. apply Forall2_app_inv_l in F as (g1 & g2 & F1 & F2 & ->).
    destruct (IH g2 F2) as (vals & -> & FV). exists (g1 :: vals). split; [reflexivity|constructor; assumption].
Qed.

Section Update.
Variable step : sdict (option R) -> sdict (tensor R) -> string * tensor R -> result (sdict (tensor R)).
Variable G : sdict (option R) -> string * tensor R -> tensor R -> tensor R.
Variable phi : R -> R -> R -> R.

Hypothesis step_ok : forall ws k t v p, tshape v = tshape t -> twf t -> twf v ->
  sd_get k p = Some t -> step ws p (k, v) = Ok (sd_set k (G ws (k, t) v) p).
Hypothesis G_shape : forall ws k t v, tshape v = tshape t -> twf t -> twf v -> tshape (G ws (k, t) v) = tshape t.
Hypothesis G_data : forall ws k t v, tshape v = tshape t -> twf t -> twf v ->
  tdata (G ws (k, t) v) =
  map (fun xy => phi (effective_weight ws k) (fst xy) (snd xy)) (combine (tdata t) (tdata v)).

Definition updated_pars ws d (vs : list (tensor R)) : sdict (tensor R) :=
  map (fun p => (fst (fst p), G ws (fst p) (snd p))) (combine d vs).

Definition updated_obj (op : string * pobj) (vs : list (tensor R)) : string * pobj :=
  (fst op, mkPobj (updated_pars (po_weights (snd op)) (po_pars (snd op)) vs) (po_weights (snd op))).

Definition good (t v : tensor R) : Prop := tshape v = tshape t /\ twf v.

Definition phi3 (p : R * (R * R)) : R := phi (fst p) (fst (snd p)) (snd (snd p)).

Lemma updated_pars_entries ws d vs : Forall2 good (map snd d) vs -> Forall (fun kt => twf (snd kt)) d ->
  pars_layout d (updated_pars ws d vs) /\ Forall (fun kt => twf (snd kt)) (updated_pars ws d vs) /\
  List.length (flat_map tdata vs) = size_of d /\
  pars_entries (updated_pars ws d vs)
  = map phi3 (combine (pars_weights ws d) (combine (pars_entries d) (flat_map tdata vs))).
Proof.
  unfold updated_pars, size_of. revert vs. induction d as [|[k t] d IH]; intros [|v vs] F W; inversion F as [|? ? ? ? [Hs Hv] F']; subst.
  - repeat split; constructor.
  - inversion W as [|? ? Ht W']; subst. cbn [snd] in Ht.
    destruct (IH vs F' W') as (I1 & I2 & I3 & I4). cbn [combine map fst snd].
    assert (S : List.length (tdata t) = List.length (tdata v)) by (unfold twf in *; congruence).
    assert (Hd : tdata (G ws (k, t) v) = map phi3 (combine (repeat (effective_weight ws k) (List.length (tdata t))) (combine (tdata t) (tdata v)))).
    { rewrite G_data by auto. clear -S. revert S. generalize (tdata v) as b. generalize (tdata t) as a.
      induction a as [|x a IHa]; intros [|y b] L; try discriminate; cbn; [reflexivity|].
      rewrite IHa by (cbn in L; lia). reflexivity. }
    repeat split.
    + constructor; [|exact I1]. cbn. split; [reflexivity|]. symmetry. apply G_shape; auto.
    + constructor; [|exact I2]. cbn. unfold twf. rewrite G_shape, Hd by auto.
      rewrite map_length, !combine_length, repeat_length. unfold twf in *. rewrite <- S, Ht. lia.
    + cbn [flat_map snd]. rewrite !app_length. unfold size_of in I3. lia.
    + cbn [pars_entries pars_weights flat_map fst snd]. unfold pars_entries, pars_weights in I4.
      rewrite (combine_app (tdata t)) by exact S.
      rewrite combine_app by (rewrite repeat_length, combine_length; lia).
      rewrite map_app, Hd, <- I4. reflexivity.
Qed.

Lemma updated_objs_entries os : forall vals,
  Forall2 (fun (op : string * pobj) vs => Forall2 good (map snd (po_pars (snd op))) vs) os vals ->
  Forall (fun op => Forall (fun kt => twf (snd kt)) (po_pars (snd op))) os ->
  let os' := map (fun p => updated_obj (fst p) (snd p)) (combine os vals) in
  same_layout os os' /\ Forall (fun op => Forall (fun kt => twf (snd kt)) (po_pars (snd op))) os' /\
  List.length (flat_map tdata (List.concat vals)) = List.length (entries os) /\
  entries os' = map phi3 (combine (weights os) (combine (entries os) (flat_map tdata (List.concat vals)))).
Proof.
  induction os as [|[o p] os IH]; intros vals F W; inversion F as [|? vs ? vals' F1 F2]; subst; cbv zeta.
  - repeat split; constructor.
  - inversion W as [|? ? W1 W2]; subst. destruct (IH vals' F2 W2) as (I1 & I2 & I3 & I4). cbv zeta in I1, I2, I3, I4.
    cbn [snd] in F1, W1. destruct (updated_pars_entries (po_weights p) (po_pars p) vs F1 W1) as (J1 & J2 & J3 & J4).
    cbn [combine map fst snd List.concat].
    assert (S : List.length (pars_entries (po_pars p)) = List.length (flat_map tdata vs)) by (rewrite J3; reflexivity).
    split; [|split; [|split]].
    + constructor; [|exact I1]. cbn. split; [reflexivity|]. split; [reflexivity|exact J1].
    + constructor; [exact J2|exact I2].
    + rewrite entries_cons, flat_map_app, !app_length. lia.
    + unfold updated_obj at 1. cbn [fst snd]. rewrite !entries_cons. cbn [po_pars]. rewrite J4, I4, weights_cons, flat_map_app.
      rewrite (combine_app (pars_entries (po_pars p))) by exact S.
      rewrite combine_app; [rewrite map_app; reflexivity|].
      rewrite pars_weights_length, combine_length, <- S. unfold size_of, pars_entries. lia.
Qed.

Lemma at_map3 w x y e : List.length w = List.length x -> List.length x = List.length y ->
  (e < List.length x)%nat ->
  at_ (map phi3 (combine w (combine x y))) e = phi (at_ w e) (at_ x e) (at_ y e).
Proof.
  intros L1 L2 He. unfold at_.
  rewrite (nth_indep _ 0 (phi3 (0, (0, 0)))) by (rewrite map_length, !combine_length; lia).
  rewrite map_nth, combine_nth, combine_nth by (rewrite ?combine_length; lia). reflexivity.
Qed.

Lemma combine_snd {A B} (a : list A) (b : list B) : List.length b = List.length a -> map snd (combine a b) = b.
Proof.
  revert b; induction a as [|x a IH]; intros [|y b] L; try discriminate; cbn; [reflexivity|].
  rewrite IH by (cbn in L; lia). reflexivity.
Qed.

Lemma aligned os vals :
  Forall2 (fun (op : string * pobj) vs => Forall2 good (map snd (po_pars (snd op))) vs) os vals ->
  Forall (fun op => sd_wf (po_pars (snd op)) /\ Forall (fun kt => twf (snd kt)) (po_pars (snd op))) os ->
  Forall2 (fun (x : string * pobj) (dd : string * sdict (tensor R)) => fst x = fst dd /\
        (pars <- foldM (step (po_weights (snd x))) (combine (keys (po_pars (snd x))) (map snd (snd dd))) (po_pars (snd x)) ;;
         Ok (fst x, mkPobj pars (po_weights (snd x)))) = Ok (updated_obj x (map snd (snd dd)))) os
    (combine (keys (parameter_dicts os))
       (map (fun p => combine (map (fun k => ("grad_" ++ k)%string) (keys (snd (fst p)))) (snd p))
          (combine (parameter_dicts os) vals))).
Proof.
  induction 1 as [|op vs os vals H FV IH]; intros F; cbn [parameter_dicts map keys combine]; [constructor|].
  inversion F as [|? ? [Fw Ft] F']; subst.
  constructor; [|exact (IH F')].
  cbn [fst snd]. split; [reflexivity|].
  rewrite combine_snd
    by (apply Forall2_len in H; unfold keys; rewrite !map_length; rewrite map_length in H; auto).
  pose proof (update_pars (step (po_weights (snd op))) (G (po_weights (snd op))) (po_pars (snd op)) vs) as U.
  specialize (U ltac:(
    clear -H Ft step_ok; revert vs H; induction (po_pars (snd op)) as [|[k t] l IH]; intros vs H;
    inversion H as [|? v ? vs' [H1 H2] H3]; subst; constructor;
    [cbn; inversion Ft; subst; intros; apply step_ok; auto | inversion Ft; subst; apply IH; auto])).
  specialize (U []). cbn [app] in U. rewrite U by exact Fw. cbn [bind]. reflexivity.
Qed.

(** The whole update: extraction of the gradient and the loop over the objects. *)
Lemma update_objects os g :
  objects_wf os -> Forall2 good (parameters os) g ->
  exists d os', extract_dict_from_tuple_parameter_objects g (parameter_dicts os) "grad_" = Ok d /\
    mapM (fun op =>
      from <- sd_item (fst op) d ;;
      pars <- foldM (step (po_weights (snd op))) (combine (keys (po_pars (snd op))) (map snd from)) (po_pars (snd op)) ;;
      Ok (fst op, mkPobj pars (po_weights (snd op)))) os = Ok os' /\
    same_layout os os' /\ objects_wf os' /\
    forall e, (e < List.length (entries os))%nat ->
      at_ (entries os') e = phi (at_ (weights os) e) (at_ (entries os) e) (at_ (flat_map tdata g) e).
Proof.
  intros [W F] Fg. destruct (split_vals os g Fg) as (vals & -> & FV).
  assert (Wp : sd_wf (parameter_dicts os)).
  { eapply sd_wf_keys; [|exact W]. unfold parameter_dicts, keys. rewrite map_map. reflexivity. }
  assert (Wq : Forall (fun kd => sd_wf (snd kd)) (parameter_dicts os)).
  { unfold parameter_dicts. apply Forall_forall. intros x Hx. apply in_map_iff in Hx as (op & <- & Hop).
    rewrite Forall_forall in F. destruct (F op Hop) as [H _]. cbn. eapply sd_wf_keys; [|exact H].
    unfold keys. rewrite map_map. reflexivity. }
  assert (FL : Forall2 (fun kd v => List.length v = List.length (snd kd)) (parameter_dicts os) vals).
  { clear -FV. unfold parameter_dicts. induction FV as [|op vs os vals H FV IH]; constructor; auto.
    cbn [snd]. rewrite map_length. apply Forall2_len in H. rewrite map_length in H. auto. }
  pose proof (tuple_dicts_gen "grad_" (parameter_dicts os) vals [] [] [] FL Wp Wq ltac:(cbn; tauto)) as E.
  rewrite app_nil_r, !app_nil_l in E. cbn [List.length] in E.
  set (d := combine (keys (parameter_dicts os))
              (map (fun p => combine (map (fun k => ("grad_" ++ k)%string) (keys (snd (fst p)))) (snd p))
                 (combine (parameter_dicts os) vals))) in *.
  exists d, (map (fun p => updated_obj (fst p) (snd p)) (combine os vals)).
  assert (Tw : Forall (fun op => Forall (fun kt => twf (snd kt)) (po_pars (snd op))) os).
  { eapply Forall_impl; [|exact F]. intros a [_ H]. exact H. }
  destruct (updated_objs_entries os vals FV Tw) as (L & T & N & En). cbv zeta in L, T, N, En.
  split.
  { unfold extract_dict_from_tuple_parameter_objects, extract_dict_of_dicts_from_tuple. rewrite E. reflexivity. }
  split.
  { assert (Wd : sd_wf d).
    { eapply sd_wf_keys; [|exact Wp]. unfold d, keys at 3.
      assert (LL : List.length vals = List.length (parameter_dicts os)) by (apply Forall2_len in FL; auto).
      clear -LL. unfold keys. revert vals LL. induction (parameter_dicts os) as [|[k b] l IH]; intros [|v vals] LL; try discriminate; cbn; [reflexivity|].
      f_equal. apply IH. cbn in LL. lia. }
    assert (A : Forall2 (fun (x : string * pobj) dd => fst x = fst dd /\
        (pars <- foldM (step (po_weights (snd x))) (combine (keys (po_pars (snd x))) (map snd (snd dd))) (po_pars (snd x)) ;;
         Ok (fst x, mkPobj pars (po_weights (snd x)))) = Ok (updated_obj x (map snd (snd dd)))) os d).
    { unfold d. apply aligned; [exact FV|exact F]. }
    pose proof (mapM_lookup
       (fun (x : string * pobj) b =>
          pars <- foldM (step (po_weights (snd x))) (combine (keys (po_pars (snd x))) (map snd b)) (po_pars (snd x)) ;;
          Ok (fst x, mkPobj pars (po_weights (snd x))))
       (fun x b => updated_obj x (map snd b)) d Wd os d A ltac:(apply Forall_forall; auto)) as M.
    rewrite M. f_equal. clear -FL. unfold d, keys, parameter_dicts. clear d. revert vals FL.
    induction os as [|op os IH]; intros vals FL; inversion FL as [|? v ? vals' H1 H2]; subst; [reflexivity|].
    cbn [map combine fst snd]. f_equal; [|apply IH; exact H2].
    f_equal. apply combine_snd. cbn [snd] in H1. rewrite !map_length. rewrite map_length in H1. auto. }
  split; [exact L|]. split; [exact (objects_wf_layout os _ L (conj W F) T)|].
  intros e He. rewrite En. apply at_map3; auto; try rewrite weights_length; auto.
Qed.
End Update.

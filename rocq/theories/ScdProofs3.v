(** Proofs about concatenation, deconcatenation, extraction and zero padding. *)
From Coq Require Import List String Arith ZArith Lia Bool Sorting.Sorted.
From Verif Require Import Base BaseFacts Tensor TensorFacts ScdModel ScdSpec ScdProofs ScdProofs2.
Import ListNotations.

(** * Concatenation *)

Lemma keys_set_mem {V} k (v : V) d : sd_wf d -> In k (keys d) -> keys (sd_set k v d) = keys d.
Proof.
  induction d as [|[k0 v0] d IH]; simpl; intros W H; [tauto|].
  apply sd_wf_cons_inv in W as [W F].
  destruct (String.eqb_spec k k0) as [->|Hne]; [reflexivity|].
  destruct H as [H|H]; [congruence|].
  destruct (str_ltb k k0) eqn:E.
  - rewrite Forall_forall in F. exfalso. apply (str_lt_asym k k0 E). apply F; auto.
  - simpl. f_equal. apply IH; auto.
Qed.

Lemma Forall_sd_set {V} (P : string * V -> Prop) k v d :
  P (k, v) -> Forall P d -> Forall P (sd_set k v d).
Proof.
  intros Pk F. induction F as [|[k0 v0] d P0 F IH]; simpl; [auto|].
  destruct (String.eqb k k0); auto. destruct (str_ltb k k0); auto.
Qed.

Lemma cat_first {A} dim (b : sdict (tensor A)) :
  sd_wf b -> foldM (concatenate_step dim) b [] = Ok b.
Proof.
  intro W.
  assert (forall (b acc : sdict (tensor A)), sd_wf (acc ++ b) -> foldM (concatenate_step dim) b acc = Ok (acc ++ b)) as G.
  2: { apply (G b []). exact W. }
  clear. induction b as [|[k t] b IH]; intros acc W; simpl; [rewrite app_nil_r; auto|].
  assert (forall k', In k' (keys acc) -> str_lt k' k) as D.
  { clear IH. induction acc as [|[k0 t0] acc IHa]; simpl; [tauto|].
    cbn [app] in W. apply sd_wf_cons_inv in W as [W F]. intros k' [<-|H]; auto.
    rewrite Forall_forall in F. apply F. unfold keys. rewrite map_app, in_app_iff. right; left; auto. }
  unfold concatenate_step at 1. cbn [fst snd].
  assert (sd_get k acc = None) as ->.
  { apply sd_get_none. intro H. apply (str_lt_irrefl k). auto. }
  cbn [bind]. rewrite sd_set_app_last by auto. rewrite IH.
  - rewrite <- app_assoc. reflexivity.
  - rewrite <- app_assoc. exact W.
Qed.

Lemma cat_inner {A} dim (b : sdict (tensor A)) acc :
  sd_wf acc -> Forall (fun kt => twf (snd kt)) acc -> NoDup (keys b) ->
  (forall k t, In (k, t) b -> exists cur r, sd_get k acc = Some cur /\ tcat dim cur t = Ok r /\ twf r) ->
  exists acc', foldM (concatenate_step dim) b acc = Ok acc' /\ sd_wf acc' /\
    Forall (fun kt => twf (snd kt)) acc' /\ keys acc' = keys acc /\
    (forall k, ~ In k (keys b) -> sd_get k acc' = sd_get k acc) /\
    (forall k t, In (k, t) b -> exists cur r, sd_get k acc = Some cur /\ tcat dim cur t = Ok r /\
       sd_get k acc' = Some r).
Proof.
  revert acc; induction b as [|[k t] b IH]; intros acc W Wf N H.
  - exists acc. simpl. repeat split; auto; simpl; tauto.
  - inversion N as [|? ? Nk N']; subst. cbn [foldM]. unfold concatenate_step at 1. cbn [fst snd].
    destruct (H k t) as [cur [r [E1 [E2 Wr]]]]; [left; auto|]. rewrite E1, E2. cbn [bind].
    assert (In k (keys acc)) as Hk.
    { apply sd_get_in in E1. apply in_map_iff. exists (k, cur); auto. }
    destruct (IH (sd_set k r acc)) as [acc' [E [W' [Wf' [K [O I]]]]]]; auto.
    + apply sd_set_wf; auto.
    + apply Forall_sd_set; auto.
    + intros k' t' Hin. destruct (H k' t') as [cur' [r' [F1 [F2 F3]]]]; [right; auto|].
      exists cur', r'. repeat split; auto. rewrite sd_get_set_other; auto.
      intros ->. apply Nk. apply in_map_iff. exists (k, t'); auto.
    + exists acc'. repeat split; auto.
      * rewrite K. apply keys_set_mem; auto.
      * intros k' Hk'. simpl in Hk'. rewrite O by tauto. apply sd_get_set_other. intros ->; tauto.
      * intros k' t' [Hin|Hin].
        -- injection Hin as <- <-. exists cur, r. repeat split; auto.
           rewrite O by auto. apply sd_get_set_same.
        -- destruct (I k' t' Hin) as [cur' [r' [F1 [F2 F3]]]]. exists cur', r'. repeat split; auto.
           rewrite sd_get_set_other in F1; auto.
           intros ->. apply Nk. apply in_map_iff. exists (k, t'); auto.
Qed.

(** What the concatenation of [done] looks like. *)
Definition cat_inv {A} dim (done : sdict (sdict (tensor A))) (acc : sdict (tensor A)) : Prop :=
  sd_wf acc /\ Forall (fun kt => twf (snd kt)) acc /\
  (forall n b, In (n, b) done -> keys acc = keys b) /\
  forall k tc, sd_get k acc = Some tc ->
    nth_error (tshape tc) dim = Some (offset dim k done) /\
    forall pre n b post, done = pre ++ (n, b) :: post ->
      exists t, sd_get k b = Some t /\
        set_nth dim 0 (tshape tc) = set_nth dim 0 (tshape t) /\
        forall idx, valid_idx (tshape t) idx ->
          tget tc (set_nth dim (nth dim idx 0 + offset dim k pre) idx) = tget t idx.

Lemma offset_app {A} dim k (d1 d2 : sdict (sdict (tensor A))) :
  offset dim k (d1 ++ d2) = offset dim k d1 + offset dim k d2.
Proof. unfold offset. induction d1 as [|[n b] d1 IH]; simpl; [auto|]. rewrite IH; lia. Qed.

Lemma nth_error_nth_some (l : list nat) d : d < List.length l -> nth_error l d = Some (nth d l 0).
Proof. intro H. apply nth_error_nth'; auto. Qed.

Lemma app_snoc_inv {A} (l : list A) x pre y post :
  l ++ [x] = pre ++ y :: post ->
  (post = [] /\ pre = l /\ y = x) \/ (exists post', post = post' ++ [x] /\ l = pre ++ y :: post').
Proof.
  destruct post as [|z post] using rev_ind; intro H.
  - left. apply app_inj_tail in H as [-> ->]. auto.
  - right. exists post. split.
    + f_equal. rewrite app_comm_cons, app_assoc in H. apply app_inj_tail in H as [_ ->]. auto.
    + rewrite app_comm_cons, app_assoc in H. apply app_inj_tail in H as [-> _]. auto.
Qed.

Lemma cat_inv_first {A} dim n (b : sdict (tensor A)) :
  dict_wf b -> (forall k t, In (k, t) b -> dim < List.length (tshape t)) ->
  cat_inv dim [(n, b)] b.
Proof.
  intros [W F] R. repeat split; auto.
  - intros n' b' [H|[]]. injection H as <- <-; auto.
  - unfold offset, extent. simpl. rewrite H. rewrite Nat.add_0_r.
    apply nth_error_nth_some. eapply R. apply sd_get_in; eauto.
  - intros pre n' b' post E.
    destruct pre as [|x pre]; [|destruct pre; discriminate]. injection E as <- <- <-.
    exists tc. repeat split; auto. intros idx V. cbn [offset fold_right]. rewrite Nat.add_0_r.
    rewrite set_nth_nth; auto. rewrite (valid_idx_length _ _ V). eapply R. apply sd_get_in; eauto.
Qed.

Lemma cat_inv_step {A} dim (done : sdict (sdict (tensor A))) acc n b n0 b0 :
  cat_inv dim done acc -> In (n0, b0) done -> dict_wf b ->
  keys b = keys b0 ->
  (forall k t0 t, In (k, t0) b0 -> In (k, t) b ->
     dim < List.length (tshape t) /\ set_nth dim 0 (tshape t0) = set_nth dim 0 (tshape t)) ->
  exists acc', foldM (concatenate_step dim) b acc = Ok acc' /\ cat_inv dim (done ++ [(n, b)]) acc'.
Proof.
  intros [W [F [K I]]] Hin0 [Wb Fb] Kb Ag.
  destruct (cat_inner dim b acc) as [acc' [E [W' [F' [K' [O I']]]]]]; auto.
  - apply sd_wf_NoDup; auto.
  - intros k t Hin.
    assert (In k (keys acc)) as Hk.
    { rewrite (K _ _ Hin0), <- Kb. apply in_map_iff. exists (k, t); auto. }
    destruct (sd_get_keys _ _ Hk) as [cur Ec]. destruct (I _ _ Ec) as [Sd Ip].
    apply in_split in Hin0 as [pre [post Ed]].
    destruct (Ip _ _ _ _ Ed) as [t0 [E0 [S0 _]]].
    destruct (Ag k t0 t) as [Rk Sk]; [apply sd_get_in; auto|auto|].
    rewrite Forall_forall in F, Fb.
    destruct (tcat_ok dim cur t (offset dim k done) (nth dim (tshape t) 0)) as [r [Er [Wr _]]].
    + apply (F (k, cur)). apply sd_get_in; auto.
    + apply (Fb (k, t)); auto.
    + exact Sd.
    + apply nth_error_nth_some; auto.
    + congruence.
    + exists cur, r. auto.
  - exists acc'. split; auto. repeat split; auto.
    + intros n1 b1 Hin. rewrite K'. apply in_app_iff in Hin as [Hin|[Hin|[]]].
      * eapply K; eauto.
      * injection Hin as <- <-. rewrite (K _ _ Hin0). auto.
    + assert (In k (keys b)) as Hk.
      { rewrite Kb, <- (K _ _ Hin0), <- K'. apply sd_get_in in H.
        apply in_map_iff. exists (k, tc); auto. }
      destruct (sd_get_keys _ _ Hk) as [t Et].
      destruct (I' k t (sd_get_in _ _ _ Et)) as [cur [r [E1 [E2 E3]]]].
      rewrite H in E3. injection E3 as <-.
      destruct (tcat_ok_inv _ _ _ _ E2) as [na [nb [Sa [Sb [Sab Sr]]]]].
      rewrite Sr. rewrite nth_error_set_nth_same by (eapply nth_error_lt; eauto).
      destruct (I _ _ E1) as [Sd _]. rewrite Sd in Sa. injection Sa as <-.
      rewrite offset_app. unfold offset at 3. simpl. unfold extent. rewrite Et.
      rewrite (nth_error_nth _ _ 0 Sb). f_equal. lia.
    + intros pre n1 b1 post Ed.
      assert (In k (keys b)) as Hk.
      { rewrite Kb, <- (K _ _ Hin0), <- K'. apply sd_get_in in H.
        apply in_map_iff. exists (k, tc); auto. }
      destruct (sd_get_keys _ _ Hk) as [t Et].
      destruct (I' k t (sd_get_in _ _ _ Et)) as [cur [r [E1 [E2 E3]]]].
      rewrite H in E3. injection E3 as <-.
      destruct (tcat_ok_inv _ _ _ _ E2) as [na [nb [Sa [Sb [Sab Sr]]]]].
      destruct (I _ _ E1) as [Sd Ip]. rewrite Sd in Sa. injection Sa as <-.
      rewrite Forall_forall in F, Fb.
      destruct (tcat_ok dim cur t (offset dim k done) nb) as [r' [Er [Wr [Sr' Gr]]]]; auto.
      { apply (F (k, cur)). apply sd_get_in; auto. }
      { apply (Fb (k, t)). apply sd_get_in; auto. }
      rewrite E2 in Er. injection Er as <-.
      assert (dim < List.length (tshape cur)) as Rc by (eapply nth_error_lt; eauto).
      apply app_snoc_inv in Ed as [[-> [-> Eb]]|[post' [-> Ed]]].
      * injection Eb as -> ->. exists t. split; auto. split.
        { rewrite Sr, set_nth_set_nth. auto. }
        intros idx V.
        assert (nth dim idx 0 < nb) as Hlt by (eapply valid_idx_nth; eauto).
        assert (dim < List.length idx) as Hd.
        { rewrite (valid_idx_length _ _ V). eapply nth_error_lt; eauto. }
        rewrite Gr.
        -- rewrite nth_set_nth_same by auto.
           destruct (Nat.ltb_spec (nth dim idx 0 + offset dim k done) (offset dim k done)); [lia|].
           rewrite set_nth_set_nth.
           replace (nth dim idx 0 + offset dim k done - offset dim k done) with (nth dim idx 0) by lia.
           rewrite set_nth_nth by auto. reflexivity.
        -- rewrite Sr. apply (valid_idx_change _ (tshape t) _ _ (offset dim k done + nb)); auto.
           ++ rewrite set_nth_set_nth. congruence.
           ++ apply nth_error_set_nth_same; auto.
           ++ lia.
      * destruct (Ip _ _ _ _ Ed) as [t1 [F1 [F2 F3]]]. exists t1. split; auto. split.
        { rewrite Sr, set_nth_set_nth. auto. }
        intros idx V.
        assert (nth_error (tshape t1) dim = Some (extent dim k b1)) as Ht1.
        { unfold extent. rewrite F1. apply nth_error_nth_some.
          apply (f_equal (@List.length nat)) in F2. rewrite !set_nth_length in F2. lia. }
        assert (nth dim idx 0 < extent dim k b1) as Hlt by (eapply valid_idx_nth; eauto).
        assert (nth dim idx 0 + offset dim k pre < offset dim k done) as Hlt2.
        { rewrite Ed, offset_app. unfold offset at 3. simpl. lia. }
        assert (dim < List.length idx) as Hd.
        { rewrite (valid_idx_length _ _ V). eapply nth_error_lt; eauto. }
        rewrite Gr.
        -- rewrite nth_set_nth_same by auto.
           apply Nat.ltb_lt in Hlt2. rewrite Hlt2. apply F3; auto.
        -- rewrite Sr. apply (valid_idx_change _ (tshape t1) _ _ (offset dim k done + nb)); auto.
           ++ rewrite set_nth_set_nth. congruence.
           ++ apply nth_error_set_nth_same; auto.
           ++ lia.
Qed.

Lemma cat_fold {A} dim (rest done : sdict (sdict (tensor A))) acc :
  dicts_wf (done ++ rest) -> same_names (done ++ rest) -> agree_off dim (done ++ rest) ->
  done <> [] -> cat_inv dim done acc ->
  exists acc', foldM (fun acc kd => foldM (concatenate_step dim) (snd kd) acc) rest acc = Ok acc' /\
    cat_inv dim (done ++ rest) acc'.
Proof.
  revert done acc; induction rest as [|[n b] rest IH]; intros done acc W S Ag Hd I.
  - exists acc. rewrite app_nil_r. auto.
  - cbn [foldM snd]. destruct done as [|[n0 b0] done]; [congruence|]. clear Hd.
    destruct (cat_inv_step dim ((n0, b0) :: done) acc n b n0 b0 I) as [acc' [E I']].
    + left; auto.
    + destruct W as [_ F]. rewrite Forall_forall in F. apply (F (n, b)). apply in_app_iff; right; left; auto.
    + eapply S; [apply in_app_iff; right; left; reflexivity|left; reflexivity].
    + intros k t0 t H0 H.
      destruct (Ag n0 b0 n b k t0 t) as [R Sh]; auto; [left; auto|apply in_app_iff; right; left; auto|].
      split; auto. apply (f_equal (@List.length nat)) in Sh. rewrite !set_nth_length in Sh. lia.
    + rewrite E. cbn [bind].
      destruct (IH (((n0, b0) :: done) ++ [(n, b)]) acc') as [acc'' [E2 I2]]; auto.
      * rewrite <- app_assoc. exact W.
      * rewrite <- app_assoc. exact S.
      * rewrite <- app_assoc. exact Ag.
      * discriminate.
      * exists acc''. split; auto. rewrite <- app_assoc in I2. exact I2.
Qed.

Lemma concatenate_ok {A} dim (d : sdict (sdict (tensor A))) :
  dicts_wf d -> d <> [] -> same_names d -> agree_off dim d ->
  exists c, concatenate_dict_of_dicts d dim = Ok c /\ cat_inv dim d c.
Proof.
  intros W Hd S Ag. destruct d as [|[n b] d]; [congruence|].
  unfold concatenate_dict_of_dicts. cbn [foldM snd].
  destruct W as [W F]. inversion F as [|? ? Wb F']; subst. cbn [snd] in Wb.
  rewrite cat_first by apply Wb. cbn [bind].
  destruct (cat_fold dim d [(n, b)] b) as [c [E I]]; auto.
  - split; auto.
  - discriminate.
  - apply cat_inv_first; auto. intros k t Hin.
    apply (Ag n b n b k t t); try (left; reflexivity); auto.
  - rewrite E. cbn [bind sd_peek0]. exists c. split; auto.
    destruct I as [_ [_ [K _]]]. pose proof (K n b (or_introl eq_refl)) as Kb.
    apply (f_equal (@List.length string)) in Kb. unfold keys in Kb. rewrite !map_length in Kb.
    rewrite Kb, Nat.eqb_refl. reflexivity.
Qed.

(** * Deconcatenation *)

Definition off_of (k : string) (indx : pdict nat) : nat :=
  match pd_get k indx with Some o => o | None => 0 end.

Lemma pd_get_set_same {V} k (v : V) d : pd_get k (pd_set k v d) = Some v.
Proof.
  unfold pd_get. induction d as [|[k0 v0] d IH]; simpl.
  - rewrite String.eqb_refl; auto.
  - destruct (String.eqb_spec k k0) as [->|H]; simpl.
    + rewrite String.eqb_refl; auto.
    + destruct (String.eqb_spec k k0); congruence.
Qed.

Lemma pd_get_set_other {V} k k' (v : V) d : k <> k' -> pd_get k (pd_set k' v d) = pd_get k d.
Proof.
  intro H. unfold pd_get. induction d as [|[k0 v0] d IH]; simpl.
  - destruct (String.eqb_spec k k'); congruence.
  - destruct (String.eqb_spec k' k0) as [->|H']; simpl.
    + destruct (String.eqb_spec k k0); congruence.
    + destruct (String.eqb_spec k k0); auto.
Qed.

Lemma combine_nil_r {X Y} (l : list X) : combine l (@nil Y) = [].
Proof. destruct l; auto. Qed.

(** One block: [cl] and [b] have the same length; the running offsets are
    [base k]. *)
Lemma decat_inner {A} dim (cl b : sdict (tensor A)) acc indx :
  dim <= 4 -> sd_wf (acc ++ cl) -> List.length cl = List.length b -> NoDup (keys b) ->
  (forall kc tc k t, In ((kc, tc), (k, t)) (combine cl b) ->
     twf tc /\ twf t /\ dim < List.length (tshape t) /\
     set_nth dim 0 (tshape tc) = set_nth dim 0 (tshape t) /\
     off_of k indx + nth dim (tshape t) 0 <= nth dim (tshape tc) 0) ->
  exists r indx', foldM (deconcatenate_step dim) (combine cl b) (acc, indx) = Ok (acc ++ r, indx') /\
    keys r = keys cl /\
    (forall k, off_of k indx' = off_of k indx + extent dim k b) /\
    (forall kc tc k t, In ((kc, tc), (k, t)) (combine cl b) ->
       exists sl, In (kc, sl) r /\ tshape sl = tshape t /\ twf sl /\
         forall idx, valid_idx (tshape t) idx ->
           tget sl idx = tget tc (set_nth dim (nth dim idx 0 + off_of k indx) idx)).
Proof.
  intro Hdim. revert b acc indx; induction cl as [|[kc tc] cl IH]; intros [|[k t] b] acc indx W L N H;
    try discriminate.
  - exists [], indx. simpl. rewrite app_nil_r. repeat split; auto; try tauto.
  - cbn [combine foldM]. unfold deconcatenate_step at 1.
    fold (off_of k indx). destruct (Nat.ltb_spec 4 dim); [lia|].
    inversion N as [|? ? Nk N']; subst.
    destruct (H kc tc k t) as [Wtc [Wt [Rt [St Ot]]]]; [left; auto|].
    unfold list_item. rewrite (nth_error_nth_some _ _ Rt). cbn [bind].
    assert (dim < List.length (tshape tc)) as Rtc.
    { apply (f_equal (@List.length nat)) in St. rewrite !set_nth_length in St. lia. }
    set (nt := nth dim (tshape t) 0) in *.
    destruct (tslice_ok dim (off_of k indx) (off_of k indx + nt) tc (nth dim (tshape tc) 0) Wtc
               (nth_error_nth_some _ _ Rtc)) as [sl [Es [Wsl [Ssl Gsl]]]]; [lia|lia|].
    rewrite Es. cbn [bind].
    assert (tshape sl = tshape t) as Ssl'.
    { rewrite Ssl. replace (off_of k indx + nt - off_of k indx) with nt by lia.
      rewrite <- (set_nth_set_nth dim nt 0 (tshape tc)), St, set_nth_set_nth.
      unfold nt. apply set_nth_nth. auto. }
    rewrite sd_set_app_last.
    2: { intros k' Hk'. clear - W Hk'. induction acc as [|[k0 t0] acc IHa]; [destruct Hk'|].
         cbn [app] in W. apply sd_wf_cons_inv in W as [W F]. destruct Hk' as [<-|Hk']; auto.
         rewrite Forall_forall in F. apply F. unfold keys. rewrite map_app, in_app_iff.
         right; left; auto. }
    assert (forall k', k' <> k -> off_of k' (pd_set k (off_of k indx + nt) indx) = off_of k' indx) as Oo.
    { intros k' Hk'. unfold off_of at 1. rewrite pd_get_set_other by auto. reflexivity. }
    assert (forall k' x, In (k', x) b -> k' <> k) as Nb.
    { intros k' x Hx ->. apply Nk. apply in_map_iff. exists (k, x); auto. }
    destruct (IH b (acc ++ [(kc, sl)]) (pd_set k (off_of k indx + nt) indx))
      as [r [indx' [E [Kr [Or Ir]]]]]; auto.
    + clear - W. unfold sd_wf, keys in *. rewrite <- app_assoc. rewrite !map_app in *. exact W.
    + intros kc' tc' k' t' Hin. destruct (H kc' tc' k' t') as [B1 [B2 [B3 [B4 B5]]]]; [right; auto|].
      repeat split; auto. rewrite Oo; auto. eapply Nb. eapply in_combine_r; eauto.
    + exists ((kc, sl) :: r), indx'. split; [|split; [|split]].
      * rewrite E. rewrite <- app_assoc. reflexivity.
      * unfold keys in *. simpl. congruence.
      * intro k'. rewrite Or. unfold extent. cbn [sd_get].
        destruct (String.eqb_spec k' k) as [->|Hne].
        -- unfold off_of at 1. rewrite pd_get_set_same. fold nt.
           assert (sd_get k b = None) as -> by (apply sd_get_none; auto). lia.
        -- rewrite Oo by auto. reflexivity.
      * intros kc' tc' k' t' [Hin|Hin].
        -- injection Hin as <- <- <- <-. exists sl. split; [left; auto|].
           split; auto. split; auto. intros idx V. apply Gsl. rewrite Ssl'. auto.
        -- destruct (Ir kc' tc' k' t' Hin) as [sl' [I1 [I2 [I3 I4]]]].
           exists sl'. split; [right; auto|]. split; auto. split; auto.
           intros idx V. rewrite I4 by auto. rewrite Oo; auto.
           eapply Nb. eapply in_combine_r; eauto.
Qed.

Definition decat_post {A} dim (cl : sdict (tensor A)) (pre : sdict (sdict (tensor A)))
    (b rb : sdict (tensor A)) : Prop :=
  keys rb = keys cl /\
  forall kc tc k t, In ((kc, tc), (k, t)) (combine cl b) ->
    exists sl, In (kc, sl) rb /\ tshape sl = tshape t /\ twf sl /\
      forall idx, valid_idx (tshape t) idx ->
        tget sl idx = tget tc (set_nth dim (nth dim idx 0 + offset dim k pre) idx).

Lemma decat_fold {A} dim (cl : sdict (tensor A)) (rest done : sdict (sdict (tensor A))) acc indx :
  dim <= 4 -> sd_wf cl -> Forall (fun kt => twf (snd kt)) cl ->
  dicts_wf (done ++ rest) ->
  (forall n b, In (n, b) rest -> List.length cl = List.length b) ->
  (forall n b kc tc k t, In (n, b) rest -> In ((kc, tc), (k, t)) (combine cl b) ->
     dim < List.length (tshape t) /\ set_nth dim 0 (tshape tc) = set_nth dim 0 (tshape t) /\
     nth dim (tshape tc) 0 = offset dim k (done ++ rest)) ->
  (forall k, off_of k indx = offset dim k done) ->
  keys acc = keys done ->
  (forall pre n b post, done = pre ++ (n, b) :: post ->
     exists rb, In (n, rb) acc /\ decat_post dim cl pre b rb) ->
  exists r indx', foldM (deconcatenate_block cl dim) rest (acc, indx) = Ok (r, indx') /\
    keys r = keys (done ++ rest) /\
    (forall pre n b post, done ++ rest = pre ++ (n, b) :: post ->
     exists rb, In (n, rb) r /\ decat_post dim cl pre b rb).
Proof.
  intros Hdim Wcl Fcl. revert done acc indx.
  induction rest as [|[n b] rest IH]; intros done acc indx W L H Ho K I.
  - exists acc, indx. rewrite app_nil_r. auto.
  - cbn [foldM]. unfold deconcatenate_block at 1. cbn [fst snd].
    assert (dict_wf b) as [Wb Fb].
    { destruct W as [_ F]. rewrite Forall_forall in F. apply (F (n, b)).
      apply in_app_iff; right; left; auto. }
    destruct (decat_inner dim cl b [] indx) as [r [indx' [E [Kr [Or Ir]]]]]; auto.
    + apply (L n b). left; auto.
    + apply sd_wf_NoDup; auto.
    + intros kc tc k t Hin. destruct (H n b kc tc k t) as [B1 [B2 B3]]; [left; auto|auto|].
      rewrite Forall_forall in Fcl, Fb.
      split; [apply (Fcl (kc, tc)); eapply in_combine_l; eauto|].
      split; [apply (Fb (k, t)); eapply in_combine_r; eauto|].
      split; auto. split; auto. rewrite Ho, B3, offset_app. unfold offset at 3. simpl.
      assert (extent dim k b = nth dim (tshape t) 0) as ->; [|lia].
      unfold extent. rewrite (sd_in_get k t b Wb); auto. eapply in_combine_r; eauto.
    + rewrite E. cbn [bind app].
      assert (forall k', In k' (keys acc) -> str_lt k' n) as D.
      { rewrite K. destruct W as [W _]. clear - W.
        induction done as [|[n0 b0] done IHd]; simpl; [tauto|].
        cbn [app] in W. apply sd_wf_cons_inv in W as [W F]. intros k' [<-|H]; auto.
        rewrite Forall_forall in F. apply F. unfold keys. rewrite map_app, in_app_iff.
        right; left; auto. }
      rewrite sd_set_app_last by auto.
      destruct (IH (done ++ [(n, b)]) (acc ++ [(n, r)]) indx') as [r' [indx'' [E' [K' I']]]].
      * rewrite <- app_assoc. exact W.
      * intros n' b' Hin. apply (L n' b'). right; auto.
      * intros n' b' kc tc k t Hin Hc. rewrite <- app_assoc. apply (H n' b' kc); auto. right; auto.
      * intro k. rewrite Or, Ho, offset_app. unfold offset at 3. simpl. lia.
      * unfold keys in *. rewrite !map_app. simpl. congruence.
      * intros pre n' b' post Ed. apply app_snoc_inv in Ed as [[-> [-> Eb]]|[post' [-> Ed]]].
        -- injection Eb as -> ->. exists r. split; [apply in_app_iff; right; left; auto|].
           split; auto. intros kc tc k t Hc. destruct (Ir kc tc k t Hc) as [sl [I1 [I2 [I3 I4]]]].
           exists sl. split; auto. split; auto. split; auto. intros idx V.
           rewrite I4 by auto. rewrite Ho. reflexivity.
        -- destruct (I _ _ _ _ Ed) as [rb [R1 R2]]. exists rb. split; auto.
           apply in_app_iff; auto.
      * exists r', indx''. rewrite <- app_assoc in K', I'. split; auto.
Qed.

Lemma combine_same {V} (c b : sdict V) kc tc k t :
  keys c = keys b -> In ((kc, tc), (k, t)) (combine c b) -> kc = k.
Proof.
  revert b; induction c as [|[k1 t1] c IH]; intros [|[k2 t2] b] K H; try destruct H; try discriminate.
  - injection H as <- <- <- <-. unfold keys in K. simpl in K. congruence.
  - unfold keys in K. simpl in K. injection K as _ K. eapply IH; eauto.
Qed.

Lemma in_combine_of {V W} (c : sdict V) (b : sdict W) k t :
  keys c = keys b -> In (k, t) b -> exists tc, In ((k, tc), (k, t)) (combine c b).
Proof.
  revert b; induction c as [|[k1 t1] c IH]; intros [|[k2 t2] b] K H; try destruct H; try discriminate.
  - injection H as <- <-. unfold keys in K. simpl in K. injection K as -> _. exists t1. left; auto.
  - unfold keys in K. simpl in K. injection K as _ K. destruct (IH _ K H) as [tc Hc].
    exists tc. right; auto.
Qed.

Lemma keys_length {V W} (c : sdict V) (b : sdict W) : keys c = keys b -> List.length c = List.length b.
Proof.
  intro K. apply (f_equal (@List.length string)) in K. unfold keys in K. rewrite !map_length in K. auto.
Qed.

(** Deconcatenating a dictionary whose tensors have the concatenated shapes (e.g.
    the right-hand side computed from concatenated states, possibly under
    different names). *)
Lemma deconcatenate_ok {A} dim (cl : sdict (tensor A)) (d : sdict (sdict (tensor A))) :
  dim <= 4 -> dict_wf cl -> dicts_wf d ->
  (forall n b, In (n, b) d -> List.length cl = List.length b) ->
  (forall n b kc tc k t, In (n, b) d -> In ((kc, tc), (k, t)) (combine cl b) ->
     dim < List.length (tshape t) /\ set_nth dim 0 (tshape tc) = set_nth dim 0 (tshape t) /\
     nth dim (tshape tc) 0 = offset dim k d) ->
  exists r, deconcatenate cl d dim = Ok r /\ keys r = keys d /\
    (forall pre n b post, d = pre ++ (n, b) :: post ->
     exists rb, In (n, rb) r /\ decat_post dim cl pre b rb).
Proof.
  intros Hdim [W1 F1] W L H. unfold deconcatenate.
  destruct (decat_fold dim cl d [] [] []) as [r [indx [E [K I]]]]; auto.
  - intros pre n b post Ed. destruct pre; discriminate.
  - rewrite E. cbn [bind]. exists r. auto.
Qed.

Lemma concatenate_deconcatenate {A} dim (d : sdict (sdict (tensor A))) :
  dim <= 4 -> dicts_wf d -> d <> [] -> same_names d -> agree_off dim d ->
  exists c, concatenate_dict_of_dicts d dim = Ok c /\ cat_inv dim d c /\ deconcatenate c d dim = Ok d.
Proof.
  intros Hdim W Hd S Ag. destruct (concatenate_ok dim d W Hd S Ag) as [c [E I]].
  exists c. split; auto. split; auto. destruct I as [Wc [Fc [Kc Ic]]].
  destruct (deconcatenate_ok dim c d Hdim) as [r [Er [Kr Ir]]]; auto.
  - split; auto.
  - intros n b Hin. apply keys_length. eapply Kc; eauto.
  - intros n b kc tc k t Hin Hc.
    assert (kc = k) as -> by exact (combine_same c b kc tc k t (Kc _ _ Hin) Hc).
    assert (sd_get k c = Some tc) as G by (apply sd_in_get; auto; eapply in_combine_l; eauto).
    destruct (Ic _ _ G) as [Sd Ip]. destruct (in_split _ _ Hin) as [pre [post Ed]].
    destruct (Ip _ _ _ _ Ed) as [t' [G' [S' _]]].
    assert (t' = t) as ->.
    { assert (sd_get k b = Some t) as G2; [|congruence]. apply sd_in_get.
      - destruct W as [_ F]. rewrite Forall_forall in F. apply (F (n, b) Hin).
      - eapply in_combine_r; eauto. }
    split; [|split]; auto.
    + apply (Ag n b n b k t t); auto; eapply in_combine_r; eauto.
    + apply nth_error_nth; auto.
  - rewrite Er. f_equal. destruct W as [W F].
    assert (sd_wf r) as Wr by (unfold sd_wf; rewrite Kr; auto).
    apply sd_ext; auto. intro n.
    destruct (sd_get n d) as [b|] eqn:Gb.
    + apply sd_get_in in Gb. destruct (in_split _ _ Gb) as [pre [post Ed]].
      destruct (Ir _ _ _ _ Ed) as [rb [R1 [Kb Rb]]].
      apply (sd_in_get _ _ _ Wr) in R1. rewrite R1. f_equal.
      assert (dict_wf b) as [Wb Fb] by (rewrite Forall_forall in F; apply (F (n, b) Gb)).
      assert (sd_wf rb) as Wrb by (unfold sd_wf; rewrite Kb; auto).
      apply sd_ext; auto. intro k. destruct (sd_get k b) as [t|] eqn:Gt.
      * apply sd_get_in in Gt. destruct (in_combine_of c b k t (Kc _ _ Gb) Gt) as [tc Hc].
        destruct (Rb _ _ _ _ Hc) as [sl [I1 [I2 [I3 I4]]]].
        apply (sd_in_get _ _ _ Wrb) in I1. rewrite I1. f_equal.
        assert (sd_get k c = Some tc) as G by (apply sd_in_get; auto; eapply in_combine_l; eauto).
        destruct (Ic _ _ G) as [_ Ip]. destruct (Ip _ _ _ _ Ed) as [t' [G' [_ G3]]].
        apply (sd_in_get _ _ _ Wb) in Gt. rewrite Gt in G'. injection G' as <-.
        apply tensor_ext; auto.
        -- rewrite Forall_forall in Fb. apply (Fb (k, t)). apply sd_get_in; auto.
        -- intros idx V. rewrite I2 in V. rewrite I4 by auto. apply G3; auto.
      * apply sd_get_none in Gt. apply sd_get_none. rewrite Kb, (Kc _ _ Gb). auto.
    + apply sd_get_none in Gb. apply sd_get_none. rewrite Kr. auto.
Qed.

(** * What concatenation does check *)

Lemma concat_step_keys {A} dim (b : sdict (tensor A)) acc acc' :
  sd_wf acc -> foldM (concatenate_step dim) b acc = Ok acc' ->
  sd_wf acc' /\ (forall k, In k (keys acc') <-> In k (keys acc) \/ In k (keys b)).
Proof.
  revert acc; induction b as [|[k t] b IH]; intros acc W H.
  - injection H as <-. split; auto. simpl. tauto.
  - cbn [foldM] in H. apply bind_ok in H as [acc1 [H1 H]].
    assert (exists v, acc1 = sd_set k v acc) as [v ->].
    { unfold concatenate_step in H1. cbn [fst snd] in H1. destruct (sd_get k acc).
      - destruct (tcat dim t0 t); [|discriminate]. injection H1 as <-; eauto.
      - injection H1 as <-; eauto. }
    destruct (IH _ (sd_set_wf k v acc W) H) as [W' K]. split; auto.
    intro k'. rewrite K. simpl. split.
    + intros [Hk|Hk]; auto. apply keys_set in Hk as [->|Hk]; auto.
    + intros [Hk|[<-|Hk]]; auto; left; apply keys_set_conv; auto.
Qed.

Lemma concat_fold_keys {A} dim (d : sdict (sdict (tensor A))) acc acc' :
  sd_wf acc -> foldM (fun acc kd => foldM (concatenate_step dim) (snd kd) acc) d acc = Ok acc' ->
  sd_wf acc' /\
  (forall k, In k (keys acc') <-> In k (keys acc) \/ exists n b, In (n, b) d /\ In k (keys b)).
Proof.
  revert acc; induction d as [|[n b] d IH]; intros acc W H.
  - injection H as <-. split; auto. intro k. split; auto. intros [Hk|[n [b [[] _]]]]; auto.
  - cbn [foldM snd] in H. apply bind_ok in H as [acc1 [H1 H]].
    destruct (concat_step_keys _ _ _ _ W H1) as [W1 K1].
    destruct (IH _ W1 H) as [W' K]. split; auto. intro k. rewrite K, K1. split.
    + intros [[Hk|Hk]|[n' [b' [Hin Hk]]]]; auto.
      * right. exists n, b. split; auto. left; auto.
      * right. exists n', b'. split; auto. right; auto.
    + intros [Hk|[n' [b' [[Hin|Hin] Hk]]]]; auto.
      * injection Hin as <- <-. auto.
      * right. exists n', b'. auto.
Qed.

Lemma sorted_same_set (l1 l2 : list string) :
  StronglySorted str_lt l1 -> StronglySorted str_lt l2 ->
  (forall k, In k l1 <-> In k l2) -> l1 = l2.
Proof.
  intros S1 S2 H.
  assert (forall l, keys (map (fun k : string => (k, tt)) l) = l) as KK.
  { intro l. unfold keys. rewrite map_map. simpl. apply map_id. }
  rewrite <- (KK l1), <- (KK l2). f_equal.
  apply sd_ext; unfold sd_wf; rewrite ?KK; auto.
  intro k.
  assert (forall l k, sd_get k (map (fun k : string => (k, tt)) l) = if in_dec string_dec k l then Some tt else None) as G.
  { clear. induction l as [|a l IH]; intro k; simpl; auto.
    destruct (String.eqb_spec k a) as [->|Hne].
    - destruct (string_dec a a); [auto|congruence].
    - rewrite IH. destruct (string_dec a k); [congruence|]. destruct (in_dec string_dec k l); auto. }
  rewrite !G. destruct (in_dec string_dec k l1) as [i|i]; destruct (in_dec string_dec k l2) as [j|j]; auto.
  - exfalso; apply j, H, i.
  - exfalso; apply i, H, j.
Qed.

Lemma concatenate_names {A} dim (d : sdict (sdict (tensor A))) c n0 b0 :
  Forall (fun kd => sd_wf (snd kd)) d -> nth_error d 0 = Some (n0, b0) ->
  concatenate_dict_of_dicts d dim = Ok c ->
  keys c = keys b0 /\ forall n b k, In (n, b) d -> In k (keys b) -> In k (keys b0).
Proof.
  intros F Hd H. unfold concatenate_dict_of_dicts in H. apply bind_ok in H as [acc [H1 H]].
  destruct d as [|[n b] d]; [discriminate|]. injection Hd as -> ->.
  cbn [sd_peek0 bind] in H.
  destruct (Nat.eqb_spec (List.length acc) (List.length b0)) as [L|]; [|discriminate].
  injection H as <-.
  destruct (concat_fold_keys _ _ _ _ (sd_wf_nil (A := tensor A)) H1) as [W K].
  assert (incl (keys b0) (keys acc)) as I1.
  { intros k Hk. apply K. right. exists n0, b0. split; auto. left; auto. }
  inversion F as [|? ? Wb F']; subst. cbn [snd] in Wb.
  assert (incl (keys acc) (keys b0)) as I2.
  { apply NoDup_length_incl; auto.
    - apply sd_wf_NoDup; auto.
    - unfold keys. rewrite !map_length. lia. }
  split.
  - apply sorted_same_set; auto. intro k; split; auto.
  - intros n b k Hin Hk. apply I2, K. right. exists n, b; auto.
Qed.

Lemma concatenate_foreign_name {A} dim (d : sdict (sdict (tensor A))) n0 b0 n b k :
  Forall (fun kd => sd_wf (snd kd)) d -> nth_error d 0 = Some (n0, b0) ->
  In (n, b) d -> In k (keys b) -> ~ In k (keys b0) ->
  concatenate_dict_of_dicts d dim = Raise ValueError.
Proof.
  intros F Hd Hin Hk Hn.
  destruct (concatenate_dict_of_dicts d dim) as [c|e] eqn:E.
  - exfalso. apply Hn. eapply concatenate_names; eauto.
  - unfold concatenate_dict_of_dicts in E.
    destruct (foldM (fun acc kd => foldM (concatenate_step dim) (snd kd) acc) d []) as [acc|e'] eqn:E1.
    + cbn [bind] in E. destruct d as [|[n' b'] d]; [discriminate|]. cbn [sd_peek0 bind] in E.
      destruct (_ =? _); congruence.
    + cbn [bind] in E. injection E as <-. f_equal.
      assert (forall (b : sdict (tensor A)) acc e, foldM (concatenate_step dim) b acc = Raise e -> e = ValueError) as G.
      { clear. induction b as [|[k t] b IH]; intros acc e H; [discriminate|].
        cbn [foldM] in H. unfold concatenate_step at 1 in H. cbn [fst snd] in H.
        destruct (sd_get k acc).
        - destruct (tcat dim t0 t).
          + eapply IH; eauto.
          + cbn [bind] in H. congruence.
        - eapply IH; eauto. }
      revert E1. generalize (@nil (string * tensor A)). clear - G.
      induction d as [|[n b] d IH]; intros acc H; [discriminate|].
      cbn [foldM snd] in H. destruct (foldM (concatenate_step dim) b acc) eqn:E.
      * eapply IH; eauto.
      * cbn [bind] in H. injection H as <-. eapply G; eauto.
Qed.

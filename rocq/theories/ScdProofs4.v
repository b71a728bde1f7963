(** Proofs about key extraction, zero padding and the alignment of the
    right-hand side vector. *)
From Coq Require Import List String Arith ZArith Lia Bool Sorting.Sorted.
From Verif Require Import Base BaseFacts Tensor TensorFacts ScdModel ScdSpec ScdProofs ScdProofs2
  ScdProofs3.
Import ListNotations.

(** * Extracting a key *)

Definition only {A} (key : string) (b : sdict (tensor A)) : sdict (tensor A) :=
  match sd_get key b with Some t => [(key, t)] | None => [] end.

Lemma extract_key_spec {A} (d : sdict (sdict (tensor A))) key :
  sd_wf d ->
  extract_key d key =
  match d with
  | [(_, b)] => match sd_get key b with
                | Some t => Ok (OneTensor t)
                | None => Raise IndexError
                end
  | _ => Ok (ManyBlocks (map (fun kd => (fst kd, only key (snd kd))) d))
  end.
Proof.
  intro W. unfold extract_key.
  change (fold_left (fun ret kd => sd_set (fst kd)
       match sd_get key (snd kd) with Some t => sd_set key t [] | None => [] end ret) d [])
    with (fold_left (fun ret kd => sd_set (fst kd) (only key (snd kd)) ret) d []).
  rewrite (sd_rebuild (fun kd => only key (snd kd)) d W). rewrite map_length.
  destruct d as [|[n b] [|x d]]; try reflexivity.
  cbn [List.length Nat.eqb map fst snd sd_peek0 bind]. unfold only.
  destruct (sd_get key b); reflexivity.
Qed.

(** * Zero padding *)

Lemma tfill_wf {A} (z : A) s : twf (tfill z s).
Proof. unfold twf, tfill; simpl. apply repeat_length. Qed.

Section Zero.
Context {A : Type} (zero : A).

Definition zero_like (sd dd : nat) (sample : list nat) (kt : string * tensor A) : tensor A :=
  tfill zero (set_nth dd (nth sd (tshape (snd kt)) 0) sample).

Lemma zero_data_fold sd dd (st : sdict (tensor A)) acc sz sample :
  (forall k t, In (k, t) st -> sd < List.length (tshape t)) ->
  set_nth dd 0 sz = set_nth dd 0 sample -> dd < List.length sample ->
  exists sz', set_nth dd 0 sz' = set_nth dd 0 sample /\
  foldM (zero_data_step zero sd dd) st (acc, sz)
  = Ok (fold_left (fun a kt => sd_set (fst kt) (zero_like sd dd sample kt) a) st acc, sz').
Proof.
  revert acc sz; induction st as [|[k t] st IH]; intros acc sz R E L.
  - exists sz. auto.
  - assert (dd < List.length sz) as Lz.
    { apply (f_equal (@List.length nat)) in E. rewrite !set_nth_length in E. lia. }
    assert (set_nth dd (nth sd (tshape t) 0) sz = set_nth dd (nth sd (tshape t) 0) sample) as E'.
    { rewrite <- (set_nth_set_nth dd _ 0 sz), E, set_nth_set_nth. reflexivity. }
    cbn [foldM]. unfold zero_data_step at 1. cbn [fst snd]. unfold list_item.
    rewrite (nth_error_nth_some _ _ (R k t (or_introl eq_refl))). cbn [bind].
    unfold list_set. apply Nat.ltb_lt in Lz. rewrite Lz. cbn [bind].
    destruct (IH (sd_set k (zero_like sd dd sample (k, t)) acc)
                 (set_nth dd (nth sd (tshape t) 0) sz)) as [sz' [E1 E2]]; auto.
    + intros k' t' H. apply (R k' t'). right; auto.
    + rewrite set_nth_set_nth. exact E.
    + exists sz'. split; auto. cbn [fold_left fst]. rewrite <- E2.
      unfold zero_like. cbn [snd]. rewrite E'. reflexivity.
Qed.

Lemma zero_data_ok (st : sdict (tensor A)) data sample sd dd :
  sd_wf st -> (forall k t, In (k, t) st -> sd < List.length (tshape t)) ->
  extract_size_from_dict_of_dicts data = Ok sample -> dd < List.length sample ->
  zero_data_dict_matching zero st data sd dd
  = Ok (map (fun kt => (fst kt, zero_like sd dd sample kt)) st).
Proof.
  intros W R E L. unfold zero_data_dict_matching. rewrite E. cbn [bind].
  destruct (zero_data_fold sd dd st [] sample sample R eq_refl L) as [sz' [_ E2]].
  rewrite E2. cbn [bind]. rewrite (sd_rebuild (zero_like sd dd sample) st W). reflexivity.
Qed.

Lemma zero_data_concatenates (st : sdict (tensor A)) data sample sd dd name :
  dict_wf st -> (forall k t, In (k, t) st -> sd < List.length (tshape t)) ->
  dicts_wf data ->
  extract_size_from_dict_of_dicts data = Ok sample -> dd < List.length sample ->
  (forall n b, In (n, b) data -> keys b = keys st) ->
  (forall n b k t, In (n, b) data -> In (k, t) b ->
     set_nth dd 0 (tshape t) = set_nth dd 0 sample) ->
  ~ In name (keys data) ->
  exists z r c, zero_data_dict_matching zero st data sd dd = Ok z /\
    merge_dict (Some z) (Some data) name = Ok r /\
    concatenate_dict_of_dicts r dd = Ok c.
Proof.
  intros [Ws Fs] R [Wd Fd] E L K S N.
  rewrite (zero_data_ok st data sample sd dd Ws R E L).
  set (z := map (fun kt => (fst kt, zero_like sd dd sample kt)) st).
  assert (keys z = keys st) as Kz by (unfold z, keys; rewrite map_map; reflexivity).
  assert (dict_wf z) as Wz.
  { split; [unfold sd_wf; rewrite Kz; auto|]. unfold z. apply Forall_forall. intros x Hx.
    apply in_map_iff in Hx as [y [<- _]]. apply tfill_wf. }
  destruct (merge_ok (Some z) (Some data) name) as [r [Er [Wr [Gn Go]]]].
  { intros dd' H. injection H as <-. split; auto. split; auto. apply dicts_wf_inner; split; auto. }
  assert (forall n b, In (n, b) r -> (n = name /\ b = z) \/ In (n, b) data) as Cases.
  { intros n b H. apply (sd_in_get _ _ _ Wr) in H. destruct (String.eqb_spec n name) as [->|Hne].
    - left. rewrite Gn in H. injection H as <-. auto.
    - right. rewrite Go in H by auto. apply sd_get_in; auto. }
  assert (forall n b, In (n, b) r -> keys b = keys st) as Kr.
  { intros n b H. destruct (Cases n b H) as [[_ ->]|H']; auto. eapply K; eauto. }
  assert (forall n b k t, In (n, b) r -> In (k, t) b ->
            set_nth dd 0 (tshape t) = set_nth dd 0 sample) as Sr.
  { intros n b k t H Ht. destruct (Cases n b H) as [[_ ->]|H']; eauto.
    unfold z in Ht. apply in_map_iff in Ht as [y [Ey _]]. injection Ey as _ <-.
    unfold zero_like, tfill. simpl. apply set_nth_set_nth. }
  destruct (concatenate_ok dd r) as [c [Ec _]].
  - split; auto. apply Forall_forall. intros [n b] H. simpl.
    destruct (Cases n b H) as [[_ ->]|H']; auto. rewrite Forall_forall in Fd. apply (Fd _ H').
  - intros ->. discriminate.
  - intros n1 b1 n2 b2 H1 H2. rewrite (Kr _ _ H1), (Kr _ _ H2). reflexivity.
  - intros n1 b1 n2 b2 k t1 t2 H1 H2 H3 H4. rewrite (Sr _ _ _ _ H1 H3), (Sr _ _ _ _ H2 H4).
    split; auto. specialize (Sr _ _ _ _ H1 H3). apply (f_equal (@List.length nat)) in Sr.
    rewrite !set_nth_length in Sr. lia.
  - exists z, r, c. auto.
Qed.

End Zero.

(** * Alignment of the right-hand side *)

Lemma plan_of_rel {A B} (b : sdict (tensor A)) (b' : sdict (tensor B)) :
  dict_rel (fun t u => tshape t = tshape u) b b' -> plan_of b = plan_of b'.
Proof.
  unfold plan_of. induction 1 as [|[k t] [k' u] b b' [E1 E2] F IH]; simpl; auto.
  simpl in E1, E2. rewrite E1, E2, IH. reflexivity.
Qed.

Lemma nonempty_rel {V W} (R : V -> W -> Prop) d d' :
  dicts_rel R d d' -> dicts_rel R (nonempty_blocks d) (nonempty_blocks d').
Proof.
  induction 1 as [|[k b] [k' b'] d d' [E1 E2] F IH]; simpl; [constructor|].
  simpl in E1, E2. inversion E2; subst; auto. constructor; simpl; auto.
Qed.

Lemma plans_of_rel {A B} (d : sdict (sdict (tensor A))) (d' : sdict (sdict (tensor B))) :
  dicts_rel (fun t u => tshape t = tshape u) d d' -> plans_of d = plans_of d'.
Proof.
  unfold plans_of. induction 1 as [|[k b] [k' b'] d d' [E1 E2] F IH]; simpl; auto.
  simpl in E1, E2. rewrite (plan_of_rel _ _ E2), E1, IH. reflexivity.
Qed.

Lemma elements_rename {A} f (d : sdict (sdict (tensor A))) : elements (rename f d) = elements d.
Proof.
  unfold elements, rename. induction d as [|[k b] d IH]; simpl; auto. rewrite IH. f_equal.
  induction b as [|[k' t] b IHb]; simpl; auto. rewrite IHb; auto.
Qed.

Lemma rename_wf {A} p (d : sdict (sdict (tensor A))) :
  dicts_wf d -> dicts_wf (rename (fun k => (p ++ k)%string) d).
Proof.
  intros [W F]. split.
  - apply (sd_wf_map (fun kd => map (fun kv => ((p ++ fst kv)%string, snd kv)) (snd kd))); auto.
  - unfold rename. rewrite Forall_forall in *. intros x Hx. apply in_map_iff in Hx as [[k b] [<- Hin]].
    destruct (F _ Hin) as [Wb Fb]. cbn [snd] in *. split.
    + apply (sd_wf_map_prefix p snd); auto.
    + rewrite Forall_forall in *. intros y Hy. apply in_map_iff in Hy as [z [<- Hz]]. apply (Fb _ Hz).
Qed.

Lemma rename_has_variable {V} f (d : sdict (sdict V)) : has_variable d -> has_variable (rename f d).
Proof.
  intros [n [b [Hin Hb]]]. exists n, (map (fun kv => (f (fst kv), snd kv)) b). split.
  - unfold rename. apply in_map_iff. exists (n, b); auto.
  - destruct b; [congruence|discriminate].
Qed.

Lemma rel_has_variable {V W} (R : V -> W -> Prop) d d' :
  dicts_rel R d d' -> has_variable d -> has_variable d'.
Proof.
  intros HR H. apply has_variable_nonempty in H. apply has_variable_nonempty.
  apply nonempty_rel in HR. inversion HR; congruence.
Qed.

Lemma rhs_aligned {A} (s c d S C D : sdict (sdict (tensor A))) :
  dicts_wf s -> dicts_wf c -> dicts_wf d -> dicts_wf S -> dicts_wf C -> dicts_wf D ->
  ranked s -> ranked c -> ranked d ->
  has_variable s -> has_variable c -> has_variable d ->
  dicts_rel (fun t u => tshape t = tshape u) s S ->
  dicts_rel (fun t u => tshape t = tshape u) c C ->
  dicts_rel (fun t u => tshape t = tshape u) d D ->
  forall ps pc pd, exists v plans rhs plans',
    assemble_tensor s c d = Ok (v, plans) /\
    assemble_tensor (rename (fun k => ps ++ k)%string S) (rename (fun k => pc ++ k)%string C)
                    (rename (fun k => pd ++ k)%string D) = Ok (rhs, plans') /\
    List.length rhs = List.length v /\
    disassemble_tensor (vec rhs) (Some plans) 0
    = Ok (nonempty_blocks S, nonempty_blocks C, nonempty_blocks D).
Proof.
  intros Ws Wc Wd WS WC WD Rs Rc Rd Hs Hc Hd Es Ec Ed ps pc pd.
  assert (ranked S /\ ranked C /\ ranked D) as [RS [RC RD]].
  { assert (forall x X : sdict (sdict (tensor A)),
      dicts_rel (fun t u => tshape t = tshape u) x X -> ranked x -> ranked X) as G.
    { clear. induction 1 as [|[k b] [k' b'] d d' [E1 E2] F IH]; intro Rk; [constructor|].
      unfold ranked in *. inversion Rk as [|? ? Rb Rk']; subst. constructor; [|apply IH; auto].
      cbn [snd] in *. clear - E2 Rb.
      induction E2 as [|[k t] [k' u] b b' [E1 E3] F IH]; [constructor|].
      inversion Rb as [|? ? Rt Rb']; subst. constructor; [|apply IH; auto].
      cbn [snd] in *. congruence. }
    split; [|split]; [apply (G s S)|apply (G c C)|apply (G d D)]; auto. }
  pose proof (assemble_tensor_ok s c d Ws Wc Wd Hs Hc Hd) as E1.
  pose proof (assemble_tensor_ok _ _ _ (rename_wf ps S WS) (rename_wf pc C WC) (rename_wf pd D WD)
     (rename_has_variable _ _ (rel_has_variable _ _ _ Es Hs))
     (rename_has_variable _ _ (rel_has_variable _ _ _ Ec Hc))
     (rename_has_variable _ _ (rel_has_variable _ _ _ Ed Hd))) as E2.
  rewrite !elements_rename in E2.
  do 4 eexists. split; [exact E1|]. split; [exact E2|].
  destruct (assemble_disassemble S C D WS WC WD RS RC RD (rel_has_variable _ _ _ Es Hs)
     (rel_has_variable _ _ _ Ec Hc) (rel_has_variable _ _ _ Ed Hd)) as [P [E3 E4]].
  pose proof (assemble_tensor_ok S C D WS WC WD (rel_has_variable _ _ _ Es Hs)
     (rel_has_variable _ _ _ Ec Hc) (rel_has_variable _ _ _ Ed Hd)) as E5.
  rewrite E3 in E5. injection E5 as EP.
  rewrite <- (plans_of_rel _ _ (nonempty_rel _ _ _ Es)),
          <- (plans_of_rel _ _ (nonempty_rel _ _ _ Ec)),
          <- (plans_of_rel _ _ (nonempty_rel _ _ _ Ed)) in EP.
  rewrite <- EP. split; [|exact E4].
  assert (forall x X : sdict (sdict (tensor A)), dicts_wf x -> dicts_wf X ->
      dicts_rel (fun t u => tshape t = tshape u) x X ->
      List.length (elements X) = List.length (elements x)) as G.
  { intros x X [_ Fx] [_ FX] HR. rewrite <- !plans_size_of by auto.
    rewrite (plans_of_rel _ _ HR). reflexivity. }
  rewrite !app_length, (G s S), (G c C), (G d D) by auto. reflexivity.
Qed.

(** * Forms used by the property file *)

Lemma disassemble_bad_args {A} (input : tensor A) ps dim :
  (dim <> 0%Z /\ dim <> 1%Z) \/ ps = None -> disassemble_tensor input ps dim = Raise ValueError.
Proof.
  unfold disassemble_tensor. intros [[H0 H1]| ->].
  - destruct (Z.eqb_spec dim 0); [congruence|]. destruct (Z.eqb_spec dim 1); [congruence|]. reflexivity.
  - destruct (negb _); reflexivity.
Qed.

Lemma concatenate_deconcatenate_full {A} dim (d : sdict (sdict (tensor A))) :
  dim <= 4 -> dicts_wf d -> d <> [] -> same_names d -> agree_off dim d ->
  exists c, concatenate_dict_of_dicts d dim = Ok c /\
    deconcatenate c d dim = Ok d /\
    (forall n b, In (n, b) d -> keys c = keys b) /\
    (forall k tc, sd_get k c = Some tc ->
       nth_error (tshape tc) dim = Some (offset dim k d) /\
       forall pre n b post, d = pre ++ (n, b) :: post ->
         exists t, sd_get k b = Some t /\
           forall idx, valid_idx (tshape t) idx ->
             tget tc (set_nth dim (nth dim idx 0 + offset dim k pre) idx) = tget t idx).
Proof.
  intros. destruct (concatenate_deconcatenate dim d) as [c [E [[_ [_ [K I]]] D]]]; auto.
  exists c. repeat split; auto.
  - apply I; auto.
  - intros pre n b post Ed. destruct (I _ _ H4) as [_ Ip].
    destruct (Ip _ _ _ _ Ed) as [t [G [_ V]]]. eauto.
Qed.

Lemma concat_differing_names :
  exists (d : sdict (sdict (tensor nat))) dim c,
    dicts_wf d /\ ~ same_names d /\ concatenate_dict_of_dicts d dim = Ok c.
Proof.
  exists [("a", [("q1", mkT [1; 1] [2]); ("q2", mkT [1; 1] [3])]);
          ("b", [("q1", mkT [1; 1] [1])])]%string, 1.
  eexists. split; [repeat constructor|]. split; [|reflexivity].
  intro H. specialize (H _ _ _ _ (or_introl eq_refl) (or_intror (or_introl eq_refl))). discriminate.
Qed.

Lemma extract_key_full {A} (d : sdict (sdict (tensor A))) key : sd_wf d ->
  (forall n b t, d = [(n, b)] -> sd_get key b = Some t -> extract_key d key = Ok (OneTensor t)) /\
  (forall n b, d = [(n, b)] -> sd_get key b = None -> extract_key d key = Raise IndexError) /\
  (List.length d <> 1 -> exists r, extract_key d key = Ok (ManyBlocks r) /\ keys r = keys d /\
     forall n b, In (n, b) d ->
       exists rb, sd_get n r = Some rb /\ sd_get key rb = sd_get key b /\
         forall k, k <> key -> sd_get k rb = None).
Proof.
  intro W. rewrite (extract_key_spec d key W). split; [|split].
  - intros n b t -> ->; auto.
  - intros n b -> ->; auto.
  - intro L. exists (map (fun kd => (fst kd, only key (snd kd))) d). split; [|split].
    + destruct d as [|[n b] [|x d]]; auto. simpl in L; lia.
    + unfold keys. rewrite map_map. reflexivity.
    + intros n b Hin. exists (only key b). split.
      * apply sd_in_get.
        -- apply (sd_wf_map (fun kd => only key (snd kd))); auto.
        -- apply in_map_iff. exists (n, b); auto.
      * unfold only. destruct (sd_get key b) as [t|] eqn:E; simpl.
        -- rewrite String.eqb_refl. split; auto. intros k Hk.
           destruct (String.eqb_spec k key); congruence.
        -- auto.
Qed.

Lemma data_concatenation_dim {A} (st : sdict (tensor A)) (data : sdict (sdict (tensor A)))
    sz_data sz_state dim :
  extract_size_from_dict_of_dicts data = Ok sz_data -> extract_size_from_dict st = Ok sz_state ->
  get_data_concatenation_dim None data dim = Ok None /\
  (List.length sz_data < List.length sz_state ->
     get_data_concatenation_dim (Some st) data dim = Raise ValueError) /\
  (List.length sz_state <= List.length sz_data ->
     get_data_concatenation_dim (Some st) data dim
     = Ok (Some (dim + (List.length sz_data - List.length sz_state)))).
Proof.
  intros E1 E2. unfold get_data_concatenation_dim. rewrite E1, E2. cbn [bind].
  repeat split; intro H; destruct (Nat.ltb_spec (List.length sz_data) (List.length sz_state));
    auto; lia.
Qed.

Lemma scalar_not_disassembled :
  exists (s c d : sdict (sdict (tensor nat))) v plans,
    dicts_wf s /\ dicts_wf c /\ dicts_wf d /\
    assemble_tensor s c d = Ok (v, plans) /\
    disassemble_tensor (vec v) (Some plans) 0 = Raise TypeError.
Proof.
  exists [("b", [("q", mkT [] [1])])]%string, [("b", [("p_q", mkT [1] [2])])]%string,
         [("b", [("q", mkT [1] [3])])]%string.
  do 2 eexists. split; [|split; [|split; [|split; reflexivity]]]; repeat constructor.
Qed.

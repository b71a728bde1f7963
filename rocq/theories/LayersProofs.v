(** Proofs about the parameter-free layers. *)
From Coq Require Import List String Bool ZArith Lia.
From Verif Require Import Base BaseFacts LayersModel.
Import ListNotations.
Open Scope string_scope.

Section Proofs.
Variable T : Type.
Notation layer := (layer T).
Notation weight := (weight T).

Lemma move_fold_wf (r : pdict (option T)) d : sd_wf d -> sd_wf (fold_left (move T) r d).
Proof.
  revert d. induction r as [|[k [v|]] r IH]; intros d W; simpl; auto.
  apply IH. apply sd_set_wf. exact W.
Qed.

Lemma move_fold_get (r : pdict (option T)) : NoDup (keys r) -> forall d k,
  sd_get k (fold_left (move T) r d)
  = match sd_get k r with Some (Some v) => Some v | _ => sd_get k d end.
Proof.
  induction r as [|[k0 o] r IH]; intros ND d k; simpl in *; auto.
  inversion ND as [|? ? NI ND']; subst. specialize (IH ND').
  rewrite IH. destruct (String.eqb_spec k k0) as [->|NE].
  - assert (sd_get k0 r = None) as -> by (apply sd_get_none; exact NI).
    destruct o; unfold move; simpl; auto. apply sd_get_set_same.
  - destruct (sd_get k r) as [[v|]|]; auto; destruct o; unfold move; simpl; auto;
      rewrite sd_get_set_other; auto.
Qed.

Lemma weights_fold (w : weight) (d : sdict T) : sd_wf d ->
  fold_left (fun ws kv => sd_set (fst kv) w ws) d [] = map (fun kv => (fst kv, w)) d.
Proof. intro W. exact (sd_rebuild (fun _ => w) d W). Qed.

Lemma in_get_nodup {V} (r : pdict V) : NoDup (keys r) -> forall k v, sd_get k r = Some v <-> In (k, v) r.
Proof.
  induction r as [|[k0 o] r IH]; intros ND k v; simpl in *.
  - split; [discriminate|tauto].
  - inversion ND as [|? ? NI ND']; subst. destruct (String.eqb_spec k k0) as [->|NE].
    + split.
      * intro H. injection H as <-. auto.
      * intros [H|H]; [injection H as <-; auto|]. exfalso. apply NI. apply (in_map fst) in H. exact H.
    + rewrite (IH ND'). split; [auto|]. intros [H|H]; auto. injection H as <- _. congruence.
Qed.

Lemma removed (r : pdict (option T)) (w : weight) : NoDup (keys r) ->
  let l := remove_parameters T (rp_init T r w) in
  ly_registered T l = [] /\
  exists d, ly_dict T l = Some d /\ NoDup (keys d) /\
    (forall k v, In (k, v) d <-> In (k, Some v) r) /\
    keys (ly_weights T l) = keys d /\
    (forall k, In k (keys d) -> sd_get k (ly_weights T l) = Some w).
Proof.
  intros ND l. split; [reflexivity|].
  set (d := fold_left (move T) r []).
  assert (W : sd_wf d) by (apply move_fold_wf; apply sd_wf_nil).
  exists d. split; [reflexivity|]. split; [apply sd_wf_NoDup; exact W|].
  assert (LW : ly_weights T l = map (fun kv => (fst kv, w)) d).
  { unfold l, remove_parameters, rp_init; cbn [ly_weights ly_registered ly_weight].
    apply weights_fold. exact W. }
  split; [|split].
  - intros k v. rewrite <- (in_get_nodup d (sd_wf_NoDup _ W)), <- (in_get_nodup r ND).
    unfold d. rewrite move_fold_get by exact ND. simpl.
    destruct (sd_get k r) as [[u|]|]; split; intro H; congruence.
  - rewrite LW. unfold keys. rewrite map_map. reflexivity.
  - intros k I. rewrite LW. destruct (sd_get_keys k d I) as [v G].
    rewrite (sd_get_map (fun _ _ => w) k d), G. reflexivity.
Qed.

Lemma map_values_keys {V W} (f : V -> W) (d : sdict V) : keys (map_values f d) = keys d.
Proof. unfold map_values, keys. rewrite map_map. reflexivity. Qed.

Lemma set_keys_same {V} k (v : V) d : sd_wf d -> In k (keys d) -> keys (sd_set k v d) = keys d.
Proof.
  induction d as [|[k0 v0] d IH]; intros W I; simpl in *; [tauto|].
  destruct (String.eqb_spec k k0) as [->|NE]; [reflexivity|].
  destruct I as [I|I]; [congruence|].
  apply sd_wf_cons_inv in W. destruct W as [W F].
  destruct (str_ltb k k0) eqn:L.
  - exfalso. rewrite Forall_forall in F. specialize (F k I).
    exact (str_lt_asym _ _ L F).
  - simpl. f_equal. apply IH; auto.
Qed.

Definition removed_state (ks : list string) (l : layer) : Prop :=
  ly_registered T l = [] /\ (exists d, ly_dict T l = Some d /\ keys d = ks /\ sd_wf d) /\
  keys (ly_weights T l) = ks /\ sd_wf (ly_weights T l).

Lemma wf_keys {V W} (a : sdict V) (b : sdict W) : keys a = keys b -> sd_wf a -> sd_wf b.
Proof. unfold sd_wf. intros -> H. exact H. Qed.

Lemma snn_apply_state ks fn l : removed_state ks l ->
  exists l', snn_apply T fn l = Ok l' /\ removed_state ks l' /\
    (exists d, ly_dict T l = Some d /\ ly_dict T l' = Some (map_values fn d)) /\
    ly_weights T l' = ly_weights T l.
Proof.
  intros (R & (d & D & K & W) & KW & WW). unfold snn_apply, rp_apply, torch_apply.
  cbn [ly_dict]. rewrite D. eexists. split; [reflexivity|].
  cbn [ly_registered ly_weights]. rewrite R. split; [|split; [exists d; auto|reflexivity]].
  split; [reflexivity|]. split; [|split; auto].
  exists (map_values fn d). split; [reflexivity|]. rewrite map_values_keys. split; auto.
  eapply wf_keys; [|exact W]. rewrite map_values_keys. reflexivity.
Qed.

Lemma snn_to_state ks fl fn l : removed_state ks l ->
  (fl = false /\ snn_to T fl fn l = Raise TypeError) \/
  (fl = true /\ exists l', snn_to T fl fn l = Ok l' /\ removed_state ks l' /\
    (exists d, ly_dict T l = Some d /\ ly_dict T l' = Some (map_values fn (map_values fn d))) /\
    ly_weights T l' = map_values (convert_weight T fn) (ly_weights T l)).
Proof.
  intro H. destruct fl; [right|left; auto]. split; [reflexivity|].
  unfold snn_to. cbn [negb]. destruct (snn_apply_state ks fn l H) as (l' & E & (R & (d' & D' & K' & W') & KW & WW) & (d & D & Dm) & LW).
  rewrite E. cbn [bind]. unfold rp_to. cbn [negb]. rewrite Dm. eexists. split; [reflexivity|].
  cbn [ly_dict ly_weights]. split; [|split; [exists d; auto|rewrite LW; reflexivity]].
  assert (d' = map_values fn d) by congruence. subst d'.
  split; [exact R|]. split; [|split].
  - exists (map_values fn (map_values fn d)). cbn [ly_dict]. rewrite map_values_keys. split; [reflexivity|].
    split; [exact K'|]. eapply wf_keys; [|exact W']. rewrite !map_values_keys. reflexivity.
  - cbn [ly_weights]. rewrite map_values_keys. exact KW.
  - cbn [ly_weights]. eapply wf_keys; [|exact WW]. rewrite map_values_keys. reflexivity.
Qed.

Lemma run_lop_state ks l o : removed_state ks l -> removed_state ks (fst (run_lop T l o)).
Proof.
  intro H. destruct o as [k w|fn|fl fn]; unfold run_lop.
  - destruct H as (R & (d & D & K & W) & KW & WW). unfold add_weight. rewrite D.
    destruct (sd_mem k d) eqn:M; cbn [fst].
    + split; [exact R|]. cbn [ly_dict ly_weights]. split; [exists d; auto|].
      assert (I : In k (keys (ly_weights T l))).
      { rewrite KW, <- K. unfold sd_mem in M. destruct (sd_get k d) eqn:G; [|discriminate].
        apply sd_get_in in G. apply (in_map fst) in G. exact G. }
      split; [rewrite set_keys_same; auto|]. apply sd_set_wf. exact WW.
    + split; [exact R|]. split; [exists d; auto|auto].
  - destruct (snn_apply_state ks fn l H) as (l' & E & H' & _). rewrite E. exact H'.
  - destruct (snn_to_state ks fl fn l H) as [[-> E]|(-> & l' & E & H' & _)]; rewrite E; [exact H|exact H'].
Qed.

Lemma run_lops_state ks os : forall l, removed_state ks l -> removed_state ks (run_lops T l os).
Proof. induction os as [|o os IH]; intros l H; simpl; auto. apply IH, run_lop_state, H. Qed.

Lemma removed_removed_state (r : pdict (option T)) (w : weight) :
  removed_state (keys (fold_left (move T) r [])) (remove_parameters T (rp_init T r w)).
Proof.
  assert (W : sd_wf (fold_left (move T) r [])) by (apply move_fold_wf; apply sd_wf_nil).
  split; [reflexivity|]. split; [eexists; split; [reflexivity|]; auto|].
  unfold remove_parameters, rp_init; cbn [ly_weights ly_registered ly_weight].
  rewrite weights_fold by exact W.
  assert (K : forall (d : sdict T), keys (map (fun kv => (fst kv, w)) d) = keys d)
    by (intro d; unfold keys; rewrite map_map; reflexivity).
  split; [apply K|]. eapply wf_keys; [|exact W]. symmetry. apply K.
Qed.

Lemma stays (r : pdict (option T)) (w : weight) os :
  let l0 := remove_parameters T (rp_init T r w) in
  let l := run_lops T l0 os in
  ly_registered T l = [] /\
  exists d0 d, ly_dict T l0 = Some d0 /\ ly_dict T l = Some d /\ keys d = keys d0 /\
    keys (ly_weights T l) = keys d0.
Proof.
  cbv zeta. pose proof (run_lops_state _ os _ (removed_removed_state r w)) as (R & (d & D & K & _) & KW & _).
  split; [exact R|]. exists (fold_left (move T) r []), d. auto.
Qed.

Lemma move_fold_keys (r : pdict (option T)) name : forall d,
  In name (keys (fold_left (move T) r d)) <-> In name (keys d) \/ exists t, In (name, Some t) r.
Proof.
  induction r as [|(k, [v|]) r IH]; intros d; cbn [fold_left].
  - split; [auto|]. intros [H|(t & [])]; exact H.
  - rewrite IH. unfold move at 1. cbn [snd fst]. split.
    + intros [H|(t & H)]; [|right; exists t; right; exact H].
      apply keys_set in H as [->|H]; [right; exists v; left; reflexivity|auto].
    + intros [H|(t & [H|H])].
      * left. apply keys_set_conv. auto.
      * injection H as -> ->. left. apply keys_set_conv. auto.
      * eauto.
  - rewrite IH. unfold move at 1. cbn [snd fst]. split.
    + intros [H|(t & H)]; [auto|right; exists t; right; exact H].
    + intros [H|(t & [H|H])]; [auto|discriminate|eauto].
Qed.

Lemma weights_of_parameters (r : pdict (option T)) (w : weight) os name v :
  let l := run_lops T (remove_parameters T (rp_init T r w)) os in
  ((exists t, In (name, Some t) r) ->
     exists l', run_lop T l (LAddWeight T name v) = (l', Ok tt) /\
       forall k, sd_get k (ly_weights T l') = if String.eqb k name then Some v else sd_get k (ly_weights T l)) /\
  (~ (exists t, In (name, Some t) r) ->
     run_lop T l (LAddWeight T name v) = (l, Raise ValueError)).
Proof.
  cbv zeta. pose proof (run_lops_state _ os _ (removed_removed_state r w)) as (R & (d & D & K & _) & KW & _).
  set (l := run_lops T _ os) in *. clearbody l.
  assert (I : In name (keys d) <-> exists t, In (name, Some t) r).
  { rewrite K, move_fold_keys. cbn. tauto. }
  unfold run_lop, add_weight. rewrite D. split; intros H.
  - apply I in H. unfold sd_mem. destruct (sd_get name d) eqn:G; [|apply sd_get_none in G; contradiction].
    eexists. split; [reflexivity|]. intros k. cbn [ly_weights].
    destruct (String.eqb_spec k name) as [->|N]; [apply sd_get_set_same|apply sd_get_set_other; exact N].
  - assert (G : sd_get name d = None) by (apply sd_get_none; tauto).
    unfold sd_mem. rewrite G. reflexivity.
Qed.

(** ** Moving *)
Lemma convert_all ks fl fn l : (forall t, fn (fn t) = fn t) -> removed_state ks l -> fl = true ->
  exists l' d, snn_to T fl fn l = Ok l' /\ ly_dict T l = Some d /\
    ly_dict T l' = Some (map (fun kv => (fst kv, fn (snd kv))) d) /\
    ly_weights T l' = map (fun kv => (fst kv, match snd kv with WTensor t => WTensor (fn t) | w => w end))
                          (ly_weights T l).
Proof.
  intros I H ->. destruct (snn_to_state ks true fn l H) as [[F _]|(_ & l' & E & _ & (d & D & D') & LW)]; [discriminate|].
  exists l', d. split; [exact E|]. split; [exact D|]. split.
  - rewrite D'. f_equal. unfold map_values. rewrite map_map. apply map_ext. intros [k v]. simpl. rewrite I. reflexivity.
  - rewrite LW. unfold map_values. apply map_ext. intros [k [| |]]; reflexivity.
Qed.

Lemma convert_all_ops (r : pdict (option T)) (w : weight) os fn : (forall t, fn (fn t) = fn t) ->
  let l := run_lops T (remove_parameters T (rp_init T r w)) os in
  exists l' d, snn_to T true fn l = Ok l' /\ ly_dict T l = Some d /\
    ly_dict T l' = Some (map (fun kv => (fst kv, fn (snd kv))) d) /\
    ly_weights T l' = map (fun kv => (fst kv, match snd kv with WTensor t => WTensor (fn t) | w => w end))
                          (ly_weights T l).
Proof.
  intros I l. apply (convert_all (keys (fold_left (move T) r []))); auto.
  apply run_lops_state, removed_removed_state.
Qed.
End Proofs.

Section Forward.
Variable T : Type.
Variable f_linear f_conv f_conv_unpadded : T -> T -> option T -> result T.
Variable f_pad_circular : Z * Z * Z * Z -> T -> result T.
Variable f_group_norm : T -> option T -> option T -> result T.
Variable t_mul t_sub : T -> T -> result T.

Lemma state_item ks l k : removed_state T ks l -> In k ks -> exists v, param T l k = Ok v.
Proof.
  intros (_ & (d & D & K & _) & _) I. unfold param. rewrite D. subst ks.
  destruct (sd_get_keys k d I) as [v G]. exists v. unfold sd_item. rewrite G. reflexivity.
Qed.

Lemma state_no_item ks l k : removed_state T ks l -> ~ In k ks -> param T l k = Raise KeyError.
Proof.
  intros (_ & (d & D & K & _) & _) I. unfold param. rewrite D. subst ks.
  apply sd_get_none in I. unfold sd_item. rewrite I. reflexivity.
Qed.

Lemma linear_keys w b (bias : bool) wt :
  removed_state T (if bias then ["bias"; "weight"] else ["weight"]) (new_linear T w b bias wt).
Proof.
  pose proof (removed_removed_state T (registered_of T w b bias) wt) as H.
  destruct bias; exact H.
Qed.

Lemma linear_usable w b (bias : bool) wt os x :
  exists w' b', param T (run_lops T (new_linear T w b bias wt) os) "weight" = Ok w' /\
    (bias = true -> param T (run_lops T (new_linear T w b bias wt) os) "bias" = Ok b') /\
    linear_forward T f_linear (run_lops T (new_linear T w b bias wt) os) x
    = f_linear x w' (if bias then Some b' else None).
Proof.
  pose proof (run_lops_state T _ os _ (linear_keys w b bias wt)) as H.
  set (l := run_lops T (new_linear T w b bias wt) os) in *.
  assert (I : In "weight" (if bias then ["bias"; "weight"] else ["weight"])) by (destruct bias; simpl; auto).
  destruct (state_item _ _ _ H I) as [w' W].
  destruct bias.
  - destruct (state_item _ _ "bias" H (or_introl eq_refl)) as [b' B].
    exists w', b'. split; [exact W|]. split; [auto|].
    unfold param in W, B. unfold linear_forward. destruct (ly_dict T l) as [d|]; [|discriminate].
    unfold sd_mem. unfold sd_item in B. destruct (sd_get "bias" d) eqn:G; [|discriminate].
    rewrite W. cbn [bind]. unfold sd_item. rewrite G. cbn [bind]. congruence.
  - assert (NI : ~ In "bias" ["weight"]) by (simpl; intros [E|[]]; discriminate).
    pose proof (state_no_item _ _ "bias" H NI) as B.
    exists w', w'. split; [exact W|]. split; [discriminate|].
    unfold param in W, B. unfold linear_forward. destruct (ly_dict T l) as [d|]; [|discriminate].
    unfold sd_mem. unfold sd_item in B. destruct (sd_get "bias" d) eqn:G; [discriminate|].
    rewrite W. reflexivity.
Qed.

Lemma dampening_keys w b c (bias : bool) wt :
  removed_state T (if bias then ["bias"; "dampening"; "weight"] else ["dampening"; "weight"])
    (new_linear_dampening T w b c bias wt).
Proof.
  pose proof (removed_removed_state T (pd_set "dampening" (Some c) (registered_of T w b bias)) wt) as H.
  destruct bias; exact H.
Qed.

Lemma dampening_usable w b c (bias : bool) wt os x z :
  (forall x w o, exists y, f_linear x w o = Ok y) ->
  (forall x y, exists z, t_mul x y = Ok z) -> (forall x y, exists z, t_sub x y = Ok z) ->
  exists y, linear_dampening_forward T f_linear t_mul t_sub
              (run_lops T (new_linear_dampening T w b c bias wt) os) x z = Ok y.
Proof.
  intros FL FM FS. pose proof (run_lops_state T _ os _ (dampening_keys w b c bias wt)) as H.
  set (l := run_lops T (new_linear_dampening T w b c bias wt) os) in *.
  set (ks := if bias then ["bias"; "dampening"; "weight"] else ["dampening"; "weight"]) in *.
  assert (I : In "weight" ks) by (unfold ks; destruct bias; simpl; auto).
  assert (J : In "dampening" ks) by (unfold ks; destruct bias; simpl; auto).
  destruct (state_item _ _ _ H I) as [w' W]. destruct (state_item _ _ _ H J) as [c' C].
  assert (exists y, linear_forward T f_linear l x = Ok y) as [y Y].
  { unfold param in W. unfold linear_forward. destruct (ly_dict T l) as [d|]; [|discriminate].
    unfold sd_mem, sd_item in *. destruct (sd_get "weight" d); [|discriminate].
    destruct (sd_get "bias" d); cbn [bind]; apply FL. }
  unfold linear_dampening_forward. rewrite Y. cbn [bind]. rewrite C. cbn [bind].
  destruct (FM c' z) as [m ->]. cbn [bind]. apply FS.
Qed.

Lemma conv_usable w b wt os circular padding x :
  (forall x w o, exists y, f_conv x w o = Ok y) -> (forall x w o, exists y, f_conv_unpadded x w o = Ok y) ->
  (forall p x, exists y, f_pad_circular p x = Ok y) ->
  exists y, conv_forward T f_conv f_conv_unpadded f_pad_circular circular padding
              (run_lops T (new_conv T w b true wt) os) x = Ok y.
Proof.
  intros FC FU FP. pose proof (run_lops_state T _ os _ (linear_keys w b true wt)) as H.
  change (new_conv T w b true wt) with (new_linear T w b true wt).
  set (l := run_lops T (new_linear T w b true wt) os) in *.
  destruct (state_item _ _ "weight" H) as [w' W]; [simpl; auto|].
  destruct (state_item _ _ "bias" H) as [b' B]; [simpl; auto|].
  unfold conv_forward. rewrite W, B. destruct circular.
  - destruct (FP (((snd padding + 1) / 2)%Z, (snd padding / 2)%Z, ((fst padding + 1) / 2)%Z, (fst padding / 2)%Z) x) as [x' ->].
    cbn [bind]. apply FU.
  - cbn [bind]. apply FC.
Qed.

Lemma conv_unusable w b wt os circular padding x :
  (forall p x, exists y, f_pad_circular p x = Ok y) ->
  conv_forward T f_conv f_conv_unpadded f_pad_circular circular padding
    (run_lops T (new_conv T w b false wt) os) x = Raise KeyError.
Proof.
  intro FP. pose proof (run_lops_state T _ os _ (linear_keys w b false wt)) as H.
  change (new_conv T w b false wt) with (new_linear T w b false wt).
  set (l := run_lops T (new_linear T w b false wt) os) in *.
  destruct (state_item _ _ "weight" H) as [w' W]; [simpl; auto|].
  assert (NI : ~ In "bias" ["weight"]) by (simpl; intros [E|[]]; discriminate).
  pose proof (state_no_item _ _ "bias" H NI) as B.
  unfold conv_forward. rewrite W, B. destruct circular; [|reflexivity].
  destruct (FP (((snd padding + 1) / 2)%Z, (snd padding / 2)%Z, ((fst padding + 1) / 2)%Z, (fst padding / 2)%Z) x) as [x' ->].
  reflexivity.
Qed.

Lemma group_norm_usable w b wt os x :
  (forall x w b, exists y, f_group_norm x w b = Ok y) ->
  exists y, group_norm_forward T f_group_norm (run_lops T (new_group_norm T w b true wt) os) x = Ok y.
Proof.
  intro FG. pose proof (run_lops_state T _ os _ (linear_keys w b true wt)) as H.
  change (new_group_norm T w b true wt) with (new_linear T w b true wt).
  set (l := run_lops T (new_linear T w b true wt) os) in *.
  destruct (state_item _ _ "weight" H) as [w' W]; [simpl; auto|].
  destruct (state_item _ _ "bias" H) as [b' B]; [simpl; auto|].
  unfold group_norm_forward. rewrite W, B. apply FG.
Qed.

Lemma group_norm_unusable w b wt x :
  group_norm_forward T f_group_norm (new_group_norm T w b false wt) x = Raise KeyError.
Proof. reflexivity. Qed.
End Forward.

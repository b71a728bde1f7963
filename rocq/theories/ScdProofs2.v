(** Proofs about merging, tuples, concatenation, extraction and zero padding. *)
From Coq Require Import List String Arith ZArith Lia Bool Sorting.Sorted.
From Verif Require Import Base BaseFacts Tensor TensorFacts ScdModel ScdSpec ScdProofs.
Import ListNotations.

(** * Merging *)

Lemma copy_id {V} (b : sdict V) : sd_wf b ->
  fold_left (fun c kv => sd_set (fst kv) (snd kv) c) b [] = b.
Proof.
  intro W. rewrite (sd_rebuild snd b W). rewrite <- (map_id b) at 2. apply map_ext.
  intros [k v]; auto.
Qed.

Lemma merge_fold {V} (d : sdict (sdict V)) ret :
  sd_wf ret -> Forall (fun kd => sd_wf (snd kd)) d -> NoDup (keys d) ->
  let r := fold_left
              (fun ret kd =>
                 sd_set (fst kd)
                   (fold_left (fun c kv => sd_set (fst kv) (snd kv) c) (snd kd) []) ret)
              d ret in
  sd_wf r /\
  (forall k, sd_get k r = match sd_get k d with Some b => Some b | None => sd_get k ret end).
Proof.
  revert ret; induction d as [|[k0 b0] d IH]; cbn [fold_left fst snd]; intros ret W F N.
  - split; auto.
  - inversion F as [|? ? Hb F']; subst. inversion N as [|? ? Nk N']; subst. cbn [snd] in Hb.
    rewrite (copy_id b0 Hb). destruct (IH (sd_set k0 b0 ret)) as [W' G]; auto.
    { apply sd_set_wf; auto. }
    split; auto. intro k. rewrite G. cbn [sd_get].
    destruct (String.eqb_spec k k0) as [->|Hne].
    + destruct (sd_get k0 d) as [s|] eqn:E.
      * apply sd_get_in in E. exfalso; apply Nk. apply in_map_iff. exists (k0, s); auto.
      * apply sd_get_set_same.
    + destruct (sd_get k d); auto. apply sd_get_set_other; auto.
Qed.

Lemma merge_ok {V} (g : option (sdict V)) (d : option (sdict (sdict V))) name :
  (forall dd, d = Some dd -> sd_wf dd /\ Forall (fun kd => sd_wf (snd kd)) dd /\
                             ~ In name (keys dd)) ->
  exists r, merge_dict g d name = Ok r /\ sd_wf r /\ sd_get name r = g /\
    forall k, k <> name ->
      sd_get k r = match d with Some dd => sd_get k dd | None => None end.
Proof.
  intro H. unfold merge_dict. destruct d as [dd|].
  - destruct (H dd eq_refl) as [W [F N]]. unfold sd_mem.
    apply sd_get_none in N as E. rewrite E.
    assert (sd_wf (match g with Some g0 => sd_set name g0 [] | None => [] end)) as W0.
    { destruct g; [apply sd_set_wf|]; constructor. }
    destruct (merge_fold dd _ W0 F (sd_wf_NoDup _ W)) as [W' G].
    eexists; split; [reflexivity|]. split; [exact W'|]. split.
    + rewrite G, E. destruct g; [apply sd_get_set_same|reflexivity].
    + intros k Hk. rewrite G. destruct (sd_get k dd); auto.
      destruct g; [rewrite sd_get_set_other by auto|]; reflexivity.
  - eexists; split; [reflexivity|]. split; [|split].
    + destruct g; [apply sd_set_wf|]; constructor.
    + destruct g; [apply sd_get_set_same|reflexivity].
    + intros k Hk. destruct g; [rewrite sd_get_set_other by auto|]; reflexivity.
Qed.

Lemma merge_taken {V} (g : option (sdict V)) dd name :
  In name (keys dd) -> merge_dict g (Some dd) name = Raise ValueError.
Proof.
  intro H. unfold merge_dict, sd_mem. destruct (sd_get_keys name dd H) as [v ->]. reflexivity.
Qed.

(** * Tuples *)

Lemma tuple_dict {V} (d : sdict V) l :
  fold_left (fun l kv => l ++ [snd kv]) d l = l ++ map snd d.
Proof.
  revert l; induction d as [|[k v] d IH]; simpl; intro l; [rewrite app_nil_r; auto|].
  rewrite IH, <- app_assoc; reflexivity.
Qed.

Lemma tuple_dicts {V} (d : sdict (sdict V)) :
  compute_tuple_from_dict_of_dicts d = flat_map (fun kd => map snd (snd kd)) d.
Proof.
  unfold compute_tuple_from_dict_of_dicts.
  assert (forall l, fold_left (fun l kd => fold_left (fun l kv => l ++ [snd kv]) (snd kd) l) d l
                    = l ++ flat_map (fun kd => map snd (snd kd)) d) as G.
  { induction d as [|[k b] d IH]; simpl; intro l; [rewrite app_nil_r; auto|].
    rewrite IH, tuple_dict, <- app_assoc; reflexivity. }
  apply G.
Qed.

Lemma list_item_app {V} (pre : list V) v post :
  list_item (pre ++ v :: post) (List.length pre) = Ok v.
Proof. unfold list_item. rewrite nth_error_app2, Nat.sub_diag by lia. reflexivity. Qed.

(** Pulling the values of [d] out of a tuple that contains them at the current
    position. *)
Lemma pull_fold {V W} prefix (d : sdict W) (vals : list V) pre post acc :
  List.length vals = List.length d ->
  sd_wf d -> (forall k k', In k (keys acc) -> In k' (keys d) -> str_lt k (prefix ++ k')%string) ->
  foldM (pull (pre ++ vals ++ post) prefix) d (acc, List.length pre)
  = Ok (acc ++ combine (map (fun k => (prefix ++ k)%string) (keys d)) vals,
        List.length pre + List.length d).
Proof.
  revert vals pre acc; induction d as [|[k w] d IH]; intros [|v vals] pre acc L Wd D;
    try discriminate.
  - simpl. rewrite app_nil_r, Nat.add_0_r. reflexivity.
  - cbn [foldM]. unfold pull at 1. cbn [snd fst]. rewrite <- app_comm_cons, list_item_app.
    cbn [bind].
    apply sd_wf_cons_inv in Wd as [Wd Fk].
    rewrite sd_set_app_last by (intros; apply D; simpl; auto).
    replace (pre ++ v :: vals ++ post) with ((pre ++ [v]) ++ vals ++ post)
      by (rewrite <- app_assoc; reflexivity).
    replace (S (List.length pre)) with (List.length (pre ++ [v])) by (rewrite app_length; simpl; lia).
    rewrite IH.
    + f_equal. f_equal.
      * rewrite <- app_assoc. reflexivity.
      * rewrite app_length. simpl. lia.
    + simpl in L; lia.
    + auto.
    + intros k1 k2 H1 H2. unfold keys in H1. rewrite map_app, in_app_iff in H1.
      destruct H1 as [H1|H1].
      * apply D; simpl; auto.
      * simpl in H1. destruct H1 as [<-|[]]. unfold str_lt. rewrite str_ltb_prefix.
        rewrite Forall_forall in Fk. apply Fk; auto.
Qed.

Lemma combine_keys_map {V} prefix (d : sdict V) :
  combine (map (fun k => (prefix ++ k)%string) (keys d)) (map snd d)
  = map (fun kv => ((prefix ++ fst kv)%string, snd kv)) d.
Proof.
  unfold keys. induction d as [|[k v] d IH]; simpl; auto. rewrite IH; auto.
Qed.

Lemma tuple_round_trip {V} (d : sdict V) prefix :
  sd_wf d ->
  extract_dict_from_tuple (compute_tuple_from_dict d) d prefix
  = Ok (map (fun kv => ((prefix ++ fst kv)%string, snd kv)) d).
Proof.
  intro W. unfold extract_dict_from_tuple, compute_tuple_from_dict. rewrite tuple_dict.
  rewrite app_nil_l.
  pose proof (pull_fold prefix d (map snd d) [] [] []) as E.
  rewrite app_nil_r, !app_nil_l in E. cbn [List.length] in E.
  rewrite E; auto.
  - cbn [bind]. rewrite combine_keys_map. reflexivity.
  - apply map_length.
  - simpl; tauto.
Qed.

Lemma tuple_dicts_gen {V W} prefix (d : sdict (sdict W)) (vals : list (list V)) pre post acc :
  Forall2 (fun kd v => List.length v = List.length (snd kd)) d vals ->
  sd_wf d -> Forall (fun kd => sd_wf (snd kd)) d ->
  (forall k k', In k (keys acc) -> In k' (keys d) -> str_lt k k') ->
  foldM (pull_block (pre ++ List.concat vals ++ post) prefix) d (acc, List.length pre)
  = Ok (acc ++ combine (keys d)
                 (map (fun p => combine (map (fun k => (prefix ++ k)%string) (keys (snd (fst p)))) (snd p))
                    (combine d vals)),
        List.length pre + List.length (List.concat vals)).
Proof.
  intros F2. revert pre acc; induction F2 as [|[k b] v d vals Hl F2 IH]; intros pre acc Wd F D.
  - simpl. rewrite app_nil_r, Nat.add_0_r. reflexivity.
  - cbn [foldM List.concat]. unfold pull_block at 1. cbn [snd fst]. inversion F as [|? ? Hb F']; subst. cbn [snd] in Hb, Hl.
    apply sd_wf_cons_inv in Wd as [Wd Fk].
    rewrite <- app_assoc.
    pose proof (pull_fold prefix b v pre (List.concat vals ++ post) []) as E.
    rewrite app_nil_l in E. rewrite E by (auto; simpl; tauto). clear E. cbn [bind].
    rewrite sd_set_app_last by (intros; apply D; simpl; auto).
    rewrite app_assoc. replace (List.length pre + List.length b) with (List.length (pre ++ v))
      by (rewrite app_length; lia).
    rewrite IH; auto.
    + f_equal. f_equal.
      * rewrite <- app_assoc. reflexivity.
      * rewrite !app_length. lia.
    + intros k1 k2 H1 H2. unfold keys in H1. rewrite map_app, in_app_iff in H1.
      destruct H1 as [H1|H1].
      * apply D; simpl; auto.
      * simpl in H1. destruct H1 as [<-|[]]. rewrite Forall_forall in Fk. apply Fk; auto.
Qed.

Lemma tuple_dicts_round_trip {V} (d : sdict (sdict V)) prefix :
  sd_wf d -> Forall (fun kd => sd_wf (snd kd)) d ->
  extract_dict_of_dicts_from_tuple (compute_tuple_from_dict_of_dicts d) d prefix
  = Ok (rename (fun k => (prefix ++ k)%string) d).
Proof.
  intros W F. rewrite tuple_dicts. unfold extract_dict_of_dicts_from_tuple.
  pose proof (tuple_dicts_gen prefix d (map (fun kd => map snd (snd kd)) d) [] [] []) as E.
  rewrite app_nil_r, !app_nil_l, <- flat_map_concat_map in E. unfold pull in E.
  cbn [List.length] in E. rewrite E; auto.
  - cbn [bind]. f_equal. unfold rename, keys. clear. induction d as [|[k b] d IH]; simpl; auto.
    rewrite IH. pose proof (combine_keys_map prefix b) as H. unfold keys in H. rewrite H. reflexivity.
  - clear. induction d; simpl; constructor; auto. apply map_length.
  - simpl; tauto.
Qed.

(** Parameter objects. *)
Definition no_none {V} (d : sdict (sdict (option V))) : Prop :=
  Forall (fun kd => Forall (fun kv => snd kv <> None) (snd kd)) d.

Definition vals_of {V} (b : sdict (option V)) : list V :=
  flat_map (fun kv => opt_list (snd kv)) b.

Lemma tuple_params {V} (d : sdict (sdict (option V))) :
  compute_tuple_from_parameter_objects d = List.concat (map (fun kd => vals_of (snd kd)) d).
Proof.
  unfold compute_tuple_from_parameter_objects.
  assert (forall (b : sdict (option V)) l,
    fold_left (fun l kv => match snd kv with Some v => l ++ [v] | None => l end) b l
    = l ++ vals_of b) as G1.
  { induction b as [|[k [v|]] b IH]; simpl; intro l; [rewrite app_nil_r; auto| |]; rewrite IH; auto.
    rewrite <- app_assoc; reflexivity. }
  assert (forall l, fold_left (fun l kd =>
               fold_left (fun l kv => match snd kv with
                                      | Some v => l ++ [v]
                                      | None => l
                                      end) (snd kd) l) d l
     = l ++ List.concat (map (fun kd => vals_of (snd kd)) d)) as G2.
  { induction d as [|[k b] d IH]; simpl; intro l; [rewrite app_nil_r; auto|].
    rewrite IH, G1, <- app_assoc; reflexivity. }
  apply G2.
Qed.

Definition with_values {V} (d : sdict (sdict V)) : sdict (sdict (option V)) :=
  map (fun kd => (fst kd, map (fun kv => (fst kv, Some (snd kv))) (snd kd))) d.

Lemma vals_of_some {V} (b : sdict V) :
  vals_of (map (fun kv => (fst kv, Some (snd kv))) b) = map snd b.
Proof. induction b as [|[k v] b IH]; simpl; auto. rewrite <- IH; auto. Qed.

Lemma params_round_trip {V} (d : sdict (sdict V)) prefix :
  sd_wf d -> Forall (fun kd => sd_wf (snd kd)) d ->
  extract_dict_from_tuple_parameter_objects
    (compute_tuple_from_parameter_objects (with_values d)) (with_values d) prefix
  = Ok (rename (fun k => (prefix ++ k)%string) d).
Proof.
  intros W F. unfold extract_dict_from_tuple_parameter_objects, extract_dict_of_dicts_from_tuple.
  rewrite tuple_params.
  pose proof (tuple_dicts_gen prefix (with_values d) (map (fun kd => vals_of (snd kd)) (with_values d))
                [] [] []) as E.
  rewrite app_nil_r, !app_nil_l in E. cbn [List.length] in E.
  rewrite E; auto.
  - cbn [bind]. f_equal. unfold rename, with_values, keys. clear.
    induction d as [|[k b] d IH]; simpl; auto. rewrite IH.
    rewrite vals_of_some. f_equal. f_equal. rewrite <- combine_keys_map. f_equal.
    unfold keys. rewrite !map_map. reflexivity.
  - unfold with_values. clear. induction d as [|[k b] d IH]; simpl; constructor; auto.
    cbn [snd]. rewrite vals_of_some, !map_length; auto.
  - unfold with_values. apply (sd_wf_map (fun kd => map (fun kv => (fst kv, Some (snd kv))) (snd kd))); auto.
  - unfold with_values. rewrite Forall_forall in *. intros x Hx.
    apply in_map_iff in Hx as [y [<- Hy]]. simpl. apply (sd_wf_map (fun kv => Some (snd kv))). auto.
  - simpl; tauto.
Qed.

(** Running out of tuple entries. *)
Lemma pull_total {V W} (tup : list V) prefix (d : sdict W) acc i :
  (i + List.length d <= List.length tup ->
     exists r, foldM (pull tup prefix) d (acc, i) = Ok (r, i + List.length d)) /\
  (i <= List.length tup -> List.length tup < i + List.length d ->
     foldM (pull tup prefix) d (acc, i) = Raise IndexError).
Proof.
  revert acc i; induction d as [|[k w] d IH]; intros acc i.
  - split; intros; simpl; [|simpl in *; lia]. exists acc. rewrite Nat.add_0_r; auto.
  - cbn [foldM]. unfold pull at 1 3. cbn [snd fst]. unfold list_item.
    destruct (nth_error tup i) as [v|] eqn:E.
    + cbn [bind]. pose proof (nth_error_lt _ _ _ E). split; intros.
      * destruct (proj1 (IH (sd_set (prefix ++ k)%string v acc) (S i))) as [r Er].
        { simpl in *; lia. }
        exists r. rewrite Er. f_equal. f_equal. simpl; lia.
      * apply IH; simpl in *; lia.
    + cbn [bind]. apply nth_error_None in E. split; intros; auto. simpl in *; lia.
Qed.

Lemma pull_dicts_short {V W} (tup : list V) prefix (d : sdict (sdict W)) acc i :
  i <= List.length tup ->
  List.length tup < i + List.length (flat_map (fun kd => snd kd) d) ->
  foldM (pull_block tup prefix) d (acc, i) = Raise IndexError.
Proof.
  revert acc i; induction d as [|[k b] d IH]; intros acc i L L'; [simpl in L'; lia|].
  cbn [foldM flat_map] in *. unfold pull_block at 1. cbn [fst snd] in *. rewrite app_length in L'.
  destruct (pull_total tup prefix b [] i) as [P1 P2].
  destruct (Nat.le_gt_cases (i + List.length b) (List.length tup)) as [H|H].
  - destruct (P1 H) as [r ->]. cbn [bind]. apply IH; lia.
  - rewrite (P2 L H). reflexivity.
Qed.

Lemma vals_of_length {V} (b : sdict (option V)) :
  List.length (vals_of b) <= List.length b /\
  (Exists (fun kv => snd kv = None) b -> List.length (vals_of b) < List.length b).
Proof.
  induction b as [|[k [v|]] b [IH1 IH2]]; simpl.
  - split; auto. intro H; inversion H.
  - split; [lia|]. intro H; inversion H; subst; [discriminate|]. specialize (IH2 H1). lia.
  - split; [lia|]. intros _. fold (vals_of b). lia.
Qed.

Lemma params_none {V} (d : sdict (sdict (option V))) prefix :
  Exists (fun kd => Exists (fun kv => snd kv = None) (snd kd)) d ->
  extract_dict_from_tuple_parameter_objects
    (compute_tuple_from_parameter_objects d) d prefix = Raise IndexError.
Proof.
  intro H. unfold extract_dict_from_tuple_parameter_objects, extract_dict_of_dicts_from_tuple.
  pose proof (pull_dicts_short (compute_tuple_from_parameter_objects d) prefix d [] 0) as E.
  rewrite E; auto; [lia|]. rewrite tuple_params. clear E.
  assert (forall e : sdict (sdict (option V)),
    List.length (List.concat (map (fun kd => vals_of (snd kd)) e))
    <= List.length (flat_map (fun kd => snd kd) e)) as Le.
  { induction e as [|[k b] e IH]; simpl; auto. rewrite !app_length.
    pose proof (proj1 (vals_of_length b)). lia. }
  induction d as [|[k b] d IH]; [inversion H|]. simpl. rewrite !app_length.
  pose proof (vals_of_length b) as [L1 L2]. inversion H; subst.
  - specialize (L2 H1). specialize (Le d). lia.
  - specialize (IH H1). simpl in IH. lia.
Qed.

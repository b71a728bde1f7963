(** Proofs about parameter counts and freezing. *)
From Coq Require Import List String Arith Bool Lia.
From Verif Require Import Base BaseFacts UtilsModel UtilsSpec.
Import ListNotations.

Lemma numel_elements p : numel p = elements (p_size p).
Proof.
  unfold numel. enough (H : forall l a, fold_left Nat.mul l a = a * elements l) by (rewrite H; lia).
  induction l as [|n l IH]; intro a; simpl; [lia|]. rewrite IH. lia.
Qed.

Lemma count_spec model :
  compute_number_of_parameters model =
  (total (fun kv => negb (p_grad (snd kv))) model, total (fun kv => p_grad (snd kv)) model,
   total (fun _ => true) model).
Proof.
  unfold compute_number_of_parameters.
  assert (H : forall l f o,
    fold_left (fun s kv => let '(f, o) := s in
                 if p_grad (snd kv) then (f, o + numel (snd kv)) else (f + numel (snd kv), o))
              l (f, o) =
    (f + total (fun kv => negb (p_grad (snd kv))) l, o + total (fun kv => p_grad (snd kv)) l)).
  { induction l as [|[k p] l IH]; intros f o; cbn [fold_left snd].
    - unfold total. simpl. rewrite !Nat.add_0_r. reflexivity.
    - unfold total, list_sum in *. cbn [filter snd]. destruct (p_grad p) eqn:E; rewrite IH; cbn [negb];
        cbn [map fold_right snd]; rewrite numel_elements; f_equal; lia. }
  rewrite H. simpl. f_equal. unfold total. clear.
  induction model as [|[k p] l IH]; auto. cbn [filter snd]. destruct (p_grad p); unfold list_sum in *;
    cbn [negb map snd fold_right]; rewrite <- IH; lia.
Qed.

Lemma set_grad_keys v pn m : map fst (set_grad v pn m) = map fst m.
Proof.
  unfold set_grad. rewrite map_map. apply map_ext. intros [k p]. simpl.
  destruct (String.eqb k pn); reflexivity.
Qed.

Lemma pd_get_key {A} k (d : pdict A) : pd_get k d <> None <-> In k (map fst d).
Proof.
  unfold pd_get. induction d as [|[q x] d IH]; simpl; [tauto|].
  destruct (String.eqb k q) eqn:E.
  - apply String.eqb_eq in E. subst. split; auto. discriminate.
  - rewrite IH. split; auto. intros [->|H]; auto. rewrite String.eqb_refl in E. discriminate.
Qed.

Lemma switched_cons v pn names m :
  switched v names (set_grad v pn m) = switched v (pn :: names) m.
Proof.
  unfold switched, set_grad. rewrite map_map. apply map_ext. intros [k p]. cbn [fst snd mem existsb].
  unfold mem. cbn [existsb].
  destruct (String.eqb k pn) eqn:E; cbn [orb fst snd p_size]; auto.
  destruct (existsb _ names); reflexivity.
Qed.

Lemma freeze_known v names : forall m, (forall n, In n names -> In n (map fst m)) ->
  freeze_or_unfreeze v names m = (Ok tt, switched v names m).
Proof.
  unfold freeze_or_unfreeze.
  induction names as [|pn names IH]; intros m K; cbn [freeze_loop].
  - f_equal. unfold switched. simpl. symmetry. apply map_id.
  - destruct (pd_get pn m) eqn:E.
    + rewrite IH, switched_cons; auto. intros n Hn. rewrite set_grad_keys. apply K. right. exact Hn.
    + exfalso. apply (proj2 (pd_get_key pn m)) in E; auto. apply K. left. reflexivity.
Qed.

Lemma freeze_unknown v pre n post : forall m,
  (forall k, In k pre -> In k (map fst m)) -> ~ In n (map fst m) ->
  freeze_or_unfreeze v (pre ++ n :: post) m = (Raise KeyError, switched v pre m).
Proof.
  unfold freeze_or_unfreeze.
  induction pre as [|pn pre IH]; intros m K N; cbn [freeze_loop app].
  - destruct (pd_get n m) eqn:E.
    + exfalso. apply N. apply pd_get_key. congruence.
    + f_equal. unfold switched. simpl. symmetry. apply map_id.
  - destruct (pd_get pn m) eqn:E.
    + rewrite IH, switched_cons; auto.
      * intros k Hk. rewrite set_grad_keys. apply K. right. exact Hk.
      * rewrite set_grad_keys. exact N.
    + exfalso. apply (proj2 (pd_get_key pn m)) in E; auto. apply K. left. reflexivity.
Qed.

Lemma total_split f g m : total f m = total (fun kv => f kv && g kv) m + total (fun kv => f kv && negb (g kv)) m.
Proof.
  unfold total, list_sum. induction m as [|kv m IH]; auto. simpl.
  destruct (f kv); simpl; auto. destruct (g kv); simpl; lia.
Qed.

Lemma total_switched v names f m :
  total (fun kv => f (p_grad (snd kv))) (switched v names m) =
  total (fun kv => mem names (fst kv) && f v) m +
  total (fun kv => negb (mem names (fst kv)) && f (p_grad (snd kv))) m.
Proof.
  unfold total, list_sum, switched. induction m as [|[k p] m IH]; auto.
  cbn [map filter fst snd]. destruct (mem names k); cbn [negb andb fst snd p_grad].
  - destruct (f v); cbn [map fold_right snd p_size] in *; rewrite IH; lia.
  - destruct (f (p_grad p)); cbn [map fold_right snd p_size] in *; rewrite IH; lia.
Qed.

Lemma total_false m : total (fun _ => false) m = 0.
Proof. unfold total. induction m; auto. Qed.

Lemma total_ext f g m : (forall kv, f kv = g kv) -> total f m = total g m.
Proof. intro H. unfold total. rewrite (filter_ext f g); auto. Qed.

(** Freezing moves the named optimised parameters to the fixed ones. *)
Lemma freeze_counts v names m :
  let moved := total (fun kv => mem names (fst kv) && xorb v (p_grad (snd kv))) m in
  let '(f, o, all) := compute_number_of_parameters m in
  let '(f', o', all') := compute_number_of_parameters (switched v names m) in
  all' = all /\
  if v then f = f' + moved /\ o' = o + moved else f' = f + moved /\ o = o' + moved.
Proof.
  cbv zeta. rewrite !count_spec. split.
  - rewrite (total_switched v names (fun _ => true)).
    rewrite (total_split (fun _ => true) (fun kv => mem names (fst kv))). cbn [andb].
    f_equal; apply total_ext; intro; rewrite andb_true_r; reflexivity.
  - rewrite (total_switched v names negb), (total_switched v names (fun b => b)).
    rewrite (total_split (fun kv => negb (p_grad (snd kv))) (fun kv => mem names (fst kv))).
    rewrite (total_split (fun kv => p_grad (snd kv)) (fun kv => mem names (fst kv))).
    set (a := total (fun kv => negb (p_grad (snd kv)) && mem names (fst kv)) m).
    set (b := total (fun kv => negb (p_grad (snd kv)) && negb (mem names (fst kv))) m).
    set (c := total (fun kv => p_grad (snd kv) && mem names (fst kv)) m).
    set (d := total (fun kv => p_grad (snd kv) && negb (mem names (fst kv))) m).
    replace (total (fun kv => negb (mem names (fst kv)) && negb (p_grad (snd kv))) m) with b
      by (apply total_ext; intro; apply andb_comm).
    replace (total (fun kv => negb (mem names (fst kv)) && p_grad (snd kv)) m) with d
      by (apply total_ext; intro; apply andb_comm).
    destruct v; cbn [negb].
    + replace (total (fun kv => mem names (fst kv) && false) m) with 0
        by (symmetry; rewrite <- (total_false m); apply total_ext; intro; apply andb_false_r).
      replace (total (fun kv => mem names (fst kv) && true) m) with (a + c).
      2: { unfold a, c. rewrite (total_split (fun kv => mem names (fst kv) && true) (fun kv => negb (p_grad (snd kv)))).
           f_equal; apply total_ext; intro; rewrite andb_true_r, andb_comm, ?negb_involutive; reflexivity. }
      replace (total (fun kv => mem names (fst kv) && xorb true (p_grad (snd kv))) m) with a.
      2: { apply total_ext. intro. rewrite andb_comm. destruct (p_grad (snd kv)); reflexivity. }
      lia.
    + replace (total (fun kv => mem names (fst kv) && false) m) with 0
        by (symmetry; rewrite <- (total_false m); apply total_ext; intro; apply andb_false_r).
      replace (total (fun kv => mem names (fst kv) && true) m) with (a + c).
      2: { unfold a, c. rewrite (total_split (fun kv => mem names (fst kv) && true) (fun kv => negb (p_grad (snd kv)))).
           f_equal; apply total_ext; intro; rewrite andb_true_r, andb_comm, ?negb_involutive; reflexivity. }
      replace (total (fun kv => mem names (fst kv) && xorb false (p_grad (snd kv))) m) with c.
      2: { apply total_ext. intro. rewrite andb_comm. destruct (p_grad (snd kv)); reflexivity. }
      lia.
Qed.

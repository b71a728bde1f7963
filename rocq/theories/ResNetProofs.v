(** Proofs about the channel bookkeeping of the residual network. *)
From Coq Require Import List String Ascii ZArith Bool Lia DecimalString DecimalNat.
From Verif Require Import Base BaseFacts ResNetModel.
Import ListNotations.
Open Scope string_scope.
Open Scope list_scope.

Lemma mapM_ok {A B} (f : A -> result B) g l : (forall a, In a l -> f a = Ok (g a)) ->
  mapM f l = Ok (map g l).
Proof.
  induction l as [|a l IH]; intro H; simpl; auto.
  rewrite (H a (or_introl eq_refl)). simpl. rewrite IH; auto. intros b Hb. apply H. right. exact Hb.
Qed.

Lemma mapM_inv {A B} (f : A -> result B) l : forall r, mapM f l = Ok r ->
  Forall2 (fun a b => f a = Ok b) l r.
Proof.
  induction l as [|a l IH]; simpl; intros r H.
  - injection H as <-. constructor.
  - destruct (f a) as [b|] eqn:E; [|discriminate]. simpl in H.
    destruct (mapM f l) as [bs|]; [|discriminate]. injection H as <-. constructor; auto.
Qed.

Lemma foldM_app {A S} (f : S -> A -> result S) l1 : forall l2 s,
  foldM f (l1 ++ l2) s = (s' <- foldM f l1 s ;; foldM f l2 s').
Proof.
  induction l1 as [|a l1 IH]; intros l2 s; simpl; auto.
  destruct (f s a); simpl; auto.
Qed.

(** *** Building *)
Definition additional_of (cs : list Z) (i : nat) : Z :=
  match i with O => nth 0 cs 0%Z | S j => (nth i cs 0 - nth j cs 0)%Z end.

Lemma nth_additional cs i : i < List.length cs ->
  nth i (compute_nr_of_additional_channels cs) 0%Z = additional_of cs i.
Proof.
  intro H. unfold compute_nr_of_additional_channels.
  change (map _ (seq 0 (List.length cs))) with (map (additional_of cs) (seq 0 (List.length cs))).
  rewrite (nth_indep _ 0%Z (additional_of cs 0)) by (rewrite map_length, seq_length; exact H).
  rewrite map_nth, seq_nth by exact H. reflexivity.
Qed.

Definition layer_blocks (cs : list Z) (counts : list nat) (i : nat) : list rblock :=
  map (fun b => mkRB (block_name i b) (nth i cs 0%Z)
                     (if Nat.ltb 0 b then None else Some (additional_of cs i)))
      (seq 0 (nth i counts 0)).

Lemma create_layer_ok cs counts i : i < List.length cs -> i < List.length counts ->
  (0 <= additional_of cs i)%Z -> create_layer cs counts i = Ok (layer_blocks cs counts i).
Proof.
  intros H H' P. unfold create_layer, list_item.
  rewrite (nth_error_nth' counts 0 H'). simpl bind. unfold layer_blocks. apply mapM_ok.
  intros b _. rewrite nth_additional by exact H. unfold create_one_shooting_block.
  destruct (Nat.ltb 0 b); auto. destruct (Z.ltb_spec (additional_of cs i) 0); auto. lia.
Qed.

Lemma create_ok cs counts : cs <> [] -> (0 <= nth 0 cs 0)%Z ->
  (forall i, S i < List.length cs -> (nth i cs 0 <= nth (S i) cs 0)%Z) ->
  List.length cs <= List.length counts ->
  create_resnet cs counts (List.length cs) =
  Ok (mkRN (map (layer_blocks cs counts) (seq 0 (List.length cs))) cs).
Proof.
  intros N P M L. unfold create_resnet. rewrite Nat.eqb_refl. simpl negb. cbv iota.
  destruct cs as [|c0 cs']; [congruence|]. set (cs := c0 :: cs') in *.
  change (list_item cs 0) with (Ok c0). simpl bind.
  change (nth 0 cs 0%Z) with c0 in P. destruct (Z.ltb_spec c0 0); [lia|].
  unfold create_shooting_layers. rewrite (mapM_ok _ (layer_blocks cs counts)).
  - reflexivity.
  - intros i Hi. apply in_seq in Hi. apply create_layer_ok; try lia.
    destruct i as [|i]; [exact P|]. unfold additional_of. specialize (M i). lia.
Qed.

Lemma mapM_raise {A B} (f : A -> result B) l a e : In a l -> f a = Raise e ->
  exists e', mapM f l = Raise e'.
Proof.
  induction l as [|x l IH]; intros H E; [destruct H|]. simpl.
  destruct H as [->|H].
  - rewrite E. simpl. eauto.
  - destruct (f x) as [b|e'] eqn:F; simpl; [|eauto].
    destruct (IH H E) as [e' ->]. simpl. eauto.
Qed.

(** A layer with fewer channels than the one before it, and at least one block, is refused. *)
Lemma create_decreasing cs counts sizes i : S i < List.length cs ->
  (nth (S i) cs 0 < nth i cs 0)%Z -> nth (S i) counts 0 <> 0 ->
  exists e, create_resnet cs counts sizes = Raise e.
Proof.
  intros H D C. unfold create_resnet. destruct (negb _); [eauto|].
  destruct (list_item cs 0) as [c0|]; simpl; [|eauto].
  destruct (c0 <? 0)%Z; [eauto|].
  assert (Q : exists e, create_layer cs counts (S i) = Raise e).
  { unfold create_layer, list_item.
    assert (L : S i < List.length counts).
    { destruct (Nat.lt_ge_cases (S i) (List.length counts)) as [|G]; auto.
      rewrite nth_overflow in C by exact G. congruence. }
    rewrite (nth_error_nth' counts 0 L). simpl bind.
    destruct (nth (S i) counts 0) as [|n]; [congruence|]. simpl seq. simpl mapM.
    rewrite nth_additional by exact H. unfold create_one_shooting_block at 1.
    simpl Nat.ltb. cbv iota. unfold additional_of.
    destruct (Z.ltb_spec (nth (S i) cs 0 - nth i cs 0)%Z 0); [|lia]. simpl. eauto. }
  destruct Q as [e Q].
  destruct (mapM_raise (create_layer cs counts) (seq 0 (List.length cs)) (S i) e) as [e' E]; auto.
  { apply in_seq. lia. }
  unfold create_shooting_layers. rewrite E. simpl. eauto.
Qed.

(** *** Names *)
Lemma rn_no_underscore d : ~ In "_"%char (list_ascii_of_string (NilEmpty.string_of_uint d)).
Proof. induction d; simpl; auto; intros [H|H]; try discriminate; tauto. Qed.

Lemma rn_split a : forall b k k', ~ In "_"%char (list_ascii_of_string a) ->
  ~ In "_"%char (list_ascii_of_string b) ->
  (a ++ "_" ++ k = b ++ "_" ++ k')%string -> a = b /\ k = k'.
Proof.
  induction a as [|c a IH]; intros b k k' H H' E; destruct b as [|c' b]; simpl in *.
  - injection E as ->. auto.
  - injection E as <- ->. tauto.
  - injection E as -> <-. tauto.
  - injection E as <- E. destruct (IH b k k') as [-> ->]; auto.
Qed.

Lemma rn_str_inj a b : rn_str a = rn_str b -> a = b.
Proof.
  unfold rn_str. intro H.
  assert (E : NilEmpty.uint_of_string (NilEmpty.string_of_uint (Nat.to_uint a))
            = NilEmpty.uint_of_string (NilEmpty.string_of_uint (Nat.to_uint b))) by (rewrite H; auto).
  rewrite !NilEmpty.usu in E. injection E as E.
  rewrite <- (Unsigned.of_to a), <- (Unsigned.of_to b), E. reflexivity.
Qed.

Lemma block_name_inj i j i' j' : block_name i j = block_name i' j' -> i = i' /\ j = j'.
Proof.
  unfold block_name. intro H. apply append_inj_l in H. apply append_inj_l in H.
  apply rn_split in H; try apply rn_no_underscore. destruct H as [H1 H2].
  split; apply rn_str_inj; auto.
Qed.

Lemma create_names cs counts sizes net : create_resnet cs counts sizes = Ok net ->
  map (map rb_name) (rn_layers net) =
  map (fun i => map (block_name i) (seq 0 (nth i counts 0))) (seq 0 (List.length cs)).
Proof.
  unfold create_resnet. destruct (negb _); [discriminate|].
  destruct (list_item cs 0) as [c0|]; simpl; [|discriminate].
  destruct (c0 <? 0)%Z; [discriminate|].
  destruct (create_shooting_layers cs counts) as [ls|] eqn:E; simpl; [|discriminate].
  intros [=<-]. simpl. apply mapM_inv in E.
  revert E. generalize (seq 0 (List.length cs)) as l. intros l E.
  induction E as [|i bs l ls Hi E IH]; simpl; auto. f_equal; auto.
  unfold create_layer, list_item in Hi.
  destruct (nth_error counts i) as [n|] eqn:En; simpl in Hi; [|discriminate].
  rewrite (nth_error_nth counts i 0 En). apply mapM_inv in Hi. revert Hi.
  generalize (seq 0 n) as bl. intros bl Hi.
  induction Hi as [|b rb bl rbs Hb Hi IHb]; simpl; auto. f_equal; auto.
  unfold create_one_shooting_block in Hb. destruct (Nat.ltb 0 b); [injection Hb as <-; auto|].
  destruct (_ <? 0)%Z; [discriminate|]. injection Hb as <-. reflexivity.
Qed.

Lemma names_nodup (counts : list nat) n :
  NoDup (List.concat (map (fun i => map (block_name i) (seq 0 (nth i counts 0))) (seq 0 n))).
Proof.
  assert (H : NoDup (seq 0 n)) by apply seq_NoDup. revert H. generalize (seq 0 n) as l.
  induction l as [|i l IH]; intro H; simpl; [constructor|].
  apply NoDup_cons_iff in H. destruct H as [N H].
  assert (A : forall m, NoDup m -> NoDup (map (block_name i) m)).
  { induction m as [|x m IHm]; intro D; simpl; constructor; apply NoDup_cons_iff in D;
      destruct D as [D1 D2]; auto.
    rewrite in_map_iff. intros [y [E Hy]]. apply block_name_inj in E. destruct E as [_ ->]. auto. }
  assert (B : forall x, In x (map (block_name i) (seq 0 (nth i counts 0))) ->
     ~ In x (List.concat (map (fun i => map (block_name i) (seq 0 (nth i counts 0))) l))).
  { intros x Hx Hx'. apply in_map_iff in Hx. destruct Hx as [b [<- _]].
    apply in_concat in Hx'. destruct Hx' as [y [Hy Hx']]. apply in_map_iff in Hy.
    destruct Hy as [i' [<- Hi']]. apply in_map_iff in Hx'. destruct Hx' as [b' [E _]].
    apply block_name_inj in E. destruct E as [-> _]. auto. }
  revert B. specialize (A _ (seq_NoDup (nth i counts 0) 0)). revert A.
  generalize (map (block_name i) (seq 0 (nth i counts 0))) as u.
  induction u as [|x u IHu]; intros Du B; simpl; auto.
  apply NoDup_cons_iff in Du. destruct Du as [D1 D2]. constructor.
  - rewrite in_app_iff. intros [|Z]; auto. apply (B x); simpl; auto.
  - apply IHu; auto. intros y Hy. apply B. right. exact Hy.
Qed.

Lemma create_names_unique cs counts sizes net : create_resnet cs counts sizes = Ok net ->
  NoDup (map rb_name (List.concat (rn_layers net))).
Proof.
  intro H. apply create_names in H. rewrite concat_map, H. apply names_nodup.
Qed.

(** *** Forward *)
(** What the pass holds before layer [i]: nothing carried before the first layer, and
    the channels of the layer before otherwise. *)
Definition before (cs : list Z) (i : nat) (p : pass) : Prop :=
  match i with
  | O => carried p = None /\ ret_from p = None /\ ret_channels p = nth 0 cs 0%Z
  | S j => exists nm, carried p = Some (nm, nth j cs 0%Z, nth j cs 0%Z)
  end.

(** Number of blocks in the first [i] layers. *)
Definition blocks_before (counts : list nat) (i : nat) : nat := list_sum (firstn i counts).

Lemma pass_through_tail cs i m : forall start p nm,
  carried p = Some (nm, nth i cs 0%Z, nth i cs 0%Z) -> 0 < start ->
  exists p', foldM run_block
    (map (fun b => mkRB (block_name i b) (nth i cs 0%Z)
       (if Nat.ltb 0 b then None else Some (additional_of cs i))) (seq start m)) p = Ok p' /\
    if Nat.eqb m 0 then p' = p else
      p' = mkPass (nth i cs 0%Z) (Some (block_name i (start + m - 1)))
            (Some (block_name i (start + m - 1), nth i cs 0%Z, nth i cs 0%Z)).
Proof.
  induction m as [|m IH]; intros start p nm C S0.
  - exists p. split; reflexivity.
  - cbn [seq map foldM]. unfold run_block at 1. rewrite C. cbn [rb_own rb_in rb_name].
    destruct (Nat.ltb_spec 0 start); [|lia]. rewrite Z.add_0_r, Z.eqb_refl. cbn [andb bind].
    destruct (IH (S start) (mkPass (nth i cs 0%Z) (Some (block_name i start))
      (Some (block_name i start, nth i cs 0%Z, nth i cs 0%Z))) (block_name i start)) as [p' [E1 E2]];
      auto; try lia.
    exists p'. split; [exact E1|]. destruct m as [|m]; cbn [Nat.eqb] in *.
    + rewrite E2. replace (start + 1 - 1) with start by lia. reflexivity.
    + rewrite E2. replace (S start + S m - 1) with (start + S (S m) - 1) by lia. reflexivity.
Qed.

Lemma run_layer_ok cs counts i p stride : before cs i p -> nth i counts 0 <> 0 ->
  exists p', run_layer p (layer_blocks cs counts i, stride) = Ok p' /\
    carried p' = Some (block_name i (nth i counts 0 - 1), nth i cs 0%Z, nth i cs 0%Z) /\
    ret_channels p' = nth i cs 0%Z /\
    ret_from p' = (if Nat.eqb (i + nth i counts 0) 1 then None
                   else Some (block_name i (nth i counts 0 - 1))).
Proof.
  intros B C. unfold layer_blocks, run_layer. cbn [fst snd].
  destruct (nth i counts 0) as [|m]; [congruence|]. cbn [seq map foldM].
  (* the first block *)
  assert (F : exists p1, run_block p (mkRB (block_name i 0) (nth i cs 0%Z) (Some (additional_of cs i))) = Ok p1 /\
     carried p1 = Some (block_name i 0, nth i cs 0%Z, nth i cs 0%Z) /\
     ret_channels p1 = nth i cs 0%Z /\
     ret_from p1 = match i with O => None | S _ => Some (block_name i 0) end).
  { unfold run_block. cbn [rb_own rb_in rb_name]. destruct i as [|j].
    - destruct B as [B1 [B2 B3]]. rewrite B1, B3. unfold additional_of. rewrite Z.eqb_refl.
      cbn [andb]. eexists. split; [reflexivity|]. cbn. auto.
    - destruct B as [nm B]. rewrite B. unfold additional_of.
      replace (nth j cs 0 + (nth (S j) cs 0 - nth j cs 0))%Z with (nth (S j) cs 0%Z) by lia.
      rewrite Z.eqb_refl. cbn [andb]. eexists. split; [reflexivity|]. cbn. auto. }
  destruct F as [p1 [F1 [F2 [F3 F4]]]].
  change (Nat.ltb 0 0) with false. cbv iota. rewrite F1. cbn [bind].
  destruct (pass_through_tail cs i m 1 p1 (block_name i 0) F2 ltac:(lia)) as [p2 [G1 G2]].
  change (foldM run_block) with (@foldM rblock pass run_block) in G1.
  rewrite G1. cbn [bind]. exists p2.
  assert (R : carried p2 = Some (block_name i (S m - 1), nth i cs 0%Z, nth i cs 0%Z) /\
    ret_channels p2 = nth i cs 0%Z /\
    ret_from p2 = (if Nat.eqb (i + S m) 1 then None else Some (block_name i (S m - 1)))).
  { destruct m as [|m]; cbn [Nat.eqb] in G2.
    - subst p2. rewrite F2, F3, F4. repeat split; auto. destruct i; auto.
      cbn. destruct i; reflexivity.
    - subst p2. cbn [carried ret_channels ret_from].
      replace (1 + S m - 1) with (S (S m) - 1) by lia. repeat split; auto.
      destruct (Nat.eqb_spec (i + S (S m)) 1); [lia|reflexivity]. }
  destruct R as [R1 [R2 R3]]. rewrite R1. destruct stride; repeat split; auto.
Qed.

Lemma run_layers_ok cs counts n : forall i p sl, before cs i p ->
  List.length sl = n -> (forall k, k < n -> nth (i + k) counts 0 <> 0) ->
  exists ps, run_layers (combine (map (layer_blocks cs counts) (seq i n)) sl) p = Ok ps /\
    List.length ps = n /\
    forall k d, k < n ->
      carried (nth k ps d) = Some (block_name (i + k) (nth (i + k) counts 0 - 1),
                                   nth (i + k) cs 0%Z, nth (i + k) cs 0%Z) /\
      ret_channels (nth k ps d) = nth (i + k) cs 0%Z /\
      ret_from (nth k ps d) = (if Nat.eqb (i + k + nth (i + k) counts 0) 1 then None
                               else Some (block_name (i + k) (nth (i + k) counts 0 - 1))).
Proof.
  induction n as [|n IH]; intros i p sl B L C.
  - exists []. simpl. repeat split; auto; lia.
  - destruct sl as [|st sl]; [discriminate|]. cbn [seq map combine run_layers].
    assert (C0 : nth i counts 0 <> 0) by (specialize (C 0 ltac:(lia)); rewrite Nat.add_0_r in C; exact C).
    destruct (run_layer_ok cs counts i p st B C0) as [p' [R1 [R2 [R3 R4]]]]. rewrite R1. cbn [bind].
    destruct (IH (S i) p' sl) as [ps [S1 [S2 S3]]].
    + exists (block_name i (nth i counts 0 - 1)). exact R2.
    + simpl in L. lia.
    + intros k Hk. replace (S i + k) with (i + S k) by lia. apply C. lia.
    + rewrite S1. cbn [bind]. exists (p' :: ps). split; [reflexivity|]. split; [simpl; lia|].
      intros [|k] d Hk; cbn [nth].
      * rewrite Nat.add_0_r. auto.
      * replace (i + S k) with (S i + k) by lia. apply S3. lia.
Qed.

Lemma last_nth {A} (l : list A) d : last l d = nth (List.length l - 1) l d.
Proof.
  induction l as [|a l IH]; auto. destruct l as [|b l]; auto.
  change (last (a :: b :: l) d) with (last (b :: l) d). rewrite IH. simpl.
  rewrite Nat.sub_0_r. reflexivity.
Qed.

Lemma forward_ok cs counts : cs <> [] -> (0 <= nth 0 cs 0)%Z ->
  (forall i, S i < List.length cs -> (nth i cs 0 <= nth (S i) cs 0)%Z) ->
  List.length cs <= List.length counts -> (forall k, k < List.length cs -> nth k counts 0 <> 0) ->
  exists net ps, create_resnet cs counts (List.length cs) = Ok net /\ forward net = Ok ps /\
    List.length ps = List.length cs /\
    forall k d, k < List.length cs ->
      carried (nth k ps d) = Some (block_name k (nth k counts 0 - 1), nth k cs 0%Z, nth k cs 0%Z) /\
      ret_channels (nth k ps d) = nth k cs 0%Z /\
      ret_from (nth k ps d) = (if Nat.eqb (k + nth k counts 0) 1 then None
                               else Some (block_name k (nth k counts 0 - 1))).
Proof.
  intros N P M L C. rewrite (create_ok cs counts N P M L).
  assert (Ls : List.length (strides (List.length cs)) = List.length cs).
  { unfold strides. rewrite app_length, repeat_length. simpl.
    destruct cs; [congruence|]. simpl. lia. }
  destruct (run_layers_ok cs counts (List.length cs) 0
     (mkPass (nth 0 cs 0%Z) None None) (strides (List.length cs))) as [ps [E1 [E2 E3]]]; auto.
  { cbn. auto. }
  eexists. exists ps. split; [reflexivity|].
  unfold forward. cbn [rn_layers rn_channels].
  rewrite E1. cbn [bind]. split.
  - rewrite last_nth, E2. assert (Hc : 0 < List.length cs) by (destruct cs; [congruence|simpl; lia]).
    destruct (E3 (List.length cs - 1) (mkPass (nth 0 cs 0%Z) None None)) as [_ [E4 _]]; [lia|].
    rewrite E4. rewrite last_nth. simpl. rewrite Z.eqb_refl. reflexivity.
  - split; [exact E2|]. exact E3.
Qed.

Lemma last_app_ne {A} (a b : list A) d : b <> [] -> last (a ++ b) d = last b d.
Proof.
  intro N. induction a as [|x a IH]; auto. simpl. destruct (a ++ b) eqn:E; auto.
  apply app_eq_nil in E. tauto.
Qed.

Lemma last_block_seen cs counts : cs <> [] -> (0 <= nth 0 cs 0)%Z ->
  (forall i, S i < List.length cs -> (nth i cs 0 <= nth (S i) cs 0)%Z) ->
  List.length cs <= List.length counts -> (forall k, k < List.length cs -> nth k counts 0 <> 0) ->
  2 <= List.length cs \/ 2 <= nth 0 counts 0 ->
  exists net ps, create_resnet cs counts (List.length cs) = Ok net /\ forward net = Ok ps /\
    forall d, ret_from (last ps d) =
      Some (last (map rb_name (List.concat (rn_layers net))) "").
Proof.
  intros N P M L C T. destruct (forward_ok cs counts N P M L C) as [net [ps [E1 [E2 [E3 E4]]]]].
  exists net, ps. split; [exact E1|]. split; [exact E2|]. intro d.
  assert (Hc : 0 < List.length cs) by (destruct cs; [congruence|simpl; lia]).
  rewrite last_nth, E3. set (k := List.length cs - 1).
  destruct (E4 k d) as [_ [_ E5]]; [unfold k; lia|]. rewrite E5.
  assert (Ck : nth k counts 0 <> 0) by (apply C; unfold k; lia).
  destruct (Nat.eqb_spec (k + nth k counts 0) 1) as [Q|_].
  { exfalso. destruct T as [T|T]; [unfold k in *; lia|].
    assert (k = 0) by lia. rewrite H in Q. lia. }
  f_equal. rewrite concat_map, (create_names cs counts _ net E1).
  replace (List.length cs) with (k + 1) by (unfold k; lia). rewrite seq_app, map_app, concat_app.
  simpl. rewrite app_nil_r.
  assert (Z : map (block_name k) (seq 0 (nth k counts 0)) <> []).
  { destruct (nth k counts 0); [congruence|]. discriminate. }
  rewrite last_app_ne by exact Z. rewrite last_nth, map_length, seq_length.
  rewrite (nth_indep _ "" (block_name k 0)) by (rewrite map_length, seq_length; lia).
  rewrite map_nth, seq_nth by lia. reflexivity.
Qed.

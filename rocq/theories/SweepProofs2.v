(** Proofs about merging arguments, command lines, names and runs. *)
From Coq Require Import List String Ascii Arith ZArith Bool Lia DecimalString DecimalNat.
From Verif Require Import Base BaseFacts SweepModel SweepSpec SweepProofs.
Import ListNotations.
Open Scope string_scope.
Open Scope list_scope.

(** *** Heap *)
Lemma heap_set_other r r' d h : r <> r' -> deref (heap_set r d h) r' = deref h r'.
Proof.
  unfold deref. revert r r'. induction h as [|x h IH]; intros [|r] [|r'] N; simpl; auto;
    congruence.
Qed.

Lemma heap_set_same r d h : r < List.length h -> deref (heap_set r d h) r = d.
Proof.
  unfold deref. revert r. induction h as [|x h IH]; intros [|r] H; simpl in *; auto; try lia.
  apply IH. lia.
Qed.

Lemma heap_set_length r d h : List.length (heap_set r d h) = List.length h.
Proof. revert r. induction h as [|x h IH]; intros [|r]; simpl; auto. Qed.

Lemma pd_get_set {A} k k' (v : A) d :
  pd_get k (pd_set k' v d) = if String.eqb k k' then Some v else pd_get k d.
Proof.
  unfold pd_get. induction d as [|[q x] d IH]; simpl.
  - destruct (String.eqb k k'); reflexivity.
  - destruct (String.eqb k' q) eqn:E; simpl.
    + apply String.eqb_eq in E. subst. destruct (String.eqb k q); reflexivity.
    + rewrite IH. destruct (String.eqb k k') eqn:E2; auto.
      destruct (String.eqb k q) eqn:E3; auto.
      apply String.eqb_eq in E2, E3. subst. rewrite String.eqb_refl in E. discriminate.
Qed.

Lemma merge_loop m add : forall h, m < List.length h ->
  let h' := fold_left (merge_step m) add h in
  List.length h' = List.length h /\
  (forall r, r <> m -> deref h' r = deref h r) /\
  (NoDup (map fst add) -> forall k,
     pd_get k (deref h' m) = merged_value (pd_get k (deref h m)) (pd_get k add)).
Proof.
  induction add as [|[k v] add IH]; intros h L; cbv zeta; simpl fold_left.
  - repeat split; auto.
  - assert (S1 : List.length (merge_step m h (k, v)) = List.length h /\
      (forall r, r <> m -> deref (merge_step m h (k, v)) r = deref h r) /\
      forall q, pd_get q (deref (merge_step m h (k, v)) m) =
        if String.eqb q k then merged_value (pd_get q (deref h m)) (Some v)
        else pd_get q (deref h m)).
    { unfold merge_step. cbn [fst snd].
      assert (Z : forall w, List.length (heap_set m (pd_set k w (deref h m)) h) = List.length h /\
        (forall r, r <> m -> deref (heap_set m (pd_set k w (deref h m)) h) r = deref h r) /\
        forall q, pd_get q (deref (heap_set m (pd_set k w (deref h m)) h) m) =
          if String.eqb q k then Some w else pd_get q (deref h m)).
      { intro w. split; [apply heap_set_length|]. split.
        - intros r N. apply heap_set_other. auto.
        - intro q. rewrite heap_set_same by exact L. apply pd_get_set. }
      destruct v as [s|z|f|[|]|]; try apply Z.
      split; [reflexivity|]. split; [reflexivity|]. intro q. simpl. destruct (String.eqb q k); auto. }
    destruct S1 as [S1 [S2 S3]].
    destruct (IH (merge_step m h (k, v)) ltac:(rewrite S1; exact L)) as [I1 [I2 I3]].
    rewrite S1 in I1. split; [exact I1|]. split.
    + intros r N. rewrite I2, S2; auto.
    + intros ND q. simpl in ND. apply NoDup_cons_iff in ND. destruct ND as [N ND].
      rewrite I3 by exact ND. rewrite S3.
      replace (pd_get q ((k, v) :: add)) with (if String.eqb q k then Some v else pd_get q add)
        by reflexivity.
      destruct (String.eqb q k) eqn:E; auto.
      apply String.eqb_eq in E. subst.
      replace (pd_get k add) with (@None pyval); auto.
      symmetry. clear -N. unfold pd_get. induction add as [|[a b] add IH]; simpl in *; auto.
      destruct (String.eqb k a) eqn:E; [apply String.eqb_eq in E; subst; tauto|]. apply IH. tauto.
Qed.

Lemma deref_app h d r : r < List.length h -> deref (h ++ [d]) r = deref h r.
Proof. intro. unfold deref. apply app_nth1. exact H. Qed.

Lemma merge_args_spec template add h :
  template < List.length h -> add < List.length h -> dict_ok (deref h add) ->
  let m := fst (merge_args template add h) in
  let h' := snd (merge_args template add h) in
  m = List.length h /\ List.length h' = S (List.length h) /\
  (forall r, r < List.length h -> deref h' r = deref h r) /\
  (forall k, pd_get k (deref h' m) =
             merged_value (pd_get k (deref h template)) (pd_get k (deref h add))).
Proof.
  intros Ht Ha D. cbv zeta. unfold merge_args. cbn [fst snd].
  rewrite deref_app by exact Ha.
  destruct (merge_loop (List.length h) (deref h add) (h ++ [deref h template])) as [A [B C]].
  { rewrite app_length. simpl. lia. }
  split; [reflexivity|]. split; [rewrite A, app_length; simpl; lia|]. split.
  - intros r Hr. rewrite B by lia. apply deref_app. exact Hr.
  - intro k. rewrite C by exact D. f_equal. f_equal. unfold deref at 1.
    rewrite app_nth2, Nat.sub_diag by lia. reflexivity.
Qed.

(** *** Command lines *)
Lemma is_option_key k : is_option ("--" ++ k)%string = true.
Proof. unfold is_option. simpl. destruct k; reflexivity. Qed.

Lemma read_cons o rest : read_command_line (o :: rest) =
  match rest with
  | v :: rest' => if is_option v then (o, None) :: read_command_line rest
                  else (o, Some v) :: read_command_line rest'
  | [] => [(o, None)]
  end.
Proof. reflexivity. Qed.

Lemma command_line_roundtrip d :
  (forall k v, In (k, v) d -> is_option (py_str v) = false) ->
  read_command_line (make_arg_list d) =
  map (fun kv => (("--" ++ fst kv)%string,
                  match snd kv with VNone => None | v => Some (py_str v) end)) d.
Proof.
  induction d as [|[k v] d IH]; intro H; auto.
  assert (IH' := IH (fun k' v' I => H k' v' (or_intror I))). clear IH.
  assert (Hv := H k v (or_introl eq_refl)).
  assert (N : forall o, read_command_line (o :: make_arg_list d) =
              (o, None) :: read_command_line (make_arg_list d)).
  { intro o. rewrite read_cons. destruct d as [|[k' v'] d]; auto.
    unfold make_arg_list. cbn [flat_map app fst snd]. rewrite is_option_key. reflexivity. }
  unfold make_arg_list. cbn [flat_map map fst snd]. fold (make_arg_list d).
  destruct v; cbn [app]; try (rewrite read_cons, Hv, IH'; reflexivity).
  rewrite N, IH'. reflexivity.
Qed.

(** *** Names *)
Lemma name_suffix d : forall b, create_experiment_name b d = (b ++ create_experiment_name "" d)%string.
Proof.
  unfold create_experiment_name.
  induction d as [|[k v] d IH]; intro b; simpl.
  - rewrite str_app_nil_r. reflexivity.
  - rewrite IH. rewrite (IH (String "_" _)). rewrite !str_app_assoc. reflexivity.
Qed.

Lemma name_cons k v d : create_experiment_name "" ((k, v) :: d) =
  ("_" ++ k ++ "_" ++ py_str v ++ create_experiment_name "" d)%string.
Proof.
  unfold create_experiment_name at 1. simpl fold_left.
  change (fold_left _ d ?b) with (create_experiment_name b d). rewrite name_suffix.
  simpl. rewrite !str_app_assoc. reflexivity.
Qed.

(** A string that is empty or starts with an underscore. *)
Definition tail_like (s : string) : Prop :=
  match s with EmptyString => True | String c _ => c = "_"%char end.

Lemma name_tail_like d : tail_like (create_experiment_name "" d).
Proof. destruct d as [|[k v] d]; [exact I|]. rewrite name_cons. reflexivity. Qed.

Lemma plain_split a : forall b r r', plain a -> plain b -> tail_like r -> tail_like r' ->
  (a ++ r = b ++ r')%string -> a = b /\ r = r'.
Proof.
  unfold plain. induction a as [|c a IH]; intros b r r' Ha Hb Hr Hr' E; destruct b as [|c' b];
    simpl in *.
  - auto.
  - subst r. simpl in Hr. subst. tauto.
  - subst r'. simpl in Hr'. subst. tauto.
  - injection E as <- E. destruct (IH b r r') as [-> ->]; auto.
Qed.

Lemma name_inj d : forall d', map fst d = map fst d' ->
  (forall v, In v (map snd d) -> plain (py_str v)) ->
  (forall v, In v (map snd d') -> plain (py_str v)) ->
  create_experiment_name "" d = create_experiment_name "" d' ->
  map (fun v => py_str (snd v)) d = map (fun v => py_str (snd v)) d'.
Proof.
  induction d as [|[k v] d IH]; intros [|[k' v'] d'] K P P' E; simpl in K; try discriminate; auto.
  injection K as <- K. rewrite !name_cons in E.
  apply append_inj_l in E. apply append_inj_l in E. apply append_inj_l in E.
  apply plain_split in E; try apply name_tail_like.
  - destruct E as [E1 E2]. simpl. rewrite E1. f_equal. apply IH; auto.
    + intros w Hw. apply P. right. exact Hw.
    + intros w Hw. apply P'. right. exact Hw.
  - apply P. left. reflexivity.
  - apply P'. left. reflexivity.
Qed.

Lemma plain_digits d : plain (NilEmpty.string_of_uint d).
Proof.
  unfold plain. induction d; simpl; auto; intros [H|H]; try discriminate; tauto.
Qed.

Lemma dec_nat_inj a b : dec_nat a = dec_nat b -> a = b.
Proof.
  unfold dec_nat. intro H.
  assert (E : NilEmpty.uint_of_string (NilEmpty.string_of_uint (Nat.to_uint a))
            = NilEmpty.uint_of_string (NilEmpty.string_of_uint (Nat.to_uint b))) by (rewrite H; auto).
  rewrite !NilEmpty.usu in E. injection E as E.
  rewrite <- (Unsigned.of_to a), <- (Unsigned.of_to b), E. reflexivity.
Qed.

Lemma plain_fmt n : plain (fmt02 n).
Proof.
  unfold fmt02. assert (H := plain_digits (Nat.to_uint n)). fold (dec_nat n) in H.
  destruct (Nat.ltb n 10); auto. unfold plain in *. simpl. intros [E|E]; [discriminate|tauto].
Qed.

Lemma pad_ne n m : ("0" ++ dec_nat n)%string = dec_nat m -> n = m.
Proof.
  unfold dec_nat. intro H.
  change (NilEmpty.string_of_uint (Decimal.D0 (Nat.to_uint n))
          = NilEmpty.string_of_uint (Nat.to_uint m)) in H.
  assert (E : NilEmpty.uint_of_string (NilEmpty.string_of_uint (Decimal.D0 (Nat.to_uint n)))
            = NilEmpty.uint_of_string (NilEmpty.string_of_uint (Nat.to_uint m))) by (rewrite H; auto).
  rewrite !NilEmpty.usu in E. injection E as E.
  rewrite <- (Unsigned.of_to n), <- (Unsigned.of_to m), <- E. reflexivity.
Qed.

Lemma fmt_inj n m : fmt02 n = fmt02 m -> n = m.
Proof.
  unfold fmt02. destruct (Nat.ltb n 10) eqn:A, (Nat.ltb m 10) eqn:B; intro H.
  - injection H as H. apply dec_nat_inj. exact H.
  - apply pad_ne. exact H.
  - symmetry. apply pad_ne. auto.
  - apply dec_nat_inj. exact H.
Qed.

(** Members of a product take each value from the list of its key. *)
Lemma cart_values pars : forall c, In c (cart pars) ->
  Forall2 (fun kv kvs => In (snd kv) (snd kvs)) c pars.
Proof.
  induction pars as [|[k vs] r IH]; simpl; intros c H.
  - destruct H as [<-|[]]. constructor.
  - apply in_flat_map in H. destruct H as [v [Hv H]]. apply in_map_iff in H.
    destruct H as [c' [<- H]]. constructor; auto.
Qed.

Lemma pd_get_in {A} k (v : A) d : pd_get k d = Some v -> In (k, v) d.
Proof.
  unfold pd_get. induction d as [|[q x] d IH]; simpl; [discriminate|].
  destruct (String.eqb k q) eqn:E; auto. intros [=]. apply String.eqb_eq in E. subst. auto.
Qed.

Lemma pd_get_none {A B} (d : pdict A) (d' : pdict B) k : map fst d = map fst d' ->
  pd_get k d = None -> pd_get k d' = None.
Proof.
  unfold pd_get. revert d'. induction d as [|[q x] d IH]; intros [|[q' x'] d'] K; simpl in *;
    try discriminate; auto. injection K as <- K. destruct (String.eqb k q); [discriminate|].
  apply IH. exact K.
Qed.

Definition readable_pars (pars : pdict (list pyval)) : Prop :=
  forall k vs, In (k, vs) pars -> readable vs.

Lemma cart_plain pars c : readable_pars pars -> In c (cart pars) ->
  forall v, In v (map snd c) -> plain (py_str v).
Proof.
  intros R H v Hv. apply cart_values in H. induction H as [|[k w] [k' vs] c pars Hw H IH]; simpl in *.
  - destruct Hv.
  - destruct Hv as [<-|Hv].
    + apply (proj1 (R k' vs (or_introl eq_refl))). exact Hw.
    + apply IH; auto. intros a b Hab. apply (R a b). right. exact Hab.
Qed.

Lemma cart_str_inj pars : readable_pars pars -> forall c c', In c (cart pars) -> In c' (cart pars) ->
  map (fun v => py_str (snd v)) c = map (fun v => py_str (snd v)) c' -> c = c'.
Proof.
  intro R. induction pars as [|[k vs] r IH]; simpl; intros c c' H H' E.
  - destruct H as [<-|[]], H' as [<-|[]]. reflexivity.
  - apply in_flat_map in H, H'. destruct H as [v [Hv H]], H' as [v' [Hv' H']].
    apply in_map_iff in H, H'. destruct H as [d [<- H]], H' as [d' [<- H']].
    simpl in E. injection E as E1 E2. f_equal.
    + f_equal. apply (proj2 (R k vs (or_introl eq_refl))); auto.
    + apply IH; auto. intros a b Hab. apply (R a b). right. exact Hab.
Qed.

Lemma lookup_swept args_v (d d' : config) pars k (template : config) :
  readable_pars pars -> In d (cart pars) -> In d' (cart pars) ->
  let f := fun c => match pd_get k c with Some v => v | None => args_v template end in
  (plain (py_str (f d)) /\ plain (py_str (f d'))) \/ f d = f d'.
Proof.
  intros R H H'. cbv zeta. destruct (pd_get k d) as [v|] eqn:E.
  - destruct (pd_get k d') as [v'|] eqn:E'.
    + left. assert (G := pd_get_in k v d E). assert (G' := pd_get_in k v' d' E').
      apply (in_map snd) in G, G'. cbn [snd] in G, G'.
      assert (P := cart_plain pars d R H v G). assert (P' := cart_plain pars d' R H' v' G').
      rewrite E. split; assumption.
    + exfalso. apply (pd_get_none d' d) in E'; [congruence|].
      rewrite (cart_keys pars d'), (cart_keys pars d); auto.
  - right.
    assert (K : map fst d = map fst d') by (rewrite (cart_keys pars d'), (cart_keys pars d); auto).
    assert (G := pd_get_none d d' k K E). rewrite E, G. reflexivity.
Qed.

Lemma directory_inj prefix args template pars : readable_pars pars ->
  forall s s' d d', In d (cart pars) -> In d' (cart pars) ->
  output_directory prefix args template s d = output_directory prefix args template s' d' ->
  s = s' /\ d = d'.
Proof.
  intros R s s' d d' H H' E. unfold output_directory in E.
  apply append_inj_l in E. apply append_inj_l in E. apply append_inj_l in E.
  unfold experiment_name in E. rewrite (name_suffix d), (name_suffix d') in E.
  rewrite !str_app_assoc in E. apply append_inj_l in E.
  apply plain_split in E; try apply plain_fmt; try reflexivity.
  destruct E as [Es E]. apply fmt_inj in Es. subst s'. split; [reflexivity|].
  apply append_inj_l in E.
  assert (T : forall x y r r', ((plain (py_str x) /\ plain (py_str y)) \/ x = y) ->
     tail_like r -> tail_like r' -> (py_str x ++ r = py_str y ++ r')%string -> r = r').
  { intros x y r r' [[P P'] | W] Q Q' Z; [|subst y].
    - apply (plain_split _ _ _ _ P P' Q Q' Z).
    - apply append_inj_l in Z. exact Z. }
  apply T in E; try reflexivity.
  - apply append_inj_l in E. apply T in E; try apply name_tail_like.
    + apply (cart_str_inj pars R); auto. apply name_inj; auto.
      * rewrite (cart_keys pars d'), (cart_keys pars d); auto.
      * apply (cart_plain pars); auto.
      * apply (cart_plain pars); auto.
    + apply (lookup_swept (fun t => match pd_get "shooting_model" t with
          | Some v => v | None => a_shooting_model args end) d d' pars "shooting_model" template);
        auto.
  - apply (lookup_swept (fun t => match pd_get "fcn" t with Some v => v
        | None => match a_fcn args with Some v => v | None => VStr "" end end)
        d d' pars "fcn" template); auto.
Qed.

(** *** Runs *)
Section Runs.
Variables (prefix : string) (args : sweep_args) (template : config).
Let dir (sd : nat * config) := output_directory prefix args template (fst sd) (snd sd).
Let ra (sd : nat * config) := run_args template (dir sd) (fst sd) (snd sd).

Lemma runs_mono dnr jobs : forall fs runs r, In r runs ->
  In r (snd (fold_left (run_one prefix args template dnr) jobs (fs, runs))).
Proof.
  induction jobs as [|j jobs IH]; intros fs runs r H; simpl; auto.
  unfold run_one at 2. cbn [fst snd]. destruct (existsb _ _ && dnr); apply IH; auto.
  apply in_or_app. auto.
Qed.

Lemma runs_all dnr jobs : forall fs runs,
  (forall j j', In j jobs -> In j' jobs -> dir j = dir j' -> j = j') ->
  (forall j, In j jobs -> In (dir j) fs -> In (ra j) runs) ->
  forall j, In j jobs ->
  In (ra j) (snd (fold_left (run_one prefix args template dnr) jobs (fs, runs))).
Proof.
  induction jobs as [|a jobs IH]; intros fs runs Inj Inv j Hj; [destruct Hj|].
  cbn [fold_left]. unfold run_one at 2. cbn [fst snd]. change (output_directory _ _ _ (fst a) (snd a)) with (dir a).
  destruct (existsb (String.eqb (dir a)) fs && dnr) eqn:E.
  - apply andb_true_iff in E. destruct E as [E _]. apply existsb_exists in E.
    destruct E as [x [Hx E]]. apply String.eqb_eq in E. subst x.
    destruct Hj as [<-|Hj].
    + apply runs_mono. apply Inv; [left; reflexivity|exact Hx].
    + apply IH; auto.
      * intros. apply Inj; try right; auto.
      * intros i Hi. apply Inv. right. exact Hi.
  - change (run_args template (dir a) (fst a) (snd a)) with (ra a). destruct Hj as [<-|Hj].
    + apply runs_mono. apply in_or_app. right. left. reflexivity.
    + apply IH; auto.
      * intros. apply Inj; try right; auto.
      * intros i Hi [Hd|Hd].
        -- rewrite <- (Inj a i); auto.
           ++ apply in_or_app. right. left. reflexivity.
           ++ left. reflexivity.
           ++ right. exact Hi.
        -- apply in_or_app. left. apply Inv; [right; exact Hi|exact Hd].
Qed.

Lemma runs_exact dnr jobs : forall fs runs,
  NoDup (map dir jobs) -> (forall j, In j jobs -> ~ In (dir j) fs) ->
  snd (fold_left (run_one prefix args template dnr) jobs (fs, runs)) = runs ++ map ra jobs.
Proof.
  induction jobs as [|a jobs IH]; intros fs runs ND Inv; simpl.
  - rewrite app_nil_r. reflexivity.
  - unfold run_one at 2. cbn [fst snd]. change (output_directory _ _ _ (fst a) (snd a)) with (dir a).
    destruct (existsb (String.eqb (dir a)) fs && dnr) eqn:E.
    + apply andb_true_iff in E. destruct E as [E _]. apply existsb_exists in E.
      destruct E as [x [Hx E]]. apply String.eqb_eq in E. subst x.
      exfalso. apply (Inv a); simpl; auto.
    + simpl in ND. apply NoDup_cons_iff in ND. destruct ND as [N ND].
      rewrite IH; auto.
      * rewrite <- app_assoc. reflexivity.
      * intros j Hj [E'|E'].
        -- apply N. rewrite E'. apply in_map. exact Hj.
        -- apply (Inv j); simpl; auto.
Qed.
End Runs.

Lemma cart_nodup pars : (forall k vs, In (k, vs) pars -> NoDup vs) -> NoDup (cart pars).
Proof.
  induction pars as [|[k vs] r IH]; intro H; simpl; [repeat constructor; intros []|].
  apply nodup_flat_map.
  - apply (H k vs). left. reflexivity.
  - intro v. apply nodup_map_inj; [intros x y [=]; auto|]. apply IH. intros. apply (H k0). right. auto.
  - intros a a' b A B. apply in_map_iff in A, B. destruct A as [x [<- _]], B as [y [E _]]. congruence.
Qed.

Lemma sweep_runs_all prefix args to_sweep template dnr fs :
  dict_ok to_sweep -> to_sweep <> [] -> readable_pars to_sweep ->
  (forall s c, In c (product to_sweep) -> ~ In (output_directory prefix args template s c) fs) ->
  exists runs process' fs',
    sweep_parameters prefix args to_sweep template dnr process0 fs = Ok (runs, process', fs') /\
    (forall s c, In s (seq (a_starting_seed_id args) (a_nr_of_seeds args)) -> In c (product to_sweep) ->
       In (run_args template (output_directory prefix args template s c) s c) runs) /\
    ((forall k vs, In (k, vs) to_sweep -> NoDup vs) ->
     runs = flat_map (fun s => map (fun c => run_args template
                (output_directory prefix args template s c) s c) (product to_sweep))
              (seq (a_starting_seed_id args) (a_nr_of_seeds args))).
Proof.
  intros D N R F. unfold sweep_parameters. 
  assert (S1 := sweep_fresh to_sweep D N).
  destruct (sweep_default to_sweep process0) as [r p]. cbn [fst] in S1. subst r.
  do 3 eexists. split; [reflexivity|]. rewrite product_cart in *. set (seeds := seq _ _).
  assert (J : forall j, In j (flat_map (fun s => map (fun d => (s, d)) (cart to_sweep)) seeds) <->
              In (fst j) seeds /\ In (snd j) (cart to_sweep)).
  { intros [s c]. rewrite in_flat_map. split.
    - intros [s' [A B]]. apply in_map_iff in B. destruct B as [c' [E B]]. injection E as <- <-. auto.
    - intros [A B]. exists s. split; auto. simpl. apply in_map_iff. exists c. auto. }
  split.
  - intros s c Hs Hc.
    apply (runs_all prefix args template dnr _ fs []) with (j := (s, c)).
    + intros [s1 c1] [s2 c2] A B E. apply J in A, B. simpl in *.
      destruct (directory_inj prefix args template to_sweep R s1 s2 c1 c2) as [-> ->]; tauto.
    + intros j A B. apply J in A. exfalso. apply (F (fst j) (snd j)); tauto.
    + apply J. simpl. auto.
  - intro ND. rewrite runs_exact.
    + simpl. rewrite !flat_map_concat_map, concat_map, map_map. f_equal. apply map_ext. intro s.
      rewrite map_map. reflexivity.
    + assert (G : forall l, NoDup l -> (forall j j', In j l -> In j' l ->
        output_directory prefix args template (fst j) (snd j) =
        output_directory prefix args template (fst j') (snd j') -> j = j') ->
        NoDup (map (fun sd => output_directory prefix args template (fst sd) (snd sd)) l)).
      { induction l as [|a l IH]; intros A B; simpl; constructor.
        - rewrite in_map_iff. intros [x [E Hx]]. apply NoDup_cons_iff in A. apply B in E; simpl; auto.
          subst. tauto.
        - apply IH; [apply NoDup_cons_iff in A; tauto|]. intros. apply B; simpl; auto. }
      apply G.
      * apply nodup_flat_map; [apply seq_NoDup| |].
        -- intro s. apply nodup_map_inj; [intros x y [=]; auto|]. apply cart_nodup. exact ND.
        -- intros a a' b A B. apply in_map_iff in A, B. destruct A as [x [<- _]], B as [y [E _]].
           congruence.
      * intros [s1 c1] [s2 c2] A B E. apply J in A, B. simpl in *.
        destruct (directory_inj prefix args template to_sweep R s1 s2 c1 c2) as [-> ->]; tauto.
    + intros j A. apply J in A. apply F. tauto.
Qed.

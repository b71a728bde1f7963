(** Proofs about concatenated results and about what enlargement accepts. *)
From Coq Require Import List String Ascii Arith ZArith QArith Qcanon Lia Bool.
From Verif Require Import Base BaseFacts Tensor ScdModel ScdSpec ScdProofs ScdProofs4 BlockModel BlockSpec BlockProofs BlockProofs2
  BlockProofs3 BlockProofs4.
Import ListNotations.
Open Scope nat_scope.

(** ** Concatenated results *)
Lemma concatenable_side_by_side {A} dim (d : sdict (sdict (tensor A))) :
  concatenable dim d -> exists c, concatenate_dict_of_dicts d dim = Ok c /\ side_by_side dim d c.
Proof.
  intros (L & W & N & S & G).
  destruct (concatenate_deconcatenate_full dim d L W N S G) as (c & E & _ & K & P).
  exists c. split; [exact E|]. split; [exact K|exact P].
Qed.

Section Concatenated.
Context {A : Type}.
Variable zero : A.
Variable ig : @integrand A.
Variable has_attr : string -> bool.
Variable rnd : nat -> nat -> A.
Variable solve : @block A -> list A -> list Qc -> result (tensor A).
Notation tdicts := (sdict (sdict (tensor A))).

Lemma only_concatenable dim (d : tdicts) key : concatenable dim d ->
  concatenable dim (map (fun kd => (fst kd, only key (snd kd))) d).
Proof.
  intros (L & (W & F) & N & S & G). split; [exact L|].
  assert (O : forall n b, In (n, b) (map (fun kd => (fst kd, only key (snd kd))) d) ->
    exists b0, In (n, b0) d /\ b = only key b0).
  { intros n b I. apply in_map_iff in I as ((n0 & b0) & E & I). injection E as <- <-. eauto. }
  assert (OK : forall (b : sdict (tensor A)) k t, In (k, t) (only key b) -> In (k, t) b).
  { intros b k t I. unfold only in I. destruct (sd_get key b) eqn:E; [|destruct I].
    destruct I as [I|[]]. injection I as <- <-. apply sd_get_in, E. }
  split; [split|split; [|split]].
  - apply (sd_wf_map (fun kd => only key (snd kd)) d W).
  - apply Forall_forall. intros (n, b) I. apply O in I as (b0 & I & ->). cbn.
    rewrite Forall_forall in F. specialize (F _ I). destruct F as (Wb & Tb). split.
    + unfold only. destruct (sd_get key b0); [|apply sd_wf_nil]. repeat constructor.
    + apply Forall_forall. intros (k, t) I'. apply OK in I'. rewrite Forall_forall in Tb. apply (Tb _ I').
  - destruct d; [congruence|discriminate].
  - intros n1 b1 n2 b2 I1 I2. apply O in I1 as (c1 & I1 & ->). apply O in I2 as (c2 & I2 & ->).
    pose proof (S _ _ _ _ I1 I2) as E. unfold only.
    destruct (sd_get key c1) eqn:E1, (sd_get key c2) eqn:E2; try reflexivity.
    + apply sd_get_none in E2. destruct E2. rewrite <- E. apply sd_get_in in E1.
      change key with (fst (key, t)). apply in_map, E1.
    + apply sd_get_none in E1. destruct E1. rewrite E. apply sd_get_in in E2.
      change key with (fst (key, t)). apply in_map, E2.
  - intros n1 b1 n2 b2 k t1 t2 I1 I2 J1 J2. apply O in I1 as (c1 & I1 & ->). apply O in I2 as (c2 & I2 & ->).
    apply (G n1 c1 n2 c2 k); auto.
Qed.

Lemma disassembled_output dim input ps (b : @block A) s c d res :
  disassemble_tensor input ps dim = Ok (s, c, d) -> disassemble ig input ps dim = Ok res ->
  (exists t, res = OneTensor t) \/ res = ManyBlocks (map (fun kd => (fst kd, only (ig_output_key ig) (snd kd))) d).
Proof.
  intros E E2. unfold disassemble in E2. rewrite E in E2. cbn [bind] in E2.
  pose proof (disassemble_tensor_wf _ _ _ _ _ _ E) as (_ & _ & W).
  rewrite extract_key_spec in E2 by exact W.
  destruct d as [|(n, b1) [|]].
  - injection E2 as <-. right. reflexivity.
  - destruct (sd_get _ _); [|discriminate]. injection E2 as <-. left. eauto.
  - injection E2 as <-. right. reflexivity.
Qed.

Lemma integrated_output x0 (b : @block A) s c d res :
  snd (integrate_and_disassemble ig solve x0 b) = Ok (s, c, d, res) ->
  (exists t, res = OneTensor t) \/ res = ManyBlocks (map (fun kd => (fst kd, only (ig_output_key ig) (snd kd))) d).
Proof.
  unfold integrate_and_disassemble. cbn [snd].
  assert (G : forall input dim,
    ('(s, c, d) <- disassemble_tensor input (b_plans b) dim ;;
     res <- disassemble ig input (b_plans b) dim ;; Ok (s, c, d, res)) = Ok (s, c, d, res) ->
    (exists t, res = OneTensor t) \/ res = ManyBlocks (map (fun kd => (fst kd, only (ig_output_key ig) (snd kd))) d)).
  { intros input dim E. apply bind_ok in E as [[[s1 c1] d1] [E1 E]]. apply bind_ok in E as [r1 [E2 E]].
    injection E as <- <- <- <-. eapply disassembled_output; eauto. }
  destruct (b_time_vec b).
  - intros E. apply bind_ok in E as [all [_ E]]. eapply G; exact E.
  - destruct (b_time b); [|discriminate]. intros E. apply bind_ok in E as [all [_ E]].
    apply bind_ok in E as [m [_ E]]. apply bind_ok in E as [f [_ E]]. eapply G; exact E.
Qed.

Lemma concatenated_forward x st co data (b b' : @block A) o s c d :
  ig_concatenate ig = true ->
  forward zero (separate ig) has_attr rnd solve x st co data b = (b', Ok (o, s, c, d)) ->
  concatenable (ig_concat_dim ig) s -> concatenable (ig_concat_dim ig) c -> concatenable (b_data_dim b') d ->
  exists o' cs cc cd,
    forward zero ig has_attr rnd solve x st co data b
      = (b', Ok (o', [(b_name b', cs)], [(b_name b', cc)], [(b_name b', cd)])) /\
    side_by_side (ig_concat_dim ig) s cs /\ side_by_side (ig_concat_dim ig) c cc /\
    side_by_side (b_data_dim b') d cd /\
    match o with
    | RTensor t => o' = RTensor t
    | RBlocks m => exists r, side_by_side (b_data_dim b') m r /\
                     o' = match r with [(_, t)] => RTensor t | _ => RDict r end
    | RDict _ => False
    end.
Proof.
  intros HC E Cs Cc Cd.
  destruct (forward_ok_inv _ _ _ _ _ _ _ _ _ _ _ _ E)
    as (H1 & H2 & b1 & st' & co' & dd & z & b2 & x0 & ps & (((s1 & c1) & d1) & res) & E1 & E2 & E3 & E4 & E5 & ->).
  unfold finish_outputs in E5. cbn [separate ig_concatenate snd] in E5. injection E5 as <- <- <- <-.
  assert (E4' : snd (integrate_and_disassemble ig solve x0 (set_plans (Some ps) b2)) = Ok (s1, c1, d1, res)) by exact E4.
  pose proof (integrated_output _ _ _ _ _ _ E4') as OUT.
  cbn [b_data_dim b_name set_fresh set_plans] in *.
  change (b_data_dim (set_fresh false (set_plans (Some ps) b2))) with (b_data_dim b2) in *.
  change (b_name (set_fresh false (set_plans (Some ps) b2))) with (b_name b2) in *.
  destruct (concatenable_side_by_side _ _ Cs) as (cs & Es & Ss).
  destruct (concatenable_side_by_side _ _ Cc) as (cc & Ec & Sc).
  destruct (concatenable_side_by_side _ _ Cd) as (cd & Ed & Sd).
  assert (OO : exists o', concatenate_output res (b_data_dim b2) = Ok o' /\
    match (match res with OneTensor t => RTensor t | ManyBlocks m => RBlocks m end : @output A) with
    | RTensor t => o' = RTensor t
    | RBlocks m => exists r, side_by_side (b_data_dim b2) m r /\
                     o' = match r with [(_, t)] => RTensor t | _ => RDict r end
    | RDict _ => False
    end).
  { destruct OUT as [(t & ->)| ->].
    - exists (RTensor t). split; reflexivity.
    - destruct (concatenable_side_by_side _ _ (only_concatenable _ _ (ig_output_key ig) Cd)) as (r & Er & Sr).
      unfold concatenate_output. rewrite Er. cbn [bind].
      exists (match r with [(_, t)] => RTensor t | _ => RDict r end). split; [|exists r; auto].
      destruct r as [|(k, t) [|]]; reflexivity. }
  destruct OO as (o' & Eo & So). exists o', cs, cc, cd.
  split; [|auto].
  eapply (forward_ok_intro zero ig has_attr rnd solve); [exact H1|exact H2|exact E1|exact E2|exact E3|exact E4'|].
  unfold finish_outputs. cbn [snd]. rewrite HC. unfold concatenate_named.
  change (b_data_dim (set_plans (Some ps) b2)) with (b_data_dim b2).
  change (b_name (set_plans (Some ps) b2)) with (b_name b2).
  rewrite Es. cbn [bind]. rewrite Ec. cbn [bind]. rewrite Ed. cbn [bind]. rewrite Eo. reflexivity.
Qed.

(** ** What enlargement accepts *)
Lemma size_diff_fits desired current r : size_diff desired current = Ok r ->
  forall i n, nth_error current i = Some n -> exists m, nth_error desired i = Some m /\ n <= m.
Proof.
  revert desired r. induction current as [|c cs IH]; intros [|d ds] r H i n I.
  - destruct i; discriminate.
  - destruct i; discriminate.
  - discriminate.
  - cbn [size_diff] in H. destruct (d <? c) eqn:E; [discriminate|].
    apply bind_ok in H as (r' & H & _). apply Nat.ltb_ge in E.
    destruct i as [|i]; cbn [nth_error] in *; [injection I as <-; eauto|]. eapply IH; eauto.
Qed.

Lemma set_nth_other {V} i (x : V) : forall l j, i <> j -> nth_error (set_nth i x l) j = nth_error l j.
Proof.
  induction i as [|i IH]; intros [|a l] [|j] N; cbn; auto; congruence.
Qed.

Lemma create_step_fits k desired0 s acc (nd : string * sdict (tensor A)) (b b' : @block A) acc' :
  create_enlargement_step zero ig rnd k desired0 s acc nd b = (b', Ok acc') ->
  exists t, sd_get k (snd nd) = Some t /\ fits_in (tshape t) desired0.
Proof.
  unfold create_enlargement_step. rewrite mbind_at. unfold lift at 1.
  unfold sd_item at 1. destruct (sd_get k (snd nd)) as [t|]; [|discriminate].
  rewrite mbind_at. unfold lift at 1. destruct (list_item _ 1) as [c|]; [|discriminate].
  rewrite mbind_at. unfold lift at 1. destruct (list_set desired0 1 c) as [ds|] eqn:ES; [|discriminate].
  rewrite mbind_at. unfold lift at 1. destruct (size_diff ds (tshape t)) as [df|] eqn:ED; [|discriminate].
  intros _. exists t. split; [reflexivity|]. intros i n I N.
  destruct (size_diff_fits _ _ _ ED i n I) as (m & J & L). exists m. split; [|exact L].
  unfold list_set in ES. destruct (1 <? List.length desired0); [|discriminate].
  assert (ED' : ds = set_nth 1 c desired0) by congruence. rewrite ED' in J.
  rewrite set_nth_other in J by congruence. exact J.
Qed.

Lemma loop_each {B S} (f : S -> B -> @M A S) l : forall acc (b b' : @block A) acc',
  loop f l acc b = (b', Ok acc') -> forall x, In x l -> exists a1 b1 b2 a2, f a1 x b1 = (b2, Ok a2).
Proof.
  induction l as [|y l IH]; intros acc b b' acc' E x I; [destruct I|].
  cbn [loop] in E. rewrite mbind_at in E. destruct (f acc y b) as [b1 [a1|]] eqn:E1; [|discriminate].
  destruct I as [<-|I]; [eauto|]. eapply IH; eauto.
Qed.

Lemma create_fits dicts desired s (b b' : @block A) r : ig_enlargement ig = true ->
  create_enlargement zero ig rnd dicts (Some desired) s b = (b', Ok r) ->
  forall k t0 n d, In (k, t0) desired -> In (n, d) dicts ->
  exists t, sd_get k d = Some t /\ fits_in (tshape t) (tshape t0).
Proof.
  intros HE E k t0 n d Ik In_. unfold create_enlargement in E. rewrite HE, mbind_at in E.
  destruct (loop _ desired [] b) as [b1 [acc|]] eqn:E1; [|discriminate].
  destruct (loop_each _ _ _ _ _ _ E1 _ Ik) as (a1 & b2 & b3 & a2 & E2).
  destruct (loop_each _ _ _ _ _ _ E2 _ In_) as (a3 & b4 & b5 & a4 & E3).
  apply create_step_fits in E3. exact E3.
Qed.

Lemma first_forward_creates x st co data (b b' : @block A) o :
  b_fresh b = true -> b_st_enl b = None -> b_co_enl b = None -> b_enlarge b = true ->
  forward zero ig has_attr rnd solve x (Some st) (Some co) data b = (b', Ok o) ->
  exists b2 b3 b4 b5 s1 c1 u u',
    create_enlargement zero ig rnd st (b_state b) true b = (b2, Ok s1) /\
    create_enlargement zero ig rnd co (b_costate b) false b2 = (b3, Ok c1) /\
    register_enlargement has_attr (b_keep_zero b) s1 b3 = (b4, Ok u) /\
    register_enlargement has_attr false c1 b4 = (b5, Ok u') /\
    b_st_enl b' = s1 /\ b_co_enl b' = c1 /\ b_store b' = b_store b5.
Proof.
  intros F N1 N2 HE E.
  destruct (forward_after zero ig has_attr rnd solve _ _ _ _ _ _ _ E) as [(S1 & S2 & S3 & S4) [r ER]].
  rewrite S1, S2, S3. clear E S1 S2 S3 S4. unfold effective_pass_through in *. rewrite HE in *.
  rewrite mbind_at in *.
  destruct (get_or_create_enlargement zero ig has_attr rnd st co b) as [b1 [[es ec]|]] eqn:EG; [|discriminate].
  unfold mbind, modify, enlarge_pass_through, ret in *. cbn in *.
  destruct (bind _ _) as [[s' c']|]; [|discriminate]. cbn [fst b_st_enl b_co_enl set_enl b_store].
  unfold get_or_create_enlargement in EG. rewrite F, N1, N2 in EG. cbn [orb] in EG.
  rewrite mbind_at in EG.
  destruct (create_enlargement zero ig rnd st (b_state b) true b) as [b2 [s1|]] eqn:E1; [|discriminate].
  rewrite mbind_at in EG.
  destruct (create_enlargement zero ig rnd co (b_costate b) false b2) as [b3 [c1|]] eqn:E2; [|discriminate].
  rewrite mbind_at in EG.
  destruct (register_enlargement has_attr (b_keep_zero b) s1 b3) as [b4 [u|]] eqn:E3; [|discriminate].
  rewrite mbind_at in EG.
  destruct (register_enlargement has_attr false c1 b4) as [b5 [u'|]] eqn:E4; [|discriminate].
  injection EG as <- <- <-. exists b2, b3, b4, b5, s1, c1, u, u'. repeat split; auto.
Qed.

Lemma forward_fits x st co data (b b' : @block A) o s0 c0 :
  b_fresh b = true -> b_st_enl b = None -> b_co_enl b = None -> b_enlarge b = true ->
  ig_enlargement ig = true -> b_state b = Some s0 -> b_costate b = Some c0 ->
  forward zero ig has_attr rnd solve x (Some st) (Some co) data b = (b', Ok o) ->
  (forall k t0 n d, In (k, t0) s0 -> In (n, d) st ->
     exists t, sd_get k d = Some t /\ fits_in (tshape t) (tshape t0)) /\
  (forall k t0 n d, In (k, t0) c0 -> In (n, d) co ->
     exists t, sd_get k d = Some t /\ fits_in (tshape t) (tshape t0)).
Proof.
  intros F N1 N2 HE HI ES EC E.
  destruct (first_forward_creates _ _ _ _ _ _ _ F N1 N2 HE E) as (b2 & b3 & b4 & b5 & s1 & c1 & u & u' & E1 & E2 & _).
  rewrite ES in E1. rewrite EC in E2. split; eapply create_fits; eauto.
Qed.

(** ** Every enlargement tensor has its own parameter object *)
Definition ids (d : sdict (sdict (option (nat * list nat)))) : list nat :=
  map snd (used_enlargements (Some d)).

Definition block_ids (e : sdict (option (nat * list nat))) : list nat :=
  flat_map (fun ke => match snd ke with Some (p, _) => [p] | None => [] end) e.

Lemma ids_flat d : ids d = flat_map (fun kd => block_ids (snd kd)) d.
Proof.
  unfold ids, used_enlargements, block_ids. induction d as [|(n, e) d IH]; [reflexivity|].
  cbn [flat_map]. rewrite map_app, IH. f_equal. cbn [snd]. clear.
  induction e as [|(k, [(p, l)|]) e IH]; cbn; congruence.
Qed.

Lemma sd_set_split {V} k (v : V) d : exists l1 mid l2,
  d = l1 ++ mid ++ l2 /\ sd_set k v d = l1 ++ (k, v) :: l2 /\
  (mid = [] \/ exists old, mid = [(k, old)] /\ sd_get k d = Some old).
Proof.
  induction d as [|(k', v') d IH]; cbn.
  - exists [], [], []. auto.
  - destruct (String.eqb k k') eqn:E.
    + apply String.eqb_eq in E; subst k'. exists [], [(k, v')], d. repeat split; auto. right. exists v'. auto.
    + destruct (str_ltb k k').
      * exists [], [], ((k', v') :: d). auto.
      * destruct IH as (l1 & mid & l2 & -> & -> & H). exists ((k', v') :: l1), mid, l2.
        repeat split; auto.
Qed.

Lemma block_ids_set k p l e :
  NoDup (block_ids e) -> ~ In p (block_ids e) ->
  NoDup (block_ids (sd_set k (Some (p, l)) e)) /\ incl (block_ids (sd_set k (Some (p, l)) e)) (p :: block_ids e).
Proof.
  intros N F. destruct (sd_set_split k (Some (p, l)) e) as (l1 & mid & l2 & E & -> & _). subst e.
  unfold block_ids in *. rewrite !flat_map_app in *. cbn [flat_map snd]. cbn [app].
  set (a := flat_map _ l1) in *. set (m := flat_map _ mid) in *. set (c := flat_map _ l2) in *.
  rewrite !in_app_iff in F.
  assert (N' : NoDup (a ++ c)).
  { clear - N. revert N. induction a as [|x a IH]; cbn; intros N.
    - induction m; cbn in N; [exact N|]. inversion N; auto.
    - inversion N; subst. constructor; auto. intros I. apply H1. rewrite !in_app_iff in *. tauto. }
  split.
  - apply NoDup_Add with (a := p) (l := a ++ c); [apply Add_app|]. split; [exact N'|]. rewrite in_app_iff. tauto.
  - intros x. rewrite in_app_iff. cbn. rewrite !in_app_iff. tauto.
Qed.

Lemma block_ids_unset k e : NoDup (block_ids e) ->
  NoDup (block_ids (sd_set k None e)) /\ incl (block_ids (sd_set k None e)) (block_ids e).
Proof.
  intros N. destruct (sd_set_split k None e) as (l1 & mid & l2 & E & -> & _). subst e.
  unfold block_ids in *. rewrite !flat_map_app in *. cbn [flat_map snd app].
  set (a := flat_map _ l1) in *. set (m := flat_map _ mid) in *. set (c := flat_map _ l2) in *.
  split.
  - clear - N. revert N. induction a as [|x a IH]; cbn; intros N.
    + induction m; cbn in N; [exact N|]. inversion N; auto.
    + inversion N; subst. constructor; auto. intros I. apply H1. rewrite !in_app_iff in *. tauto.
  - intros x. rewrite !in_app_iff. tauto.
Qed.


Lemma sd_set_present {V} n (e e0 : V) d : sd_wf d -> sd_get n d = Some e0 ->
  exists l1 l2, d = l1 ++ (n, e0) :: l2 /\ sd_set n e d = l1 ++ (n, e) :: l2.
Proof.
  intros W G. induction d as [|(k', v') d IH]; cbn in *; [discriminate|].
  apply sd_wf_cons_inv in W as (W & F). destruct (String.eqb n k') eqn:Ek.
  - apply String.eqb_eq in Ek as <-. injection G as ->. exists [], d. auto.
  - destruct (str_ltb n k') eqn:El.
    + exfalso. apply sd_get_in, (in_map fst) in G. rewrite Forall_forall in F. specialize (F _ G).
      cbn [fst] in F. apply (str_lt_asym n k'); assumption.
    + destruct (IH W G) as (l1 & l2 & -> & ->). exists ((k', v') :: l1), l2. auto.
Qed.

(** Replacing a block whose parameters are those it had, or new ones. *)
Lemma ids_set n e e0 d (fresh : list nat) : sd_wf d -> NoDup (ids d) ->
  sd_get n d = Some e0 -> NoDup (block_ids e) -> incl (block_ids e) (fresh ++ block_ids e0) ->
  (forall p, In p fresh -> ~ In p (ids d)) ->
  NoDup (ids (sd_set n e d)) /\ incl (ids (sd_set n e d)) (fresh ++ ids d).
Proof.
  intros W N G NE I F. destruct (sd_set_present n e e0 d W G) as (l1 & l2 & E & ->).
  rewrite !ids_flat in *. rewrite E in *. clear E. rewrite !flat_map_app in *. cbn [flat_map snd] in *.
  set (a := flat_map _ l1) in *. set (m := block_ids e0) in *. set (c := flat_map _ l2) in *.
  set (m' := block_ids e) in *. split.
  - assert (D : forall x, In x m' -> ~ In x a /\ ~ In x c).
    { intros x Ix. apply I in Ix. apply in_app_iff in Ix as [Ix|Ix].
      - specialize (F x Ix). rewrite !in_app_iff in F. tauto.
      - clear - N Ix. split; intros J.
        + induction a as [|y a IH]; [destruct J|]. cbn in N. inversion N; subst.
          destruct J as [->|J]; [|auto]. apply H1. rewrite !in_app_iff. tauto.
        + assert (N' : NoDup (m ++ c)) by (clear J; induction a; cbn in N; [exact N|inversion N; auto]).
          clear N. induction m as [|y m IH]; [destruct Ix|]. cbn in N'. inversion N'; subst.
          destruct Ix as [->|Ix]; [|auto]. apply H1. rewrite in_app_iff. tauto. }
    assert (Nac : NoDup (a ++ c)).
    { clear - N. revert N. induction a as [|x a IH]; cbn; intros N.
      - induction m; cbn in N; [exact N|]. inversion N; auto.
      - inversion N; subst. constructor; auto. intros J. apply H1. rewrite !in_app_iff in *. tauto. }
    clear - NE D Nac. induction a as [|x a IH]; cbn in *.
    + induction m' as [|y m' IH']; [exact Nac|]. inversion NE; subst. cbn. constructor.
      * rewrite in_app_iff. intros [J|J]; [auto|]. destruct (D y); [left; reflexivity|]. auto.
      * apply IH'; [assumption|]. intros x Ix. apply D. right. exact Ix.
    + inversion Nac; subst. constructor.
      * rewrite in_app_iff in *. rewrite in_app_iff. intros [J|[J|J]]; [tauto| |tauto].
        destruct (D x J) as (D1 & _). apply D1. left. reflexivity.
      * apply IH; [|assumption]. intros y J. destruct (D y J). tauto.
  - intros x J. rewrite !in_app_iff in *. destruct J as [J|[J|J]]; auto.
    apply I in J. rewrite in_app_iff in J. tauto.
Qed.

Definition own (lo : nat) (acc : sdict (sdict (option (nat * list nat)))) (b : @block A) : Prop :=
  sd_wf acc /\ NoDup (ids acc) /\ lo <= List.length (b_store b) /\
  forall p, In p (ids acc) -> lo <= p < List.length (b_store b).

Lemma block_ids_incl n e d : In (n, e) d -> incl (block_ids e) (ids d).
Proof. intros I x J. rewrite ids_flat. apply in_flat_map. exists (n, e). auto. Qed.

Lemma block_ids_NoDup n e d : In (n, e) d -> NoDup (ids d) -> NoDup (block_ids e).
Proof.
  intros I N. rewrite ids_flat in N. apply in_split in I as (l1 & l2 & ->).
  rewrite flat_map_app in N. cbn [flat_map snd] in N.
  revert N. generalize (flat_map (fun kd => block_ids (snd kd)) l1) as a.
  induction a as [|x a IH]; cbn; intros N; [|inversion N; auto].
  revert N. generalize (block_ids e) as m. induction m as [|y m IH]; cbn; intros N; constructor.
  - inversion N; subst. rewrite in_app_iff in *. tauto.
  - inversion N; auto.
Qed.

Lemma create_parameters_new r z n (b b' : @block A) p :
  create_parameters_of_size zero rnd r z n b = (b', Ok p) ->
  p = List.length (b_store b) /\ List.length (b_store b') = S p.
Proof.
  unfold create_parameters_of_size. destruct z; [|destruct r].
  - intros H. injection H as <- <-. cbn. rewrite app_length. cbn. lia.
  - intros H. injection H as <- <-. cbn. rewrite app_length. cbn. lia.
  - discriminate.
Qed.

Lemma own_add_block lo acc b n : own lo acc b ->
  own lo (if sd_mem n acc then acc else sd_set n [] acc) b.
Proof.
  intros (W & N & L & F). destruct (sd_mem n acc) eqn:E; [exact (conj W (conj N (conj L F)))|].
  destruct (sd_set_split n [] acc) as (l1 & mid & l2 & E1 & E2 & M).
  assert (I : ids (sd_set n [] acc) = ids acc).
  { rewrite !ids_flat, E2, E1, !flat_map_app. cbn [flat_map snd block_ids app].
    destruct M as [->|(old & -> & G)]; [reflexivity|].
    exfalso. unfold sd_mem in E. rewrite G in E. discriminate E. }
  split; [apply sd_set_wf, W|]. rewrite I. auto.
Qed.

Lemma own_step lo k ds0 s nd acc (b b' : @block A) acc' :
  create_enlargement_step zero ig rnd k ds0 s acc nd b = (b', Ok acc') -> own lo acc b -> own lo acc' b'.
Proof.
  intros E O. apply (own_add_block _ _ _ (fst nd)) in O. unfold create_enlargement_step in E.
  set (acc1 := if sd_mem (fst nd) acc then acc else sd_set (fst nd) [] acc) in *. clearbody acc1.
  rewrite mbind_at in E. unfold lift at 1 in E. destruct (sd_item k (snd nd)) as [t|]; [|discriminate].
  rewrite mbind_at in E. unfold lift at 1 in E. destruct (list_item _ 1) as [c|]; [|discriminate].
  rewrite mbind_at in E. unfold lift at 1 in E. destruct (list_set ds0 1 c) as [ds|]; [|discriminate].
  rewrite mbind_at in E. unfold lift at 1 in E. destruct (size_diff ds (tshape t)) as [df|]; [|discriminate].
  rewrite mbind_at in E. unfold lift at 1, sd_item in E.
  destruct (sd_get (fst nd) acc1) as [cur|] eqn:EC; [|discriminate].
  destruct O as (W & N & L & F).
  pose proof (sd_get_in _ _ _ EC) as IC.
  pose proof (block_ids_NoDup _ _ _ IC N) as NC. pose proof (block_ids_incl _ _ _ IC) as LC.
  destruct (existsb _ df).
  - rewrite mbind_at in E.
    destruct (create_raw_enlargement_parameters zero ig rnd ds (tshape t) s b) as [b1 [p|]] eqn:EP; [|discriminate].
    injection E as <- <-.
    assert (P : p = List.length (b_store b) /\ List.length (b_store b1) = S p).
    { unfold create_raw_enlargement_parameters in EP. destruct (prod ds <? prod (tshape t)); [discriminate|].
      destruct s; eapply create_parameters_new; exact EP. }
    destruct P as (P & PL).
    assert (NP : ~ In p (ids acc1)) by (intros J; apply F in J; lia).
    destruct (block_ids_set k p df cur NC (fun J => NP (LC _ J))) as (N1 & I1).
    destruct (ids_set (fst nd) (sd_set k (Some (p, df)) cur) cur acc1 [p] W N EC N1) as (N2 & I2).
    { intros x J. apply I1 in J. cbn in *. tauto. }
    { intros q [<-|[]]. exact NP. }
    split; [apply sd_set_wf, W|split; [exact N2|split; [lia|]]].
    intros q J. apply I2 in J. cbn in J. destruct J as [<-|J]; [lia|]. apply F in J. lia.
  - injection E as <- <-.
    destruct (block_ids_unset k cur NC) as (N1 & I1).
    destruct (ids_set (fst nd) (sd_set k None cur) cur acc1 [] W N EC N1 I1) as (N2 & I2).
    { intros q []. }
    split; [apply sd_set_wf, W|split; [exact N2|split; [lia|]]].
    intros q J. apply I2 in J. apply F, J.
Qed.

Lemma loop_own {B} lo (f : sdict (sdict (option (nat * list nat))) -> B -> @M A (sdict (sdict (option (nat * list nat))))) l :
  (forall acc x b b' acc', f acc x b = (b', Ok acc') -> own lo acc b -> own lo acc' b') ->
  forall acc b b' acc', loop f l acc b = (b', Ok acc') -> own lo acc b -> own lo acc' b'.
Proof.
  intros HF. induction l as [|x l IH]; intros acc b b' acc' E O.
  - injection E as <- <-. exact O.
  - cbn [loop] in E. rewrite mbind_at in E. destruct (f acc x b) as [b1 [a1|]] eqn:E1; [|discriminate].
    eapply IH; [exact E|]. eapply HF; eauto.
Qed.

Lemma create_own dicts desired s (b b' : @block A) r :
  create_enlargement zero ig rnd dicts desired s b = (b', Ok r) ->
  List.length (b_store b) <= List.length (b_store b') /\ NoDup (map snd (used_enlargements r)) /\
  forall p, In p (map snd (used_enlargements r)) -> List.length (b_store b) <= p < List.length (b_store b').
Proof.
  assert (T : forall o : option (sdict (sdict (option (nat * list nat)))), (b, Ok None) = (b', Ok o) ->
    List.length (b_store b) <= List.length (b_store b') /\ NoDup (map snd (used_enlargements o)) /\
    forall p, In p (map snd (used_enlargements o)) -> List.length (b_store b) <= p < List.length (b_store b')).
  { intros o H. injection H as <- <-. cbn. split; [lia|split; [constructor|intros p []]]. }
  unfold create_enlargement. destruct desired as [d|]; [|apply T].
  destruct (ig_enlargement ig); [|apply T]. rewrite mbind_at.
  destruct (loop _ d [] b) as [b1 [acc|]] eqn:E1; [|discriminate]. intros H. injection H as <- <-.
  assert (O : own (List.length (b_store b)) acc b1).
  { eapply loop_own; [|exact E1|].
    - intros a x c c' a' H O. eapply loop_own; [|exact H|exact O]. intros. eapply own_step; eauto.
    - split; [apply sd_wf_nil|split; [constructor|split; [lia|intros p []]]]. }
  destruct O as (_ & N & L & F). split; [exact L|split; [exact N|exact F]].
Qed.

Lemma register_same_store z d (b b' : @block A) u :
  register_enlargement has_attr z d b = (b', Ok u) -> b_store b' = b_store b.
Proof.
  destruct d as [d|]; cbn [register_enlargement]; [|intros H; injection H as <- _; reflexivity].
  assert (G1 : forall l a (c c' : @block A) a', loop (register_entry has_attr z) l a c = (c', Ok a') -> b_store c' = b_store c).
  { induction l as [|(k, e) l IH]; intros a c c' a' H; cbn [loop] in H.
    - injection H as <- _. reflexivity.
    - rewrite mbind_at in H. unfold register_entry at 1 in H. cbn [snd fst] in H.
      destruct e as [(p, df)|]; [destruct z; [discriminate|]|].
      + destruct (register_parameter _ _ _ _); [|discriminate]. apply IH in H. exact H.
      + apply IH in H. exact H. }
  revert b b' u. generalize tt at 1. induction d as [|(n, e) d IH]; intros a b b' u H; cbn [loop] in H.
  - injection H as <- _. reflexivity.
  - rewrite mbind_at in H. destruct (loop (register_entry has_attr z) _ a b) as [b1 [u1|]] eqn:E1; [|discriminate].
    apply IH in H. apply G1 in E1. congruence.
Qed.

Lemma enlargements_own x st co data (b b' : @block A) o :
  b_fresh b = true -> b_st_enl b = None -> b_co_enl b = None -> b_enlarge b = true ->
  forward zero ig has_attr rnd solve x (Some st) (Some co) data b = (b', Ok o) ->
  NoDup (map snd (used_enlargements (b_st_enl b') ++ used_enlargements (b_co_enl b'))) /\
  forall p, In p (map snd (used_enlargements (b_st_enl b') ++ used_enlargements (b_co_enl b'))) ->
    List.length (b_store b) <= p < List.length (b_store b').
Proof.
  intros F N1 N2 HE E.
  destruct (first_forward_creates _ _ _ _ _ _ _ F N1 N2 HE E)
    as (b2 & b3 & b4 & b5 & s1 & c1 & u & u' & E1 & E2 & E3 & E4 & -> & -> & ->).
  apply create_own in E1 as (L1 & D1 & F1). apply create_own in E2 as (L2 & D2 & F2).
  apply register_same_store in E3. apply register_same_store in E4. rewrite E4, E3, map_app.
  split.
  - revert D1 F1. generalize (map snd (used_enlargements s1)) as a. induction a as [|y a IH]; intros D1 F1; [exact D2|].
    inversion D1; subst. cbn. constructor.
    + rewrite in_app_iff. intros [J|J]; [auto|]. apply F2 in J. specialize (F1 y (or_introl eq_refl)). lia.
    + apply IH; [assumption|]. intros p J. apply F1. right. exact J.
  - intros p J. apply in_app_iff in J as [J|J]; [apply F1 in J|apply F2 in J]; lia.
Qed.
End Concatenated.

(** One block of the residual network: shapes and parameters. *)
From Coq Require Import List String Ascii Arith ZArith QArith Qcanon Lia Bool Sorting.Sorted.
From Verif Require Import Base BaseFacts Tensor TensorFacts ScdModel ScdSpec ScdProofs ScdProofs2
  ScdProofs3 ScdProofs4 BlockModel BlockSpec BlockProofs BlockProofs2 BlockProofs4 BlockProofs5 EnlargeProofs
  StridingModel NetworkModel NetworkSpec.
Import ListNotations.
Open Scope string_scope.
Open Scope list_scope.
Open Scope nat_scope.

Section Shapes.
Context {A : Type}.
Notation tdict := (sdict (tensor A)).
Notation tdicts := (sdict (sdict (tensor A))).

Definition ft (sh : list nat) (t : tensor A) : Prop := twf t /\ tshape t = sh.

Definition var2 (k1 k2 : string) (sh : list nat) (d : tdict) : Prop :=
  exists t1 t2, d = [(k1, t1); (k2, t2)] /\ ft sh t1 /\ ft sh t2.

(** Families of blocks with two variables each. *)
Definition fam (k1 k2 : string) (ns : list (string * list nat)) (f : tdicts) : Prop :=
  Forall2 (fun kd nsh => fst kd = fst nsh /\ var2 k1 k2 (snd nsh) (snd kd)) f ns.

Lemma var2_good k1 k2 sh d : str_lt k1 k2 -> sh <> [] -> var2 k1 k2 sh d -> good_dict d.
Proof.
  intros L N (t1 & t2 & -> & [W1 S1] & [W2 S2]). split; [|split].
  - split; [|repeat constructor; auto]. unfold sd_wf. cbn. repeat constructor. exact L.
  - discriminate.
  - repeat constructor; cbn; congruence.
Qed.

Lemma fam_names k1 k2 ns f : fam k1 k2 ns f -> keys f = keys ns.
Proof.
  induction 1 as [|[a d] [b sh] f ns [E _] _ IH]; [reflexivity|]. cbn in *. subst. f_equal. exact IH.
Qed.

Lemma fam_good k1 k2 ns f : str_lt k1 k2 -> Forall (fun nsh => snd nsh <> []) ns -> fam k1 k2 ns f ->
  Forall (fun kd => good_dict (snd kd)) f.
Proof.
  intros L N F. revert N. induction F as [|kd nsh f ns [E V] F IH]; intro N; constructor.
  - inversion N; subst. eapply var2_good; eauto.
  - inversion N; subst. auto.
Qed.

(** The plan of a family. *)
Definition plan2 (k1 k2 : string) (ns : list (string * list nat)) : list (string * list (string * list nat)) :=
  map (fun nsh => (fst nsh, [(k1, snd nsh); (k2, snd nsh)])) ns.

Lemma fam_plans k1 k2 ns f : fam k1 k2 ns f -> plans_of f = plan2 k1 k2 ns.
Proof.
  induction 1 as [|[a d] [b sh] f ns [E (t1 & t2 & V & [_ S1] & [_ S2])] _ IH]; [reflexivity|].
  cbn [fst snd] in *. subst a d. unfold plans_of, plan_of, plan2 in *. cbn [map fst snd]. rewrite S1, S2. f_equal. exact IH.
Qed.

Lemma read_fam k1 k2 ns : forall l : list A, plans_size (plan2 k1 k2 ns) <= List.length l ->
  fam k1 k2 ns (read_plans (plan2 k1 k2 ns) l).
Proof.
  induction ns as [|[a sh] ns IH]; intros l L; [constructor|].
  change (plan2 k1 k2 ((a, sh) :: ns)) with ((a, [(k1, sh); (k2, sh)]) :: plan2 k1 k2 ns) in *.
  cbn [read_plans read_plan]. set (q := plan2 k1 k2 ns) in *.
  assert (P : plan_size [(k1, sh); (k2, sh)] = prod sh + (prod sh + 0)) by reflexivity.
  assert (E : plans_size ((a, [(k1, sh); (k2, sh)]) :: q) = plan_size [(k1, sh); (k2, sh)] + plans_size q) by reflexivity.
  rewrite E in L. constructor.
  - split; [reflexivity|]. do 2 eexists. split; [reflexivity|].
    split; split; try reflexivity; unfold twf; cbn [tdata tshape]; rewrite firstn_length, ?skipn_length; lia.
  - apply IH. rewrite skipn_length. lia.
Qed.

Lemma fam_nonempty k1 k2 ns f : fam k1 k2 ns f -> nonempty_blocks f = f.
Proof.
  induction 1 as [|[a d] [b sh] f ns [E (t1 & t2 & V & _)] _ IH]; [reflexivity|].
  cbn in *. subst. cbn. f_equal. exact IH.
Qed.

Lemma fam_variable k1 k2 ns f : ns <> [] -> fam k1 k2 ns f -> has_variable f.
Proof.
  intros N F. inversion F as [|[a d] nsh f' ns' [E (t1 & t2 & V & _)] F']; subst; [congruence|].
  exists a, d. split; [now left|]. cbn in V. subst. discriminate.
Qed.

Lemma fam_wf k1 k2 ns f : str_lt k1 k2 -> sd_wf ns -> Forall (fun nsh => snd nsh <> []) ns -> fam k1 k2 ns f ->
  dicts_wf f /\ ranked f.
Proof.
  intros L W N F. pose proof (fam_good _ _ _ _ L N F) as G.
  destruct (good_family f) as (D & R & _); auto.
  unfold sd_wf. rewrite (fam_names _ _ _ _ F). exact W.
Qed.

(** Assembling, integrating, disassembling. *)
Lemma planned k1 k2 ns : planned_size (plan2 k1 k2 ns) = plans_size (plan2 k1 k2 ns).
Proof.
  unfold planned_size, plans_size, plan2. induction ns as [|a ns IH]; cbn in *; auto.
Qed.

Definition shaped_names (ns : list (string * list nat)) : Prop :=
  sd_wf ns /\ ns <> [] /\ Forall (fun nsh => snd nsh <> []) ns.

Lemma row_vec (r : tensor A) n : twf r -> tshape r = [n] -> r = vec (tdata r) /\ List.length (tdata r) = n.
Proof.
  intros W S. destruct r as [sh dat]. unfold twf in W. cbn in *. subst sh. cbn in W.
  assert (List.length dat = n) by lia. unfold vec. rewrite H. auto.
Qed.

Lemma integrated (ig : @integrand A) solve ks1 ks2 kc1 kc2 ns nc nd fs fc fd b t :
  str_lt ks1 ks2 -> str_lt kc1 kc2 -> shaped_names ns -> shaped_names nc -> shaped_names nd ->
  fam ks1 ks2 ns fs -> fam kc1 kc2 nc fc -> fam ks1 ks2 nd fd ->
  b_time_vec b = None -> b_time b = Some t ->
  let ps := mkPlans (plan2 ks1 ks2 ns) (plan2 kc1 kc2 nc) (plan2 ks1 ks2 nd) in
  let x0 := elements fs ++ elements fc ++ elements fd in
  assemble_tensor fs fc fd = Ok (x0, ps) /\
  List.length x0 = planned_size (state_plans ps) + planned_size (costate_plans ps) + planned_size (data_plans ps) /\
  forall r, solve (set_plans (Some ps) b) x0 [Q2Qc 0; t] = Ok r -> tshape r = [2; List.length x0] -> twf r ->
  exists s c d, snd (integrate_and_disassemble ig solve x0 (set_plans (Some ps) b))
      = (res <- extract_key d (ig_output_key ig) ;; Ok (s, c, d, res))
    /\ fam ks1 ks2 ns s /\ fam kc1 kc2 nc c /\ fam ks1 ks2 nd d.
Proof.
  intros Ls Lc (Ws & Es & Rs) (Wc & Ec & Rc) (Wd & Ed & Rd) Fs Fc Fd T1 T2 ps x0.
  destruct (fam_wf _ _ _ _ Ls Ws Rs Fs) as [Ds Ks]. destruct (fam_wf _ _ _ _ Lc Wc Rc Fc) as [Dc Kc].
  destruct (fam_wf _ _ _ _ Ls Wd Rd Fd) as [Dd Kd].
  assert (EA : assemble_tensor fs fc fd = Ok (x0, ps)).
  { rewrite assemble_tensor_ok; auto; [|eapply fam_variable; [|eassumption]; assumption..].
    rewrite (fam_nonempty _ _ _ _ Fs), (fam_nonempty _ _ _ _ Fc), (fam_nonempty _ _ _ _ Fd).
    rewrite (fam_plans _ _ _ _ Fs), (fam_plans _ _ _ _ Fc), (fam_plans _ _ _ _ Fd). reflexivity. }
  assert (LX : List.length x0 = planned_size (state_plans ps) + planned_size (costate_plans ps) + planned_size (data_plans ps)).
  { unfold x0, ps. cbn [state_plans costate_plans data_plans]. rewrite !planned.
    rewrite <- (fam_plans _ _ _ _ Fs), <- (fam_plans _ _ _ _ Fc), <- (fam_plans _ _ _ _ Fd).
    rewrite (plans_size_of fs (proj2 Ds)), (plans_size_of fc (proj2 Dc)), (plans_size_of fd (proj2 Dd)). rewrite !app_length. lia. }
  split; [exact EA|]. split; [exact LX|]. intros r E S W.
  destruct (tselect_ok 1 r 2 [List.length x0] W S ltac:(lia)) as (row & Er & Wr & Sr & _).
  destruct (row_vec row _ Wr Sr) as [Ev Lv].
  set (l := tdata row) in *. clearbody l. subst row.
  assert (P1 := plans_of_ok fs Ds Ks). assert (P2 := plans_of_ok fc Dc Kc). assert (P3 := plans_of_ok fd Dd Kd).
  rewrite (fam_plans _ _ _ _ Fs) in P1. rewrite (fam_plans _ _ _ _ Fc) in P2. rewrite (fam_plans _ _ _ _ Fd) in P3.
  unfold ps in LX. cbn [state_plans costate_plans data_plans] in LX. rewrite !planned in LX.
  assert (ED := disassemble_tensor_read l ps P1 P2 P3).
  unfold ps in ED. cbn [state_plans costate_plans data_plans] in ED.
  specialize (ED ltac:(lia)). fold ps in ED.
  do 3 eexists. split.
  - rewrite (integrate_scalar ig solve x0 t) by assumption. rewrite E. cbn [bind].
    rewrite S. unfold list_item. cbn [nth_error bind Nat.eqb]. change (2 - 1) with 1. rewrite Er. cbn [bind].
    change (b_plans (set_plans (Some ps) b)) with (Some ps). rewrite ED. cbn [bind].
    unfold disassemble. rewrite ED. cbn [bind]. reflexivity.
  - repeat split; apply read_fam; rewrite ?skipn_length; lia.
Qed.

(** Concatenation of two blocks. *)
Lemma cat_channels (t u : tensor A) n c c' h w : ft [n; c; h; w] t -> ft [n; c'; h; w] u ->
  exists r, tcat 1 t u = Ok r /\ ft [n; c + c'; h; w] r.
Proof.
  intros [W S] [W' S']. destruct (tcat_ok 1 t u c c' W W') as (r & E & Wr & Sr & _); rewrite ?S, ?S'; auto.
  exists r. split; auto. split; auto. rewrite Sr, S. reflexivity.
Qed.

Lemma keys_apart k1 k2 : str_lt k1 k2 -> String.eqb k1 k2 = false /\ String.eqb k2 k1 = false /\
  str_ltb k2 k1 = false /\ str_ltb k1 k2 = true.
Proof.
  intro L. pose proof (str_lt_neq _ _ L) as N. repeat split.
  - apply String.eqb_neq. exact N.
  - apply String.eqb_neq. congruence.
  - destruct (str_ltb k2 k1) eqn:E; auto. exfalso. exact (str_lt_asym _ _ L E).
  - exact L.
Qed.

Lemma concatenate_two k1 k2 n1 n2 n c c' h w (d1 d2 : tdict) : str_lt k1 k2 ->
  var2 k1 k2 [n; c; h; w] d1 -> var2 k1 k2 [n; c'; h; w] d2 ->
  exists d, concatenate_dict_of_dicts [(n1, d1); (n2, d2)] 1 = Ok d /\ var2 k1 k2 [n; c + c'; h; w] d.
Proof.
  intros L (t1 & t2 & -> & F1 & F2) (u1 & u2 & -> & G1 & G2).
  destruct (cat_channels _ _ _ _ _ _ _ F1 G1) as (r1 & E1 & R1).
  destruct (cat_channels _ _ _ _ _ _ _ F2 G2) as (r2 & E2 & R2).
  destruct (keys_apart _ _ L) as (N1 & N2 & B1 & B2).
  exists [(k1, r1); (k2, r2)]. split; [|do 2 eexists; eauto].
  unfold concatenate_dict_of_dicts. cbn [foldM snd]. unfold concatenate_step.
  repeat first [rewrite String.eqb_refl | rewrite N1 | rewrite N2 | rewrite B1 | rewrite B2 | rewrite E1 | rewrite E2
    | progress cbn [fst snd sd_get bind sd_set foldM sd_peek0 List.length Nat.eqb]].
  reflexivity.
Qed.

Lemma concatenate_one k1 k2 n1 sh (d1 : tdict) : str_lt k1 k2 -> var2 k1 k2 sh d1 ->
  concatenate_dict_of_dicts [(n1, d1)] 1 = Ok d1.
Proof.
  intros L (t1 & t2 & -> & _). apply concatenate_single. unfold sd_wf. cbn. repeat constructor. exact L.
Qed.

(** Merging own particles with those of one previous block. *)
Definition paired {V} (name : string) (g : V) (prev : string) (d : V) : sdict V :=
  if str_ltb name prev then [(name, g); (prev, d)] else [(prev, d); (name, g)].

Lemma rebuild k1 k2 sh (d : tdict) : str_lt k1 k2 -> var2 k1 k2 sh d ->
  fold_left (fun c kv => sd_set (fst kv) (snd kv) c) d [] = d.
Proof.
  intros L (t1 & t2 & -> & _). destruct (keys_apart _ _ L) as (N1 & N2 & B1 & B2).
  cbn. rewrite N2, B1. reflexivity.
Qed.

Lemma merge_two k1 k2 sh name (g : tdict) prev d : str_lt k1 k2 -> var2 k1 k2 sh d -> name <> prev ->
  merge_dict (Some g) (Some [(prev, d)]) name = Ok (paired name g prev d).
Proof.
  intros L V N. unfold merge_dict, sd_mem. cbn [sd_get].
  rewrite (proj2 (String.eqb_neq _ _) N). cbn [sd_set fold_left fst snd].
  rewrite (rebuild _ _ _ _ L V).
  rewrite (proj2 (String.eqb_neq prev name) (fun e => N (eq_sym e))).
  unfold paired. destruct (str_ltb prev name) eqn:E.
  - destruct (str_ltb name prev) eqn:E'; [|reflexivity]. exfalso. exact (str_lt_asym _ _ E E').
  - destruct (str_total _ _ N) as [H|H]; unfold str_lt in H; rewrite ?H; [reflexivity|congruence].
Qed.

Lemma merge_none k1 k2 sh name prev (d : tdict) : str_lt k1 k2 -> var2 k1 k2 sh d -> name <> prev ->
  merge_dict None (Some [(prev, d)]) name = Ok [(prev, d)].
Proof.
  intros L V N. unfold merge_dict, sd_mem. cbn [sd_get].
  rewrite (proj2 (String.eqb_neq _ _) N). cbn [sd_set fold_left fst snd].
  rewrite (rebuild _ _ _ _ L V). reflexivity.
Qed.

Lemma fam_paired k1 k2 name g sh prev d sh' : var2 k1 k2 sh g -> var2 k1 k2 sh' d ->
  fam k1 k2 (paired name sh prev sh') (paired name g prev d).
Proof. intros. unfold paired. destruct (str_ltb name prev); repeat constructor; auto. Qed.

Lemma paired_names name sh prev sh' : name <> prev -> sh <> [] -> sh' <> [] ->
  shaped_names (paired name sh prev sh').
Proof.
  intros N S S'. unfold paired. destruct (str_ltb name prev) eqn:E.
  - split; [|split; [discriminate|repeat constructor; auto]]. unfold sd_wf. cbn. repeat constructor. exact E.
  - split; [|split; [discriminate|repeat constructor; auto]]. unfold sd_wf. cbn. repeat constructor.
    destruct (str_total _ _ N) as [H|H]; [unfold str_lt in H; congruence|exact H].
Qed.

Lemma single_names name sh : sh <> [] -> shaped_names [(name, sh)].
Proof. intros S. split; [|split; [discriminate|repeat constructor; auto]]. repeat constructor. Qed.

(** Concatenation of a family of one or two. *)
Lemma fam_concatenate_two k1 k2 name prev n c c' h w (f : tdicts) : str_lt k1 k2 ->
  fam k1 k2 (paired name [n; c'; h; w] prev [n; c; h; w]) f ->
  exists d, concatenate_named f 1 name = Ok [(name, d)] /\ var2 k1 k2 [n; c + c'; h; w] d.
Proof.
  intros L F. unfold concatenate_named, paired in *.
  destruct (str_ltb name prev).
  - inversion F as [|[x1 e1] ? ? ? [X1 V1] F1]; subst. inversion F1 as [|[x2 e2] ? ? ? [X2 V2] F2]; subst.
    inversion F2; subst. cbn [fst snd] in *. subst.
    destruct (concatenate_two k1 k2 name prev n c' c h w e1 e2 L V1 V2) as (d & E & V).
    exists d. rewrite E. rewrite Nat.add_comm. auto.
  - inversion F as [|[x1 e1] ? ? ? [X1 V1] F1]; subst. inversion F1 as [|[x2 e2] ? ? ? [X2 V2] F2]; subst.
    inversion F2; subst. cbn [fst snd] in *. subst.
    destruct (concatenate_two k1 k2 prev name n c c' h w e1 e2 L V1 V2) as (d & E & V).
    exists d. rewrite E. auto.
Qed.

Lemma fam_concatenate_one k1 k2 name prev sh (f : tdicts) : str_lt k1 k2 -> fam k1 k2 [(prev, sh)] f ->
  exists d, f = [(prev, d)] /\ concatenate_named f 1 name = Ok [(name, d)] /\ var2 k1 k2 sh d.
Proof.
  intros L F. inversion F as [|[x1 e1] ? ? ? [X1 V1] F1]; subst. inversion F1; subst. cbn [fst snd] in *. subst.
  exists e1. split; auto. unfold concatenate_named. rewrite (concatenate_one k1 k2 _ sh) by auto. auto.
Qed.

(** The output. *)
Lemma output_one prev sh (d : tdict) : var2 "q1" "q2" sh d ->
  exists t, extract_key [(prev, d)] "q1" = Ok (OneTensor t) /\ ft sh t.
Proof. intros (t1 & t2 & -> & F1 & _). exists t1. split; auto. Qed.

Lemma output_two name prev n c c' h w (f : tdicts) : name <> prev ->
  fam "q1" "q2" (paired name [n; c'; h; w] prev [n; c; h; w]) f ->
  exists r t, extract_key f "q1" = Ok r /\ concatenate_output r 1 = Ok (RTensor t) /\ ft [n; c + c'; h; w] t.
Proof.
  intros N F.
  assert (G : forall a b ca cb, str_lt a b -> fam "q1" "q2" [(a, [n; ca; h; w]); (b, [n; cb; h; w])] f ->
    exists r t, extract_key f "q1" = Ok r /\ concatenate_output r 1 = Ok (RTensor t) /\ ft [n; ca + cb; h; w] t).
  { clear F. intros a b ca cb L F. inversion F as [|[x1 e1] ? ? ? [X1 V1] F1]; subst. inversion F1 as [|[x2 e2] ? ? ? [X2 V2] F2]; subst.
    inversion F2; subst. cbn [fst snd] in *. subst.
    destruct V1 as (t1 & t2 & -> & A1 & _). destruct V2 as (u1 & u2 & -> & B1 & _).
    destruct (cat_channels _ _ _ _ _ _ _ A1 B1) as (r1 & E1 & R1).
    destruct (keys_apart _ _ L) as (K1 & K2 & K3 & K4).
    exists (ManyBlocks [(a, [("q1", t1)]); (b, [("q1", u1)])]), r1. split; [|split; auto].
    - unfold extract_key. cbn [fold_left fst snd sd_get String.eqb Ascii.eqb Bool.eqb sd_set]. rewrite K2, K3. reflexivity.
    - unfold concatenate_output, concatenate_dict_of_dicts. cbn [foldM snd]. unfold concatenate_step.
      cbn [fst snd sd_get bind sd_set foldM String.eqb Ascii.eqb Bool.eqb]. rewrite E1. reflexivity. }
  unfold paired in F. destruct (str_ltb name prev) eqn:E.
  - destruct (G name prev c' c E F) as (r & t & H). exists r, t. rewrite (Nat.add_comm c c'). exact H.
  - apply (G prev name c c'); auto.
    destruct (str_total _ _ N) as [H|H]; [unfold str_lt in H; congruence|exact H].
Qed.
End Shapes.

(** Forward passes of the blocks of the residual network. *)
From Coq Require Import List String Ascii Arith ZArith QArith Qcanon Lia Bool Sorting.Sorted.
From Verif Require Import Base BaseFacts Tensor TensorFacts ScdModel ScdSpec ScdProofs ScdProofs2
  ScdProofs3 ScdProofs4 BlockModel BlockSpec BlockProofs BlockProofs2 BlockProofs4 BlockProofs5 EnlargeProofs
  StridingModel ResNetModel NetworkModel NetworkSpec NetworkProofs NetworkProofs2.
Import ListNotations.
Open Scope string_scope.
Open Scope list_scope.
Open Scope nat_scope.

Section Forward.
Context {A : Type}.
Variable zero : A.
Variable has_attr : string -> bool.
Variable rnd : nat -> nat -> A.
Notation tdict := (sdict (tensor A)).
Notation tdicts := (sdict (sdict (tensor A))).
Notation ig := (conv_integrand zero).
Notation fwd := (BlockModel.forward zero ig has_attr rnd).
Hypothesis free : forall k, In k (own_names ++ enlarge_names) -> has_attr k = false.

(** A block of the network, fresh or not. *)
Definition net_block name (st co : option tdict) fresh es ec store registry ps : @block A :=
  mkBlock name st co true false fresh es ec store registry (Some (Q2Qc 1)) None ps 1.

Definition entries (k1 k2 : string) (prev : string) (i j h w h0 w0 : nat) :=
  Some [(prev, if grows h w h0 w0 then both k1 k2 (Some (i, [0; 0; h - h0; w - w0])) (Some (j, [0; 0; h - h0; w - w0]))
               else both k1 k2 None None)].

Definition stored (n c h w h0 w0 : nat) (store : list (list A)) : Prop :=
  if grows h w h0 w0 then exists a0 a1 a2 a3, store = [a0; a1; a2; a3] /\
        Forall (fun l => List.length l = missing n c h w h0 w0) store else store = [].

Definition full_registry (h w h0 w0 : nat) : pdict pobj :=
  own_registry ++ if grows h w h0 w0 then enlarge_registry else [].

Lemma enlarge_entries k1 k2 n c h w h0 w0 prev prev' (d : tdict) store i j : str_lt k1 k2 ->
  var2 k1 k2 [n; c; h0; w0] d -> h0 <= h -> w0 <= w -> stored n c h w h0 w0 store -> i < 4 -> j < 4 ->
  exists d', enlarge_dicts store [(prev, d)] (entries k1 k2 prev' i j h w h0 w0) = Ok [(prev, d')]
    /\ var2 k1 k2 [n; c; h; w] d'.
Proof.
  intros L V H W S I J. unfold entries, stored in *. destruct (grows h w h0 w0) eqn:EG.
  - destruct S as (a0 & a1 & a2 & a3 & -> & F).
    destruct (enlarge_grown k1 k2 n c h w h0 w0 prev d [a0; a1; a2; a3] i j L V H W) as (d' & E & V').
    { assert (X : forall x, x < 4 -> exists p, nth_error [a0; a1; a2; a3] x = Some p /\ List.length p = missing n c h w h0 w0).
      { intros x Lx. destruct (nth_error [a0; a1; a2; a3] x) as [p|] eqn:E; [|apply nth_error_None in E; cbn in E; lia].
        exists p. split; auto. rewrite Forall_forall in F. apply F. eapply nth_error_In; eauto. }
      intros x [->| ->]; auto. }
    exists d'. split; auto.
  - assert (h = h0 /\ w = w0) as [-> ->].
    { unfold grows in EG. destruct (Nat.eqb_spec h h0), (Nat.eqb_spec w w0); auto; discriminate. }
    exists d. split; auto. rewrite <- (enlarge_same k1 k2 _ prev d store L V). reflexivity.
Qed.

(** The first pass. *)
Lemma enlarge_phase name prev (st co ds dc : tdict) n c c' h w h0 w0 ps :
  var2 "q1" "q2" [n; c'; h; w] st -> var2 "p_q1" "p_q2" [n; c'; h; w] co ->
  var2 "q1" "q2" [n; c; h0; w0] ds -> var2 "p_q1" "p_q2" [n; c; h0; w0] dc -> h0 <= h -> w0 <= w ->
  exists store ds' dc',
    effective_pass_through zero ig has_attr rnd (Some [(prev, ds)]) (Some [(prev, dc)])
      (net_block name (Some st) (Some co) true None None [] own_registry ps)
    = (net_block name (Some st) (Some co) true (entries "q1" "q2" prev 0 1 h w h0 w0) (entries "p_q1" "p_q2" prev 2 3 h w h0 w0)
         store (full_registry h w h0 w0) ps,
       Ok (Some [(prev, ds')], Some [(prev, dc')])) /\
    var2 "q1" "q2" [n; c; h; w] ds' /\ var2 "p_q1" "p_q2" [n; c; h; w] dc' /\ stored n c h w h0 w0 store.
Proof.
  intros Vs Vc Ds Dc H W.
  assert (Lq : str_lt "q1" "q2") by reflexivity. assert (Lp : str_lt "p_q1" "p_q2") by reflexivity.
  unfold effective_pass_through. cbn [b_enlarge net_block].
  rewrite mbind_at. unfold get_or_create_enlargement. cbn [b_fresh b_st_enl b_co_enl net_block orb b_state b_costate].
  rewrite mbind_at. rewrite (create_enl zero rnd "q1" "q2" true n c c' h w h0 w0 prev ds st) by auto.
  destruct (grows h w h0 w0) eqn:EG.
  - cbn [b_store net_block List.length app].
    rewrite mbind_at. rewrite (create_enl zero rnd "p_q1" "p_q2" false n c c' h w h0 w0 prev dc co) by auto.
    rewrite EG. cbn [b_store set_store List.length app].
    set (m := missing n c h w h0 w0). set (diff := [0; 0; h - h0; w - w0]).
    rewrite mbind_at. unfold register_enlargement, both. cbn [loop snd]. unfold register_entry, mbind, ret.
    cbn [b_keep_zero net_block set_store snd fst].
    unfold register_parameter. cbn [has_dot String.append Ascii.eqb Bool.eqb orb String.eqb].
    rewrite !free by (cbn; tauto). cbn [andb b_registry set_store net_block set_registry].
    unfold own_registry. cbn [pd_set String.eqb Ascii.eqb Bool.eqb].
    unfold modify. unfold enlarge_pass_through. cbn [b_store set_enl set_registry set_store b_st_enl b_co_enl net_block].
    set (store := [_; _; _; _]).
    assert (LS : stored n c h w h0 w0 store).
    { unfold stored. rewrite EG. do 4 eexists. split; [reflexivity|].
      unfold store, new_values. repeat constructor; rewrite map_length, seq_length; reflexivity. }
    destruct (enlarge_entries "q1" "q2" n c h w h0 w0 prev prev ds store 0 1 Lq Ds H W LS) as (ds' & E1 & V1); [lia..|].
    destruct (enlarge_entries "p_q1" "p_q2" n c h w h0 w0 prev prev dc store 2 3 Lp Dc H W LS) as (dc' & E2 & V2); [lia..|].
    unfold entries, both in E1, E2. rewrite EG in E1, E2. fold diff in E1, E2. rewrite E1. cbn [bind]. rewrite E2. cbn [bind].
    exists store, ds', dc'. split; [|auto]. unfold entries, full_registry, both. rewrite EG. reflexivity.
  - rewrite mbind_at. rewrite (create_enl zero rnd "p_q1" "p_q2" false n c c' h w h0 w0 prev dc co) by auto.
    rewrite EG. unfold register_enlargement, both. cbn [loop snd]. unfold register_entry, mbind, ret, modify. cbn [snd].
    unfold enlarge_pass_through. cbn [b_store set_enl b_st_enl b_co_enl net_block].
    assert (LS : stored n c h w h0 w0 []) by (unfold stored; rewrite EG; reflexivity).
    destruct (enlarge_entries "q1" "q2" n c h w h0 w0 prev prev ds [] 0 1 Lq Ds H W LS) as (ds' & E1 & V1); [lia..|].
    destruct (enlarge_entries "p_q1" "p_q2" n c h w h0 w0 prev prev dc [] 2 3 Lp Dc H W LS) as (dc' & E2 & V2); [lia..|].
    unfold entries, both in E1, E2. rewrite EG in E1, E2. rewrite E1. cbn [bind]. rewrite E2. cbn [bind].
    exists [], ds', dc'. split; [|auto]. unfold entries, full_registry, both. rewrite EG. reflexivity.
Qed.

(** Later passes. *)
Lemma enlarge_again name prev prev' (st co ds dc : tdict) n c h w h0 w0 store reg ps :
  var2 "q1" "q2" [n; c; h0; w0] ds -> var2 "p_q1" "p_q2" [n; c; h0; w0] dc -> h0 <= h -> w0 <= w ->
  stored n c h w h0 w0 store ->
  let b := net_block name (Some st) (Some co) false (entries "q1" "q2" prev' 0 1 h w h0 w0)
             (entries "p_q1" "p_q2" prev' 2 3 h w h0 w0) store reg ps in
  exists ds' dc',
    effective_pass_through zero ig has_attr rnd (Some [(prev, ds)]) (Some [(prev, dc)]) b
    = (b, Ok (Some [(prev, ds')], Some [(prev, dc')])) /\
    var2 "q1" "q2" [n; c; h; w] ds' /\ var2 "p_q1" "p_q2" [n; c; h; w] dc'.
Proof.
  intros Ds Dc H W LS b.
  assert (Lq : str_lt "q1" "q2") by reflexivity. assert (Lp : str_lt "p_q1" "p_q2") by reflexivity.
  destruct (enlarge_entries "q1" "q2" n c h w h0 w0 prev prev' ds store 0 1 Lq Ds H W LS) as (ds' & E1 & V1); [lia..|].
  destruct (enlarge_entries "p_q1" "p_q2" n c h w h0 w0 prev prev' dc store 2 3 Lp Dc H W LS) as (dc' & E2 & V2); [lia..|].
  exists ds', dc'. split; [|auto]. unfold effective_pass_through. cbn [b_enlarge b net_block].
  unfold get_or_create_enlargement, mbind. cbn [b_fresh b net_block]. unfold modify.
  unfold enlarge_pass_through. cbn [b_store b_st_enl b_co_enl set_enl b net_block]. rewrite E1. cbn [bind]. rewrite E2. reflexivity.
Qed.

(** The zero data for the additional channels. *)
Lemma filled sh : ft sh (tfill zero sh).
Proof. split; [|reflexivity]. unfold twf, tfill. cbn. apply repeat_length. Qed.

Lemma padded n c' h w B c H W prev (st dd : tdict) : var2 "q1" "q2" [n; c'; h; w] st -> var2 "q1" "q2" [B; c; H; W] dd ->
  exists p, zero_data_dict_matching zero st [(prev, dd)] 1 1 = Ok p /\ var2 "q1" "q2" [B; c'; H; W] p.
Proof.
  intros (t1 & t2 & -> & [_ S1] & [_ S2]) (u1 & u2 & -> & [_ U1] & _).
  exists [("q1", tfill zero [B; c'; H; W]); ("q2", tfill zero [B; c'; H; W])]. split.
  - unfold zero_data_dict_matching, extract_size_from_dict_of_dicts. cbn [sd_peek0 bind]. rewrite U1.
    cbn [foldM]. unfold zero_data_step. cbn [fst snd]. rewrite S1, S2. reflexivity.
  - do 2 eexists. split; [reflexivity|]. split; apply filled.
Qed.

Lemma data_dim n c' h w B c H W prev (st dd : tdict) : var2 "q1" "q2" [n; c'; h; w] st -> var2 "q1" "q2" [B; c; H; W] dd ->
  get_data_concatenation_dim (Some st) [(prev, dd)] 1 = Ok (Some 1).
Proof.
  intros (t1 & t2 & -> & [_ S1] & [_ S2]) (u1 & u2 & -> & [_ U1] & _).
  unfold get_data_concatenation_dim, extract_size_from_dict_of_dicts, extract_size_from_dict. cbn [sd_peek0 bind].
  rewrite U1, S1. reflexivity.
Qed.

(** Plans of images. *)
Lemma images_one k1 k2 name n c h w : 0 < h -> 0 < w -> images_with c (plan2 k1 k2 [(name, [n; c; h; w])]).
Proof.
  intros H W. exists n, h, w, [c]. repeat split; auto; [cbn; lia|]. repeat constructor. discriminate.
Qed.

Lemma images_two k1 k2 name prev n c c' h w : 0 < h -> 0 < w ->
  images_with (c + c') (plan2 k1 k2 (paired name [n; c'; h; w] prev [n; c; h; w])).
Proof.
  intros H W. unfold paired. destruct (str_ltb name prev).
  - exists n, h, w, [c'; c]. repeat split; auto; [cbn; lia|]. repeat constructor; discriminate.
  - exists n, h, w, [c; c']. repeat split; auto; [cbn; lia|]. repeat constructor; discriminate.
Qed.

Variable solve : nat -> @block A -> list A -> list Qc -> result (tensor A).
Hypothesis conv : convolves solve.

(** Integration of families with [feat] channels. *)
Lemma integrate_families feat ns nc nd fs fc fd (b : @block A) t : 0 < feat ->
  shaped_names ns -> shaped_names nc -> shaped_names nd ->
  fam "q1" "q2" ns fs -> fam "p_q1" "p_q2" nc fc -> fam "q1" "q2" nd fd ->
  images_with feat (plan2 "q1" "q2" ns) -> images_with feat (plan2 "p_q1" "p_q2" nc) -> images_with feat (plan2 "q1" "q2" nd) ->
  b_time_vec b = None -> b_time b = Some t ->
  exists x0 ps s c d, assemble_tensor fs fc fd = Ok (x0, ps) /\
    snd (integrate_and_disassemble ig (solve feat) x0 (set_plans (Some ps) b))
      = (res <- extract_key d "q1" ;; Ok (s, c, d, res)) /\
    fam "q1" "q2" ns s /\ fam "p_q1" "p_q2" nc c /\ fam "q1" "q2" nd d.
Proof.
  intros F Sn Sc Sd Fs Fc Fd I1 I2 I3 T1 T2.
  destruct (integrated ig (solve feat) "q1" "q2" "p_q1" "p_q2" ns nc nd fs fc fd b t) as (EA & EL & G); auto; try reflexivity.
  set (x0 := elements fs ++ elements fc ++ elements fd) in *.
  set (ps := mkPlans _ _ _) in *.
  destruct (conv feat (set_plans (Some ps) b) x0 [Q2Qc 0; t] ps) as (r & E & S & W); auto.
  destruct (G r E S W) as (s & c & d & Ei & H1 & H2 & H3).
  exists x0, ps, s, c, d. repeat split; auto.
Qed.

Definition named (name : string) (l : list (string * nat)) : list (string * option nat) :=
  map (fun kn => (name ++ "." ++ fst kn, Some (snd kn)))%string l.

(** The first block: only its own particles. *)
Lemma first_block name (st co : tdict) n c h w B H W (x : tensor A) fresh pl :
  0 < c -> 0 < h -> 0 < w -> 0 < H -> 0 < W ->
  var2 "q1" "q2" [n; c; h; w] st -> var2 "p_q1" "p_q2" [n; c; h; w] co -> ft [B; c; H; W] x ->
  exists b' y s k d,
    fwd (solve c) (Some x) None None None (net_block name (Some st) (Some co) fresh None None [] own_registry pl)
    = (b', Ok (y, [(name, s)], [(name, k)], [(name, d)])) /\
    var2 "q1" "q2" [n; c; h; w] s /\ var2 "p_q1" "p_q2" [n; c; h; w] k /\ var2 "q1" "q2" [B; c; H; W] d /\
    (exists pl', b' = net_block name (Some st) (Some co) false None None [] own_registry pl') /\
    block_parameters b' = named name (map (fun k => (k, n * c * (h * w))) own_names).
Proof.
  intros C P1 P2 P3 P4 Vs Vc Vx.
  assert (Lq : str_lt "q1" "q2") by reflexivity. assert (Lp : str_lt "p_q1" "p_q2") by reflexivity.
  set (b := net_block name (Some st) (Some co) fresh None None [] own_registry pl).
  set (dd := [("q1", x); ("q2", tfill zero (tshape x))] : tdict).
  assert (Vd : var2 "q1" "q2" [B; c; H; W] dd).
  { unfold dd. do 2 eexists. split; [reflexivity|]. split; auto. rewrite (proj2 Vx). apply filled. }
  assert (Hs : shaped_names [(name, [n; c; h; w])]) by (apply single_names; discriminate).
  assert (Hd : shaped_names [(name, [B; c; H; W])]) by (apply single_names; discriminate).
  destruct (integrate_families c [(name, [n; c; h; w])] [(name, [n; c; h; w])] [(name, [B; c; H; W])]
    [(name, st)] [(name, co)] [(name, dd)] b (Q2Qc 1)) as (x0 & ps & s & k & d & EA & EI & Fs & Fk & Fd); auto;
    try (repeat constructor; auto; fail); try (apply images_one; auto).
  destruct (fam_concatenate_one _ _ name _ _ _ Lq Fs) as (s' & -> & Cs & Vs').
  destruct (fam_concatenate_one _ _ name _ _ _ Lp Fk) as (k' & -> & Ck & Vk').
  destruct (fam_concatenate_one _ _ name _ _ _ Lq Fd) as (d' & -> & Cd & Vd').
  destruct (output_one name _ d' Vd') as (y & Ey & Fy). rewrite Ey in EI. cbn [bind] in EI.
  eexists. exists (RTensor y), s', k', d'. split; [|split; [exact Vs'|]; split; [exact Vk'|]; split; [exact Vd'|]; split].
  - eapply forward_ok_intro with (b1 := b) (b2 := b) (d := [(name, dd)]) (z := false); [split; auto|left; discriminate|..]; try reflexivity.
    + unfold initial_conditions, mbind, lift, ret. cbn [b_state b_costate b net_block b_name]. unfold merge_dict. cbn [sd_set].
      rewrite EA. reflexivity.
    + exact EI.
    + unfold finish_outputs. cbn [ig_concatenate conv_integrand ig_concat_dim].
      change (b_name (set_plans (Some ps) b)) with name. change (b_data_dim (set_plans (Some ps) b)) with 1.
      cbn [snd]. rewrite Cs. cbn [bind]. rewrite Ck. cbn [bind]. rewrite Cd. cbn [bind]. reflexivity.
  - eexists. reflexivity.
  - destruct Vs as (t1 & t2 & -> & [_ T1] & [_ T2]). destruct Vc as (u1 & u2 & -> & [_ U1] & [_ U2]).
    unfold block_parameters, b, net_block. cbn [b_registry b_name set_fresh set_plans own_registry map fst snd].
    unfold numel_of, named, own_names. cbn [b_state b_costate set_fresh set_plans sd_get String.eqb Ascii.eqb Bool.eqb option_map map fst snd].
    rewrite T1, T2, U1, U2. cbn [prod fold_right]. rewrite !Nat.mul_1_r, !Nat.mul_assoc. reflexivity.
Qed.

(** A block without particles. *)
Lemma passing_block name prev (ds dc dd : tdict) n c h w B H W fresh pl :
  name <> prev -> 0 < c -> 0 < h -> 0 < w -> 0 < H -> 0 < W ->
  var2 "q1" "q2" [n; c; h; w] ds -> var2 "p_q1" "p_q2" [n; c; h; w] dc -> var2 "q1" "q2" [B; c; H; W] dd ->
  exists b' y s k d,
    fwd (solve c) None (Some [(prev, ds)]) (Some [(prev, dc)]) (Some [(prev, dd)]) (net_block name None None fresh None None [] [] pl)
    = (b', Ok (RTensor y, [(name, s)], [(name, k)], [(name, d)])) /\
    ft [B; c; H; W] y /\
    var2 "q1" "q2" [n; c; h; w] s /\ var2 "p_q1" "p_q2" [n; c; h; w] k /\ var2 "q1" "q2" [B; c; H; W] d /\
    (exists pl', b' = net_block name None None false None None [] [] pl') /\ block_parameters b' = [].
Proof.
  intros Nm C P1 P2 P3 P4 Vs Vc Vd.
  assert (Lq : str_lt "q1" "q2") by reflexivity. assert (Lp : str_lt "p_q1" "p_q2") by reflexivity.
  set (b := net_block name None None fresh None None [] [] pl).
  assert (Hs : shaped_names [(prev, [n; c; h; w])]) by (apply single_names; discriminate).
  assert (Hd : shaped_names [(prev, [B; c; H; W])]) by (apply single_names; discriminate).
  destruct (integrate_families c [(prev, [n; c; h; w])] [(prev, [n; c; h; w])] [(prev, [B; c; H; W])]
    [(prev, ds)] [(prev, dc)] [(prev, dd)] b (Q2Qc 1)) as (x0 & ps & s & k & d & EA & EI & Fs & Fk & Fd); auto;
    try (repeat constructor; auto; fail); try (apply images_one; auto).
  destruct (fam_concatenate_one _ _ name _ _ _ Lq Fs) as (s' & -> & Cs & Vs').
  destruct (fam_concatenate_one _ _ name _ _ _ Lp Fk) as (k' & -> & Ck & Vk').
  destruct (fam_concatenate_one _ _ name _ _ _ Lq Fd) as (d' & -> & Cd & Vd').
  destruct (output_one prev _ d' Vd') as (y & Ey & Fy). rewrite Ey in EI. cbn [bind] in EI.
  eexists. exists y, s', k', d'. split; [|split; [exact Fy|]; split; [exact Vs'|]; split; [exact Vk'|]; split; [exact Vd'|]; split].
  - eapply forward_ok_intro with (b1 := b) (b2 := b) (d := [(prev, dd)]) (z := true)
      (st' := Some [(prev, ds)]) (co' := Some [(prev, dc)]); [split; discriminate|right; discriminate|destruct fresh; reflexivity|..]; try reflexivity.
    + unfold initial_conditions, mbind, lift, ret. cbn [b_state b_costate b net_block b_name].
      rewrite (merge_none "q1" "q2" _ name prev ds Lq Vs Nm), (merge_none "p_q1" "p_q2" _ name prev dc Lp Vc Nm).
      rewrite EA. reflexivity.
    + exact EI.
    + unfold finish_outputs. cbn [ig_concatenate conv_integrand ig_concat_dim].
      change (b_name (set_plans (Some ps) b)) with name. change (b_data_dim (set_plans (Some ps) b)) with 1.
      cbn [snd]. rewrite Cs. cbn [bind]. rewrite Ck. cbn [bind]. rewrite Cd. cbn [bind]. reflexivity.
  - eexists. reflexivity.
  - reflexivity.
Qed.

(** A block with own particles after other blocks: fresh, or executed before. *)
Definition joinable name n c c' h w h0 w0 (b : @block A) : Prop :=
  exists st co, var2 "q1" "q2" [n; c'; h; w] st /\ var2 "p_q1" "p_q2" [n; c'; h; w] co /\
    ((exists pl, b = net_block name (Some st) (Some co) true None None [] own_registry pl) \/
     (exists prev store pl, stored n c h w h0 w0 store /\
        b = net_block name (Some st) (Some co) false (entries "q1" "q2" prev 0 1 h w h0 w0) (entries "p_q1" "p_q2" prev 2 3 h w h0 w0)
              store (full_registry h w h0 w0) pl)).

Lemma joining_block name prev (ds dc dd : tdict) n c c' h w h0 w0 B H W b :
  name <> prev -> 0 < c -> 0 < h -> 0 < w -> 0 < H -> 0 < W -> h0 <= h -> w0 <= w ->
  joinable name n c c' h w h0 w0 b ->
  var2 "q1" "q2" [n; c; h0; w0] ds -> var2 "p_q1" "p_q2" [n; c; h0; w0] dc -> var2 "q1" "q2" [B; c; H; W] dd ->
  exists b' y s k d,
    fwd (solve (c + c')) None (Some [(prev, ds)]) (Some [(prev, dc)]) (Some [(prev, dd)]) b
    = (b', Ok (RTensor y, [(name, s)], [(name, k)], [(name, d)])) /\
    ft [B; c + c'; H; W] y /\
    var2 "q1" "q2" [n; c + c'; h; w] s /\ var2 "p_q1" "p_q2" [n; c + c'; h; w] k /\ var2 "q1" "q2" [B; c + c'; H; W] d /\
    joinable name n c c' h w h0 w0 b' /\ b_fresh b' = false /\
    block_parameters b' = named name (map (fun k => (k, n * c' * (h * w))) own_names
      ++ if grows h w h0 w0 then map (fun k => (k, missing n c h w h0 w0)) enlarge_names else []).
Proof.
  intros Nm C P1 P2 P3 P4 Lh Lw (st & co & Vs & Vc & Hb) Ds Dc Vd.
  assert (Lq : str_lt "q1" "q2") by reflexivity. assert (Lp : str_lt "p_q1" "p_q2") by reflexivity.
  assert (EP : exists fr prev' store pl ds' dc',
    effective_pass_through zero ig has_attr rnd (Some [(prev, ds)]) (Some [(prev, dc)]) b
    = (net_block name (Some st) (Some co) fr (entries "q1" "q2" prev' 0 1 h w h0 w0) (entries "p_q1" "p_q2" prev' 2 3 h w h0 w0)
         store (full_registry h w h0 w0) pl, Ok (Some [(prev, ds')], Some [(prev, dc')])) /\
    var2 "q1" "q2" [n; c; h; w] ds' /\ var2 "p_q1" "p_q2" [n; c; h; w] dc' /\ stored n c h w h0 w0 store).
  { destruct Hb as [(pl & ->)|(prev' & store & pl & LS & ->)].
    - destruct (enlarge_phase name prev st co ds dc n c c' h w h0 w0 pl Vs Vc Ds Dc Lh Lw) as (store & ds' & dc' & E & V1 & V2 & LS).
      exists true, prev, store, pl, ds', dc'. auto.
    - destruct (enlarge_again name prev prev' st co ds dc n c h w h0 w0 store (full_registry h w h0 w0) pl Ds Dc Lh Lw LS) as (ds' & dc' & E & V1 & V2).
      exists false, prev', store, pl, ds', dc'. auto. }
  clear Hb. destruct EP as (fr & prev' & store & pl & ds' & dc' & EP & Ds' & Dc' & HS).
  set (es := entries "q1" "q2" prev' _ _ _ _ _ _) in *. set (ec := entries "p_q1" "p_q2" prev' _ _ _ _ _ _) in *.
  set (b1 := net_block name (Some st) (Some co) fr es ec store (full_registry h w h0 w0) pl) in *.
  destruct (padded n c' h w B c H W prev st dd Vs Vd) as (pd & Ez & Vp).
  assert (Hs : shaped_names (paired name [n; c'; h; w] prev [n; c; h; w])) by (apply paired_names; auto; discriminate).
  assert (Hd : shaped_names (paired name [B; c'; H; W] prev [B; c; H; W])) by (apply paired_names; auto; discriminate).
  destruct (integrate_families (c + c') _ _ _ (paired name st prev ds') (paired name co prev dc') (paired name pd prev dd) b1 (Q2Qc 1)
     ltac:(lia) Hs Hs Hd)
    as (x0 & ps & s & k & d & EA & EI & Fs & Fk & Fd); auto using fam_paired, images_two.
  destruct (fam_concatenate_two _ _ name prev n c c' h w _ Lq Fs) as (s' & Cs & Vs').
  destruct (fam_concatenate_two _ _ name prev n c c' h w _ Lp Fk) as (k' & Ck & Vk').
  destruct (fam_concatenate_two _ _ name prev B c c' H W _ Lq Fd) as (d' & Cd & Vd').
  destruct (output_two name prev B c c' H W d Nm Fd) as (r & y & Er & Ey & Fy). rewrite Er in EI. cbn [bind] in EI.
  eexists. exists y, s', k', d'. split; [|split; [exact Fy|]; split; [exact Vs'|]; split; [exact Vk'|]; split; [exact Vd'|]; split; [|split]].
  - eapply forward_ok_intro with (b1 := b1) (b2 := set_data_dim 1 b1) (d := [(prev, dd)]) (z := true)
      (st' := Some [(prev, ds')]) (co' := Some [(prev, dc')]); [split; discriminate|right; discriminate|exact EP|reflexivity|..].
    + unfold initial_conditions, mbind, lift, ret. cbn [b_state b_costate b1 net_block b_name].
      rewrite (merge_two "q1" "q2" _ name st prev ds' Lq Ds' Nm), (merge_two "p_q1" "p_q2" _ name co prev dc' Lp Dc' Nm).
      cbn [ig_concat_dim conv_integrand].
      rewrite (data_dim n c' h w B c H W prev st dd Vs Vd). unfold modify. rewrite Ez.
      rewrite (merge_two "q1" "q2" _ name pd prev dd Lq Vd Nm). rewrite EA. reflexivity.
    + exact EI.
    + unfold finish_outputs. cbn [ig_concatenate conv_integrand ig_concat_dim].
      change (b_name (set_plans (Some ps) (set_data_dim 1 b1))) with name.
      change (b_data_dim (set_plans (Some ps) (set_data_dim 1 b1))) with 1.
      cbn [snd]. rewrite Cs. cbn [bind]. rewrite Ck. cbn [bind]. rewrite Cd. cbn [bind]. rewrite Ey. reflexivity.
  - exists st, co. split; auto. split; auto. right. exists prev', store, (Some ps). split; auto.
  - reflexivity.
  - destruct Vs as (t1 & t2 & -> & [_ T1] & [_ T2]). destruct Vc as (u1 & u2 & -> & [_ U1] & [_ U2]).
    unfold block_parameters. cbn [b_registry b_name set_fresh set_plans set_data_dim b1 net_block].
    unfold full_registry, named. rewrite !map_app. f_equal.
    + unfold own_registry, own_names. cbn [map fst snd].
      unfold numel_of. cbn [b_state b_costate set_fresh set_plans set_data_dim b1 net_block sd_get String.eqb Ascii.eqb Bool.eqb option_map].
      rewrite T1, T2, U1, U2. cbn [prod fold_right]. rewrite !Nat.mul_1_r, !Nat.mul_assoc. reflexivity.
    + unfold stored in HS. destruct (grows h w h0 w0); [|reflexivity].
      destruct HS as (a0 & a1 & a2 & a3 & Es & F). rewrite Es in F.
      inversion F as [|? ? Q0 F1]; subst. inversion F1 as [|? ? Q1 F2]; subst. inversion F2 as [|? ? Q2 F3]; subst.
      inversion F3 as [|? ? Q3 _]; subst.
      unfold enlarge_registry, enlarge_names, own_names. cbn [map fst snd String.append]. unfold numel_of.
      cbn [b_store set_fresh set_plans set_data_dim b1 net_block nth_error option_map].
      rewrite Q0, Q1, Q2, Q3. reflexivity.
Qed.
End Forward.

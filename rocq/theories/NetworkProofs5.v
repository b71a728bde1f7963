(** The residual network: construction, passes, parameters. *)
From Coq Require Import List String Ascii Arith ZArith QArith Qcanon Lia Bool Sorting.Sorted.
From Verif Require Import Base BaseFacts Tensor TensorFacts ScdModel BlockModel BlockSpec BlockProofs BlockProofs2
  StridingModel ResNetModel ResNetProofs NetworkModel NetworkSpec NetworkProofs NetworkProofs2 NetworkProofs3 NetworkProofs4.
Import ListNotations.
Open Scope string_scope.
Open Scope list_scope.
Open Scope nat_scope.

Lemma fit_grow s rest : forall prev, layers_fit s prev rest -> channels_grow prev rest.
Proof. induction rest as [|l rest IH]; intros prev H; cbn in *; intuition. Qed.

Section Net.
Context {A : Type}.
Variable zero : A.
Variable has_attr : string -> bool.
Variable init : string -> string -> nat -> A.
Variable rnd : string -> nat -> nat -> A.
Variable solve : nat -> @block A -> list A -> list Qc -> result (tensor A).
Variable stem : tensor A -> result (tensor A).
Variable head : @output A -> result (tensor A).
Notation tdict := (sdict (tensor A)).
Notation netblock := (@netblock A).
Notation fwd := (network_forward zero has_attr rnd solve stem head).
Hypothesis free : forall k, In k parameter_names -> has_attr k = false.

Lemma free' : forall k, In k (own_names ++ enlarge_names) -> has_attr k = false.
Proof. exact free. Qed.

(** ** Construction *)
Lemma create_passing_blocks N size i c m start : exists nbs,
  mapM (create_block has_attr init N size) (map (fun b => mkRB (block_name i b) (Z.of_nat c) None) (seq start m)) = Ok nbs /\
  List.length nbs = m /\ Forall2 (fun j nb => passes c (block_name i j) nb) (seq start m) nbs.
Proof.
  revert start. induction m as [|m IH]; intro start; cbn [seq map mapM].
  - exists []. repeat split; constructor.
  - rewrite create_passing. cbn [bind]. destruct (IH (S start)) as (nbs & E & L & F). rewrite E. cbn [bind].
    eexists. split; [reflexivity|]. split; [cbn; congruence|]. constructor; auto.
    exists true, None. rewrite Nat2Z.id. reflexivity.
Qed.

Lemma layer_blocks_split cs counts i k : nth i counts 0 = S k ->
  layer_blocks cs counts i = mkRB (block_name i 0) (nth i cs 0%Z) (Some (additional_of cs i))
    :: map (fun b => mkRB (block_name i b) (nth i cs 0%Z) None) (seq 1 k).
Proof.
  intro E. unfold layer_blocks. rewrite E. cbn [seq map Nat.ltb Nat.leb]. f_equal.
  apply map_ext_in. intros b Hb. apply in_seq in Hb. destruct b; [lia|reflexivity].
Qed.

Lemma create_first_layer N l0 cs counts k : nth 0 counts 0 = S k -> nth 0 cs 0%Z = Z.of_nat (channels l0) ->
  exists nbs, mapM (create_block has_attr init N [height l0; width l0]) (layer_blocks cs counts 0) = Ok nbs /\
    layer_of (begins N l0) (channels l0) 0 nbs.
Proof.
  intros K C. rewrite (layer_blocks_split _ _ _ _ K). cbn [mapM]. rewrite (create_own has_attr init (fun _ _ => zero) free'). cbn [bind].
  unfold additional_of. rewrite C.
  destruct (create_passing_blocks N [height l0; width l0] 0 (channels l0) k 1) as (nbs & E & L & F). rewrite E. cbn [bind].
  eexists. split; [reflexivity|]. do 2 eexists. split; [reflexivity|]. rewrite L. split; auto.
  rewrite Nat2Z.id. do 4 eexists. split; [apply initial_state_shape|]. split; [apply initial_costate_shape|]. reflexivity.
Qed.

Lemma create_later_layer N s prev l i cs counts k : nth (S i) counts 0 = S k ->
  nth i cs 0%Z = Z.of_nat (channels prev) -> nth (S i) cs 0%Z = Z.of_nat (channels l) -> channels prev <= channels l ->
  exists nbs, mapM (create_block has_attr init N [height l; width l]) (layer_blocks cs counts (S i)) = Ok nbs /\
    layer_of (joins N s prev l) (channels l) (S i) nbs.
Proof.
  intros K C1 C2 M. rewrite (layer_blocks_split _ _ _ _ K). cbn [mapM]. rewrite (create_own has_attr init (fun _ _ => zero) free'). cbn [bind].
  unfold additional_of. rewrite C1, C2.
  destruct (create_passing_blocks N [height l; width l] (S i) (channels l) k 1) as (nbs & E & L & F). rewrite E. cbn [bind].
  eexists. split; [reflexivity|]. do 2 eexists. split; [reflexivity|]. rewrite L. split; auto.
  replace (Z.to_nat (Z.of_nat (channels l) - Z.of_nat (channels prev))) with (channels l - channels prev) by lia.
  rewrite Nat2Z.id. eexists. split; [reflexivity|].
  do 2 eexists. split; [apply initial_state_shape|]. split; [apply initial_costate_shape|]. left. exists None. reflexivity.
Qed.

Lemma create_later N s counts : forall rest prev pre, channels_grow prev rest ->
  List.length counts = List.length pre + S (List.length rest) -> Forall (fun k => 0 < k) counts ->
  let cs := map Z.of_nat (pre ++ channels prev :: map channels rest) in
  exists nbss, mapM (fun ls => mapM (create_block has_attr init N (snd ls)) (fst ls))
      (combine (map (layer_blocks cs counts) (seq (S (List.length pre)) (List.length rest)))
               (map (fun l => [height l; width l]) rest)) = Ok nbss /\
    later_ok N s (List.length pre) prev rest nbss.
Proof.
  induction rest as [|l rest IH]; intros prev pre G LC P cs.
  - exists []. split; [reflexivity|exact I].
  - destruct G as [G1 G2]. cbn [List.length seq map combine mapM fst snd].
    assert (K : exists k, nth (S (List.length pre)) counts 0 = S k).
    { assert (X : 0 < nth (S (List.length pre)) counts 0).
      { rewrite Forall_forall in P. apply P. apply nth_In. rewrite LC. cbn. lia. }
      destruct (nth (S (List.length pre)) counts 0) as [|k]; [lia|eauto]. }
    destruct K as [k K].
    assert (N1 : nth (List.length pre) cs 0%Z = Z.of_nat (channels prev)).
    { unfold cs. rewrite map_app. rewrite app_nth2; rewrite map_length; [|lia]. rewrite Nat.sub_diag. reflexivity. }
    assert (N2 : nth (S (List.length pre)) cs 0%Z = Z.of_nat (channels l)).
    { unfold cs. rewrite map_app. rewrite app_nth2; rewrite map_length; [|lia].
      replace (S (List.length pre) - List.length pre) with 1 by lia. reflexivity. }
    destruct (create_later_layer N s prev l (List.length pre) cs counts k K N1 N2 G1) as (nbs & E & L).
    rewrite E. cbn [bind].
    destruct (IH l (pre ++ [channels prev]) G2) as (nbss & E' & L'); auto.
    { rewrite app_length. cbn [List.length] in *. lia. }
    rewrite app_length in E', L'. cbn [List.length] in E', L'. rewrite Nat.add_1_r in E', L'.
    rewrite <- app_assoc in E'. cbn [app] in E'. unfold cs. cbn [map]. rewrite E'. cbn [bind].
    exists (nbs :: nbss). split; auto. split; auto.
Qed.

Lemma nth_map_channels (l : list layer) i : nth i (map Z.of_nat (map channels l)) 0%Z = Z.of_nat (nth i (map channels l) 0).
Proof. change 0%Z with (Z.of_nat 0). apply map_nth. Qed.

Lemma grow_nth rest : forall prev i, channels_grow prev rest -> i < List.length rest ->
  nth i (map channels (prev :: rest)) 0 <= nth (S i) (map channels (prev :: rest)) 0.
Proof.
  induction rest as [|l rest IH]; intros prev i G L; [cbn in L; lia|]. destruct G as [G1 G2].
  destruct i as [|i]; [exact G1|]. apply (IH l i G2). cbn in L. lia.
Qed.

Lemma create_ok' N s ic classes l0 rest counts : channels_grow l0 rest ->
  List.length counts = S (List.length rest) -> Forall (fun k => 0 < k) counts ->
  exists nbss, create_network has_attr init ic (map channels (l0 :: rest)) counts (Z.of_nat s)
      (map (fun l => [height l; width l]) (l0 :: rest)) N classes
    = Ok (mkNet ic (map channels (l0 :: rest)) nbss (Z.of_nat s) classes) /\ layers_ok N s l0 rest nbss.
Proof.
  intros G LC P. unfold create_network.
  set (cs := map Z.of_nat (map channels (l0 :: rest))).
  assert (LL : List.length (map (fun l => [height l; width l]) (l0 :: rest)) = List.length cs).
  { unfold cs. rewrite !map_length. reflexivity. }
  rewrite LL. rewrite create_ok.
  2:{ discriminate. }
  2:{ unfold cs. cbn. lia. }
  2:{ intros i Hi. unfold cs in *. rewrite !map_length in Hi. rewrite !nth_map_channels. apply inj_le.
      apply grow_nth; auto. cbn in Hi. lia. }
  2:{ unfold cs. rewrite !map_length. cbn. lia. }
  cbn [bind rn_layers].
  assert (LN : List.length cs = S (List.length rest)) by (unfold cs; rewrite !map_length; reflexivity).
  rewrite LN. cbn [seq map combine mapM fst snd].
  assert (K : exists k, nth 0 counts 0 = S k).
  { destruct counts as [|k0 counts]; [discriminate|]. inversion P; subst. destruct k0; [lia|]. cbn. eauto. }
  destruct K as [k K].
  destruct (create_first_layer N l0 cs counts k K eq_refl) as (nbs & E & L). rewrite E. cbn [bind].
  destruct (create_later N s counts rest l0 [] G) as (nbss & E' & L'); auto.
  cbn [List.length app] in E', L'. change (map Z.of_nat (channels l0 :: map channels rest)) with cs in E'. rewrite E'. cbn [bind].
  exists (nbs :: nbss). split; [reflexivity|]. exists nbs, nbss. auto.
Qed.

(** ** Passes *)
Hypothesis conv : convolves solve.

Definition network_ok N s ic classes l0 rest (net : @network A) : Prop :=
  exists nbss, net = mkNet ic (map channels (l0 :: rest)) nbss (Z.of_nat s) classes /\ layers_ok N s l0 rest nbss.

Lemma last_channels (l0 : layer) rest : last (map channels (l0 :: rest)) 0 = channels (last rest l0).
Proof.
  revert l0. induction rest as [|l rest IH]; intro l0; [reflexivity|]. rewrite last_cons, <- IH. reflexivity.
Qed.

Lemma pass_ok N s ic classes l0 rest net x : 0 < s -> layers_fit s l0 rest -> 0 < channels l0 -> positive_sizes (l0 :: rest) ->
  network_ok N s ic classes l0 rest net ->
  acceptable stem head s ic (channels l0) (channels (last rest l0)) (List.length rest) x ->
  exists net' r, fwd net x = (net', Ok r) /\ network_ok N s ic classes l0 rest net' /\ all_done (nw_layers net') /\
    network_parameters net' = somes (expected_network ic classes N s l0 rest).
Proof.
  intros P LF C PS (nbss & -> & LO) (B & H & W & Wx & Sx & KS & CL & QH & QW).
  destruct (KS x Wx Sx) as (y & Ey & Wy & Sy).
  destruct (run_all zero has_attr rnd solve free' conv N s B H W l0 rest nbss y P LF C PS LO (conj Wy Sy) QH QW)
    as (nbss' & cr' & H' & W' & E & LO' & D & Q & (o & m & -> & [Wo So]) & PH & PW).
  destruct (CL o H' W' Wo So PH PW) as (r & Er).
  unfold network_forward. rewrite Ey. cbn [nw_stride nw_layers nw_image_channels nw_channels nw_classes]. rewrite E. cbn [bind fst]. rewrite Er.
  do 2 eexists. split; [reflexivity|]. split; [exists nbss'; auto|]. split; [exact D|].
  unfold network_parameters. cbn [nw_stride nw_layers nw_image_channels nw_channels nw_classes].
  rewrite last_channels. change (flat_map _ nbss') with (all_pars nbss'). rewrite Q.
  unfold expected_network. rewrite !somes_app, <- !app_assoc. reflexivity.
Qed.

Lemma passes_ok N s ic classes l0 rest : 0 < s -> layers_fit s l0 rest -> 0 < channels l0 -> positive_sizes (l0 :: rest) ->
  forall xs net x, network_ok N s ic classes l0 rest net ->
  Forall (acceptable stem head s ic (channels l0) (channels (last rest l0)) (List.length rest)) (x :: xs) ->
  exists net' rs, successive fwd net (x :: xs) = (net', map Ok rs) /\
    network_parameters net' = somes (expected_network ic classes N s l0 rest).
Proof.
  intros P LF C PS. induction xs as [|x' xs IH]; intros net x NO F; inversion F as [|? ? F1 F2]; subst.
  - destruct (pass_ok N s ic classes l0 rest net x P LF C PS NO F1) as (net' & r & E & NO' & _ & Q).
    exists net', [r]. cbn [successive]. rewrite E. auto.
  - destruct (pass_ok N s ic classes l0 rest net x P LF C PS NO F1) as (net' & r & E & NO' & _ & Q).
    destruct (IH net' x' NO' F2) as (net'' & rs & E' & Q').
    exists net'', (r :: rs). split; auto. cbn [successive] in *. rewrite E.
    destruct (fwd net' x') as [n1 y1]. destruct (successive fwd n1 xs) as [n2 ys]. injection E' as -> E'. rewrite E'. reflexivity.
Qed.

(** ** Any pass of a network which has been executed *)
Definition same_nb (nb nb' : netblock) : Prop :=
  done nb -> done nb' /\ block_parameters (nb_block nb') = block_parameters (nb_block nb).

Lemma same_nb_refl nb : same_nb nb nb.
Proof. intro H. auto. Qed.

Lemma forward_static has_attr' rnd' solve' x st co data b : b_fresh b = false ->
  let b' := fst (BlockModel.forward zero (conv_integrand zero) has_attr' rnd' solve' x st co data b) in
  b_fresh b' = false /\ block_parameters b' = block_parameters b.
Proof.
  intros F b'. pose proof (executed_keeps_parameters zero (conv_integrand zero) has_attr' rnd' solve' x st co data b F) as (_ & _ & K1 & K2).
  fold b' in K1, K2.
  assert (S : b_name b' = b_name b /\ b_state b' = b_state b /\ b_costate b' = b_costate b /\ b_fresh b' = false).
  { unfold b'. rewrite forward_split. pose proof (forward_body_static zero (conv_integrand zero) has_attr' rnd' solve' x st co data b) as K.
    destruct (forward_body zero (conv_integrand zero) has_attr' rnd' solve' x st co data b) as [b1 [r|e]]; cbn [fst] in *.
    - destruct K as (E1 & E2 & E3 & _). repeat split; auto.
    - destruct K as (E1 & E2 & E3 & _ & _ & E4 & _). repeat split; auto. congruence. }
  destruct S as (S1 & S2 & S3 & S4). split; auto.
  unfold block_parameters. rewrite K2, S1. apply map_ext. intros [k o]. cbn [fst snd]. f_equal.
  unfold numel_of. rewrite S2, S3, K1. reflexivity.
Qed.

Lemma run1_same cr nb : same_nb nb (fst (run_netblock zero has_attr rnd solve cr nb)).
Proof.
  intro D. unfold done in D. unfold run_netblock. destruct cr as [o [[[s c] d]|]].
  - match goal with |- context [BlockModel.forward ?z ?i ?h ?r ?so ?x ?st ?co ?da ?b] =>
      pose proof (forward_static h r so x st co da b D) as K; destruct (BlockModel.forward z i h r so x st co da b) as [b' r'] end.
    destruct o; exact K.
  - destruct o; try (split; auto; fail).
    match goal with |- context [BlockModel.forward ?z ?i ?h ?r ?so ?x ?st ?co ?da ?b] =>
      pose proof (forward_static h r so x st co da b D) as K; destruct (BlockModel.forward z i h r so x st co da b) as [b' r'] end.
    exact K.
Qed.

Lemma runb_same l : forall cr, Forall2 same_nb l (fst (run_netblocks zero has_attr rnd solve cr l)).
Proof.
  assert (R : forall l, Forall2 same_nb l l) by (induction l0; constructor; auto using same_nb_refl).
  induction l as [|nb l IH]; intro cr; [constructor|]. cbn [run_netblocks].
  pose proof (run1_same cr nb) as K. destruct (run_netblock zero has_attr rnd solve cr nb) as [nb' [cr'|e]].
  - specialize (IH cr'). destruct (run_netblocks zero has_attr rnd solve cr' l) as [l' r]. constructor; auto.
  - constructor; auto.
Qed.

Lemma runl_same st l : forall cr, Forall2 (Forall2 same_nb) l (fst (run_netlayers zero has_attr rnd solve st cr l)).
Proof.
  assert (R : forall l, Forall2 same_nb l l) by (induction l0; constructor; auto using same_nb_refl).
  assert (R' : forall l, Forall2 (Forall2 same_nb) l l) by (induction l0; constructor; auto).
  induction l as [|nbs l IH]; intro cr; [constructor|]. cbn [run_netlayers].
  pose proof (runb_same nbs cr) as K. destruct (run_netblocks zero has_attr rnd solve cr nbs) as [nbs' [cr'|e]]; [|constructor; auto].
  destruct l as [|nbs1 l]; [repeat constructor; auto|].
  destruct (run_striding st cr') as [cr''|e]; [|constructor; auto].
  specialize (IH cr''). destruct (run_netlayers zero has_attr rnd solve st cr'' (nbs1 :: l)) as [l' r]. constructor; auto.
Qed.

Lemma same_pars l l' : Forall2 same_nb l l' -> Forall done l -> Forall done l' /\ pars l' = pars l.
Proof.
  induction 1 as [|nb nb' l l' S F IH]; intro D; [auto|]. inversion D as [|? ? D1 D2]; subst.
  destruct (S D1) as [S1 S2]. destruct (IH D2) as [I1 I2]. split; [constructor; auto|].
  unfold pars in *. cbn [flat_map]. rewrite S2, I2. reflexivity.
Qed.

Lemma same_all_pars l l' : Forall2 (Forall2 same_nb) l l' -> all_done l -> all_done l' /\ all_pars l' = all_pars l.
Proof.
  induction 1 as [|nb nb' l l' S F IH]; intro D; [auto|]. inversion D as [|? ? D1 D2]; subst.
  destruct (same_pars _ _ S D1) as [S1 S2]. destruct (IH D2) as [I1 I2]. split; [constructor; auto|].
  unfold all_pars in *. cbn [flat_map]. rewrite S2, I2. reflexivity.
Qed.

Lemma pass_keeps net x : all_done (nw_layers net) ->
  all_done (nw_layers (fst (fwd net x))) /\ network_parameters (fst (fwd net x)) = network_parameters net.
Proof.
  intro D. unfold network_forward. destruct (stem x) as [y|e]; [|auto].
  pose proof (runl_same (nw_stride net) (nw_layers net) (RTensor y, None)) as K.
  destruct (run_netlayers zero has_attr rnd solve (nw_stride net) (RTensor y, None) (nw_layers net)) as [l' r]. cbn [fst] in *.
  destruct (same_all_pars _ _ K D) as [D' Q]. split; [exact D'|].
  unfold network_parameters. cbn [nw_layers nw_image_channels nw_channels nw_classes].
  change (flat_map _ l') with (all_pars l'). rewrite Q. reflexivity.
Qed.

Lemma passes_keep xs : forall net, all_done (nw_layers net) ->
  network_parameters (fst (successive fwd net xs)) = network_parameters net.
Proof.
  induction xs as [|x xs IH]; intros net D; [reflexivity|]. cbn [successive].
  destruct (pass_keeps net x D) as [D' Q]. destruct (fwd net x) as [net' y]. cbn [fst] in *.
  specialize (IH net' D'). destruct (successive fwd net' xs) as [net'' ys]. cbn [fst] in *. congruence.
Qed.

(** ** C113 *)
Theorem expected_parameters_ok image_channels classes N s l0 rest counts :
  0 < s -> layers_fit s l0 rest -> 0 < channels l0 -> positive_sizes (l0 :: rest) ->
  List.length counts = S (List.length rest) -> Forall (fun k => 0 < k) counts ->
  exists net, create_network has_attr init image_channels (map channels (l0 :: rest)) counts (Z.of_nat s)
      (map (fun l => [height l; width l]) (l0 :: rest)) N classes = Ok net /\
    forall x xs, Forall (acceptable stem head s image_channels (channels l0) (channels (last rest l0)) (List.length rest)) (x :: xs) ->
    exists net' rs, successive fwd net (x :: xs) = (net', map Ok rs) /\
      network_parameters net' = map (fun p => (fst p, Some (snd p))) (expected_network image_channels classes N s l0 rest) /\
      forall others, network_parameters (fst (successive fwd net' others)) = network_parameters net'.
Proof.
  intros P LF C PS LC PC.
  destruct (create_ok' N s image_channels classes l0 rest counts (fit_grow _ _ _ LF) LC PC) as (nbss & E & LO).
  eexists. split; [exact E|]. intros x xs F.
  set (net := mkNet _ _ _ _ _).
  assert (NO : network_ok N s image_channels classes l0 rest net) by (exists nbss; auto).
  clearbody net. revert net x NO F. induction xs as [|x' xs IH]; intros net x NO F.
  - inversion F as [|? ? F1 F2]; subst.
    destruct (pass_ok N s image_channels classes l0 rest net x P LF C PS NO F1) as (net' & r & Er & NO' & D & Q).
    exists net', [r]. cbn [successive]. rewrite Er. split; auto. split; auto. intro others. apply passes_keep. exact D.
  - inversion F as [|? ? F1 F2]; subst.
    destruct (pass_ok N s image_channels classes l0 rest net x P LF C PS NO F1) as (net' & r & Er & NO' & D & Q).
    destruct (IH net' x' NO' F2) as (net'' & rs & E' & Q' & K).
    exists net'', (r :: rs). split; auto. cbn [successive] in *. rewrite Er.
    destruct (fwd net' x') as [n1 y1]. destruct (successive fwd n1 xs) as [n2 ys]. injection E' as -> E'. rewrite E'. reflexivity.
Qed.
End Net.

(** ** Particles which do not fit *)
Section Misfit.
Context {A : Type}.
Variable zero : A.
Variable has_attr : string -> bool.
Variable init : string -> string -> nat -> A.
Variable rnd : string -> nat -> nat -> A.
Variable solve : nat -> @block A -> list A -> list Qc -> result (tensor A).
Variable stem : tensor A -> result (tensor A).
Variable head : @output A -> result (tensor A).
Notation tdict := (sdict (tensor A)).
Notation netblock := (@netblock A).
Notation carry := (@carry A).
Notation ig := (conv_integrand zero).
Notation fwd := (network_forward zero has_attr rnd solve stem head).
Notation runb := (run_netblocks zero has_attr rnd solve).
Notation runl := (run_netlayers zero has_attr rnd solve).

Definition stuck_between (prev l : layer) (s : nat) : Prop := height l < height prev / s \/ width l < width prev / s.

Lemma misfit_block rnd' so name prev (st co ds dc : tdict) (dd : sdict tdict) n c c' h w h0 w0 pl :
  var2 "q1" "q2" [n; c'; h; w] st -> var2 "q1" "q2" [n; c; h0; w0] ds -> h < h0 \/ w < w0 ->
  let b := net_block name (Some st) (Some co) true None None [] own_registry pl in
  BlockModel.forward zero ig has_attr rnd' so None (Some [(prev, ds)]) (Some [(prev, dc)]) (Some dd) b = (b, Raise ValueError).
Proof.
  intros (t1 & t2 & -> & [_ T1] & [_ T2]) (u1 & u2 & -> & [_ U1] & [_ U2]) HW. cbv zeta.
  unfold BlockModel.forward. rewrite mbind_at. unfold effective_pass_through. cbn [b_enlarge net_block].
  rewrite mbind_at. unfold get_or_create_enlargement. cbn [b_fresh b_st_enl b_co_enl net_block orb b_state b_costate].
  rewrite mbind_at. unfold create_enlargement. cbn [ig_enlargement conv_integrand loop fst snd].
  unfold create_enlargement_step, mbind, lift, ret. cbn [fst snd].
  unfold sd_mem, sd_item. cbn [sd_get String.eqb Ascii.eqb Bool.eqb]. rewrite T1, U1.
  unfold list_item, list_set. cbn [nth_error List.length set_nth Nat.ltb Nat.leb].
  assert (SD : size_diff [n; c; h; w] [n; c; h0; w0] = Raise ValueError).
  { cbn [size_diff]. rewrite !Nat.ltb_irrefl.
    destruct (Nat.ltb_spec h h0); [reflexivity|]. destruct (Nat.ltb_spec w w0); [reflexivity|lia]. }
  rewrite SD. reflexivity.
Qed.

Definition fresh_layer (nbs : list netblock) : Prop := Forall (fun nb => b_fresh (nb_block nb) = true) nbs.

Lemma misfit_layer n s prev l i jp B H W nbs (cr : carry) : stuck_between prev l s ->
  layer_of (joins n s prev l) (channels l) (S i) nbs -> fresh_layer nbs ->
  carries (block_name i jp) n (channels prev) (height prev / s) (width prev / s) B H W cr ->
  runb cr nbs = (nbs, Raise ValueError).
Proof.
  intros SB (nb & rest & -> & (b & -> & (st & co & Vs & Vc & Hb)) & _) FL (y & ds & dc & dd & -> & V1 & V2 & V3).
  inversion FL as [|? ? F1 _]; subst. cbn [nb_block] in F1.
  destruct Hb as [(pl & ->)|(p & sto & pl & _ & ->)]; [|discriminate].
  cbn [run_netblocks run_netblock nb_block nb_features].
  rewrite (misfit_block _ _ _ _ _ _ _ _ _ n (channels prev) (channels l - channels prev) (height l) (width l) _ _ _ Vs V1 SB).
  reflexivity.
Qed.

Hypothesis free : forall k, In k parameter_names -> has_attr k = false.
Hypothesis conv : convolves solve.

Lemma run_stuck n s B nbs more l : 0 < s -> fresh_layer nbs -> forall fit i prev jp nbss H W (cr : carry),
  layers_fit s prev fit -> 0 < channels prev -> positive_sizes fit -> later_ok n s i prev fit nbss ->
  layer_of (joins n s (last fit prev) l) (channels l) (S (i + List.length fit)) nbs -> stuck_between (last fit prev) l s ->
  carries (block_name i jp) n (channels prev) (height prev) (width prev) B H W cr ->
  0 < H / s ^ S (List.length fit) -> 0 < W / s ^ S (List.length fit) ->
  exists nbss' c1, run_striding (Z.of_nat s) cr = Ok c1 /\
    runl (Z.of_nat s) c1 (nbss ++ nbs :: more) = (nbss' ++ nbs :: more, Raise ValueError) /\ later_ok n s i prev fit nbss'.
Proof.
  intros P FL. induction fit as [|l' fit IH]; intros i prev jp nbss H W cr LF C PS LO LN SB K QH QW.
  - destruct nbss; [|destruct LO].
    destruct (stride_carried s _ _ _ _ _ _ _ _ cr P K) as (c1 & ES & K1).
    cbn [List.length] in LN. rewrite Nat.add_0_r in LN.
    exists [], c1. split; auto. split; auto. cbn [app run_netlayers].
    rewrite (misfit_layer _ _ _ _ _ _ _ _ _ _ _ SB LN FL K1). reflexivity.
  - destruct nbss as [|nbs0 nbss]; [destruct LO|]. destruct LO as [L0 LO]. destruct LF as (G0 & G1 & G2 & LF).
    unfold positive_sizes in PS. inversion PS as [|? ? [PH PW] PS']; subst.
    cbn [List.length] in QH, QW. destruct (pow_div _ _ _ P QH) as [QH' PH']. destruct (pow_div _ _ _ P QW) as [QW' PW'].
    destruct (stride_carried s _ _ _ _ _ _ _ _ cr P K) as (c1 & ES & K1).
    destruct (run_later_layer zero has_attr rnd solve free conv n s prev l' i jp B (H / s) (W / s) nbs0 c1) as (nbs' & c2 & j & E2 & L2 & D2 & Q2 & K2 & R2); auto;
      try (exact (pos_div _ _ _ P QH') || exact (pos_div _ _ _ P QW')).
    rewrite last_cons in LN, SB. cbn [List.length] in LN. rewrite Nat.add_succ_r in LN.
    destruct (IH (S i) l' j nbss (H / s) (W / s) c2) as (nbss' & c3 & E3 & E4 & L3); auto; [lia|].
    exists (nbs' :: nbss'), c1. split; auto. split; [|split; auto].
    cbn [app run_netlayers]. rewrite E2.
    destruct (nbss ++ nbs :: more) as [|q qs] eqn:Eq; [destruct nbss; discriminate|]. rewrite E3, E4. reflexivity.
Qed.

Definition stuck_net n s ic classes l0 fit l (chs : list nat) (net : @network A) : Prop :=
  exists nbss nbs more, net = mkNet ic chs (nbss ++ nbs :: more) (Z.of_nat s) classes /\ layers_ok n s l0 fit nbss /\
    layer_of (joins n s (last fit l0) l) (channels l) (S (List.length fit)) nbs /\ fresh_layer nbs.

Lemma stuck_pass n s ic classes l0 fit l chs net x depth cL : 0 < s -> layers_fit s l0 fit -> 0 < channels l0 ->
  positive_sizes (l0 :: fit) -> stuck_between (last fit l0) l s -> stuck_net n s ic classes l0 fit l chs net ->
  List.length fit < depth -> acceptable stem head s ic (channels l0) cL depth x ->
  exists net', fwd net x = (net', Raise ValueError) /\ stuck_net n s ic classes l0 fit l chs net'.
Proof.
  intros P LF C PS SB (nbss & nbs & more & -> & (nbs0 & later & -> & L0 & LO) & LN & FL) LD (B & H & W & Wx & Sx & KS & CL & QH & QW).
  destruct (KS x Wx Sx) as (y & Ey & Wy & Sy).
  assert (Q : forall H, 0 < H / s ^ depth -> 0 < H / s ^ S (List.length fit)).
  { intros H' Q. apply (Nat.lt_le_trans _ _ _ Q). apply Nat.div_le_compat_l.
    split; [|apply Nat.pow_le_mono_r; lia]. pose proof (Nat.pow_nonzero s (S (List.length fit))). lia. }
  apply Q in QH. apply Q in QW.
  unfold positive_sizes in PS. inversion PS as [|? ? [PH PW] PS']; subst.
  assert (H0 : 0 < H) by (exact (pos_div _ _ _ P QH)). assert (W0 : 0 < W) by (exact (pos_div _ _ _ P QW)).
  destruct (run_first_layer zero has_attr rnd solve conv n l0 0 B H W nbs0 y C PH PW H0 W0 L0 (conj Wy Sy)) as (nbs' & c2 & j & E2 & L2 & D2 & Q2 & K2 & R2).
  destruct (run_stuck n s B nbs more l P FL fit 0 l0 j later H W c2 LF C PS' LO LN SB K2 QH QW) as (nbss' & c1 & E3 & E4 & L3).
  unfold network_forward. rewrite Ey. cbn [nw_stride nw_layers nw_image_channels nw_channels nw_classes app run_netlayers].
  rewrite E2. destruct (later ++ nbs :: more) as [|q qs] eqn:Eq; [destruct later; discriminate|]. rewrite E3, E4. cbn [bind].
  eexists. split; [reflexivity|]. exists (nbs' :: nbss'), nbs, more. split; [reflexivity|]. split; [|auto].
  exists nbs', nbss'. auto.
Qed.

(** *** Construction *)
Lemma create_fresh N size rb nb : create_block has_attr init N size rb = Ok nb -> b_fresh (nb_block nb) = true.
Proof.
  unfold create_block. destruct (rb_own rb) as [c|]; unfold new_block; cbn [andb orb].
  - destruct (register_state_and_costate _ _ _ _ _); cbn [bind]; [|discriminate].
    destruct (register_integrand _ _ _); cbn [bind]; [|discriminate]. intro E. injection E as <-. reflexivity.
  - destruct (register_state_and_costate _ _ _ _ _); cbn [bind]; [|discriminate].
    destruct (register_integrand _ _ _); cbn [bind]; [|discriminate]. intro E. injection E as <-. reflexivity.
Qed.

Lemma mapM_all {X Y} (f : X -> result Y) (Q : Y -> Prop) l : (forall x y, f x = Ok y -> Q y) -> forall r, mapM f l = Ok r -> Forall Q r.
Proof.
  intro H. induction l as [|x l IH]; cbn [mapM]; intros r E.
  - injection E as <-. constructor.
  - destruct (f x) as [y|e] eqn:Ey; cbn [bind] in E; [|discriminate].
    destruct (mapM f l) as [ys|e] eqn:El; cbn [bind] in E; [|discriminate].
    assert (E' : r = y :: ys) by congruence. subst r. constructor; eauto.
Qed.

Lemma created_fresh ic cs counts st sizes N classes net :
  create_network has_attr init ic cs counts st sizes N classes = Ok net -> Forall fresh_layer (nw_layers net).
Proof.
  unfold create_network. destruct (create_resnet _ _ _) as [rn|e]; cbn [bind]; [|discriminate].
  destruct (mapM _ (combine (rn_layers rn) sizes)) as [ls|e] eqn:E; cbn [bind]; [|discriminate].
  intro E'. injection E' as <-. cbn [nw_layers].
  refine (mapM_all _ _ _ _ _ E). intros [rbs size] nbs Enb. cbn [fst snd] in Enb.
  refine (mapM_all _ _ _ _ _ Enb). intros rb nb. apply create_fresh.
Qed.

Lemma later_ok_app n s : forall fit i prev l more nbss, later_ok n s i prev (fit ++ l :: more) nbss ->
  exists a nbs b, nbss = a ++ nbs :: b /\ later_ok (A := A) n s i prev fit a /\
    layer_of (joins n s (last fit prev) l) (channels l) (S (i + List.length fit)) nbs.
Proof.
  induction fit as [|l' fit IH]; intros i prev l more nbss LO.
  - destruct nbss as [|nbs nbss]; [destruct LO|]. destruct LO as [L0 _]. exists [], nbs, nbss.
    cbn [List.length last]. rewrite Nat.add_0_r. split; [reflexivity|split; [exact I|exact L0]].
  - destruct nbss as [|nbs nbss]; [destruct LO|]. destruct LO as [L0 LO].
    destruct (IH _ _ _ _ _ LO) as (a & nbs' & b & -> & LA & LN). exists (nbs :: a), nbs', b.
    rewrite last_cons. cbn [List.length]. rewrite Nat.add_succ_r. repeat split; auto.
Qed.

Lemma misfit_split s : forall rest prev, channels_grow prev rest -> ~ layers_fit s prev rest ->
  exists fit l more, rest = fit ++ l :: more /\ layers_fit s prev fit /\ stuck_between (last fit prev) l s.
Proof.
  induction rest as [|l rest IH]; intros prev G NF; [cbn in NF; tauto|]. destruct G as [G1 G2].
  destruct (le_lt_dec (height prev / s) (height l)) as [HL|HL]; [|exists [], l, rest; unfold stuck_between; cbn; auto].
  destruct (le_lt_dec (width prev / s) (width l)) as [WL|WL]; [|exists [], l, rest; unfold stuck_between; cbn; auto].
  destruct (IH l G2) as (fit & l' & more & -> & LF & SB).
  { intro LF. apply NF. cbn. auto. }
  exists (l :: fit), l', more. rewrite last_cons. repeat split; auto.
Qed.

Theorem misfit_raises image_channels classes N s l0 rest counts :
  0 < s -> channels_grow l0 rest -> ~ layers_fit s l0 rest -> 0 < channels l0 -> positive_sizes (l0 :: rest) ->
  List.length counts = S (List.length rest) -> Forall (fun k => 0 < k) counts ->
  exists net, create_network has_attr init image_channels (map channels (l0 :: rest)) counts (Z.of_nat s)
      (map (fun l => [height l; width l]) (l0 :: rest)) N classes = Ok net /\
    forall xs, Forall (acceptable stem head s image_channels (channels l0) (channels (last rest l0)) (List.length rest)) xs ->
    snd (successive fwd net xs) = map (fun _ => Raise ValueError) xs.
Proof.
  intros P G NF C PS LC PC.
  destruct (create_ok' zero has_attr init free N s image_channels classes l0 rest counts G LC PC) as (nbss & E & LO).
  eexists. split; [exact E|]. apply created_fresh in E. cbn [nw_layers] in E.
  destruct (misfit_split s rest l0 G NF) as (fit & l & more & -> & LF & SB).
  set (net := mkNet _ _ _ _ _).
  assert (SN : stuck_net N s image_channels classes l0 fit l (map channels (l0 :: fit ++ l :: more)) net).
  { destruct LO as (nbs0 & nbss' & -> & L0 & LO). destruct (later_ok_app _ _ _ _ _ _ _ _ LO) as (a & nbs & b & -> & LA & LN).
    exists (nbs0 :: a), nbs, b. split; [reflexivity|]. split; [exists nbs0, a; auto|]. split; [exact LN|].
    rewrite Forall_forall in E. apply E. cbn [In]. right. apply in_or_app. right. left. reflexivity. }
  clearbody net. clear LO E. intros xs FA.
  assert (PS' : positive_sizes (l0 :: fit)).
  { unfold positive_sizes in *. rewrite Forall_forall in *. intros y Hy. apply PS. cbn [In] in *. rewrite in_app_iff. tauto. }
  revert net SN. induction FA as [|x xs AX FA IH]; intros net SN; [reflexivity|].
  assert (LD : List.length fit < List.length (fit ++ l :: more)) by (rewrite app_length; cbn [List.length]; lia).
  destruct (stuck_pass _ _ _ _ _ _ _ _ net x _ _ P LF C PS' SB SN LD AX) as (net' & EF & SN').
  cbn [successive map]. rewrite EF. specialize (IH net' SN'). destruct (successive fwd net' xs) as [n2 ys]. cbn [snd] in *. congruence.
Qed.
End Misfit.

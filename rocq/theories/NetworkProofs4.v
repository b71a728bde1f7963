(** Layers and passes of the residual network. *)
From Coq Require Import List String Ascii Arith ZArith QArith Qcanon Lia Bool Sorting.Sorted.
From Verif Require Import Base BaseFacts Tensor TensorFacts ScdModel BlockModel BlockSpec
  StridingModel StridingSpec StridingProofs ResNetModel ResNetProofs NetworkModel NetworkSpec NetworkProofs NetworkProofs2 NetworkProofs3.
Import ListNotations.
Open Scope string_scope.
Open Scope list_scope.
Open Scope nat_scope.

(** ** Striding *)
Lemma strided_tensor {A} (t : tensor A) n c h w s : 0 < s -> ft [n; c; h; w] t ->
  exists r, stride_tensor_multiple_dimensions t [Z.of_nat s; Z.of_nat s] [2; 3]%Z 0 = Ok r /\ ft [n; c; h / s; w / s] r.
Proof.
  intros P [W S].
  assert (I : integers_ok [Z.of_nat s; Z.of_nat s] [2; 3]%Z 0).
  { split; repeat constructor; lia. }
  rewrite multiple_of_plan by exact I.
  assert (E : plan_of [Z.of_nat s; Z.of_nat s] [2; 3]%Z 0 = [(2, s); (3, s)]).
  { unfold plan_of. cbn [combine map fst snd]. rewrite Nat2Z.id. reflexivity. }
  rewrite E.
  destruct (multiple_ok [(2, s); (3, s)] t W) as (r & Er & Wr & Sr & _).
  { rewrite S. split; [repeat constructor; cbn; lia|]. repeat constructor; cbn; lia. }
  exists r. split; auto. split; auto. rewrite Sr, S. reflexivity.
Qed.

Lemma strided_var {A} k1 k2 name (d : sdict (tensor A)) n c h w s : str_lt k1 k2 -> 0 < s -> var2 k1 k2 [n; c; h; w] d ->
  exists d', stride_dict_of_dicts [(name, d)] [Z.of_nat s; Z.of_nat s] [2; 3]%Z 0 = Ok [(name, d')] /\
    var2 k1 k2 [n; c; h / s; w / s] d'.
Proof.
  intros L P (t1 & t2 & -> & F1 & F2). destruct (keys_apart _ _ L) as (N1 & N2 & B1 & B2).
  destruct (strided_tensor t1 n c h w s P F1) as (r1 & E1 & R1). destruct (strided_tensor t2 n c h w s P F2) as (r2 & E2 & R2).
  exists [(k1, r1); (k2, r2)]. split; [|do 2 eexists; eauto].
  unfold stride_dict_of_dicts. cbn [foldM fst snd]. unfold stride_dict. cbn [foldM fst snd]. rewrite E1. cbn [bind sd_set].
  rewrite E2. cbn [bind sd_set]. rewrite N2, B1. reflexivity.
Qed.

Section Passes.
Context {A : Type}.
Variable zero : A.
Variable has_attr : string -> bool.
Variable init : string -> string -> nat -> A.
Variable rnd : string -> nat -> nat -> A.
Variable solve : nat -> @block A -> list A -> list Qc -> result (tensor A).
Notation tdict := (sdict (tensor A)).
Notation tdicts := (sdict (sdict (tensor A))).
Hypothesis free : forall k, In k (own_names ++ enlarge_names) -> has_attr k = false.
Hypothesis conv : convolves solve.
Notation run1 := (run_netblock zero has_attr rnd solve).
Notation runb := (run_netblocks zero has_attr rnd solve).
Notation runl := (run_netlayers zero has_attr rnd solve).
Notation netblock := (@netblock A).
Notation carry := (@carry A).

(** What is carried after block [prev]. *)
Definition carries (prev : string) (n c h w B H W : nat) (cr : carry) : Prop :=
  exists y ds dc dd, cr = (RTensor y, Some ([(prev, ds)], [(prev, dc)], [(prev, dd)])) /\
    var2 "q1" "q2" [n; c; h; w] ds /\ var2 "p_q1" "p_q2" [n; c; h; w] dc /\ var2 "q1" "q2" [B; c; H; W] dd.

Definition returns (B c H W : nat) (cr : carry) : Prop := exists y m, cr = (RTensor y, m) /\ ft [B; c; H; W] y.

Lemma stride_carried s prev n c h w B H W cr : 0 < s -> carries prev n c h w B H W cr ->
  exists cr', run_striding (Z.of_nat s) cr = Ok cr' /\ carries prev n c (h / s) (w / s) B (H / s) (W / s) cr'.
Proof.
  intros P (y & ds & dc & dd & -> & V1 & V2 & V3).
  destruct (strided_var "q1" "q2" prev ds n c h w s eq_refl P V1) as (ds' & E1 & V1').
  destruct (strided_var "p_q1" "p_q2" prev dc n c h w s eq_refl P V2) as (dc' & E2 & V2').
  destruct (strided_var "q1" "q2" prev dd B c H W s eq_refl P V3) as (dd' & E3 & V3').
  unfold run_striding. cbn [new_striding bind List.length Nat.eqb snd fst]. unfold striding_forward. cbn [given bind sb_stride sb_dims].
  rewrite E1. cbn [bind]. rewrite E2. cbn [bind].
  destruct V1 as (a1 & a2 & -> & [_ S1] & _). destruct V3 as (b1 & b2 & -> & [_ T1] & _).
  unfold extract_size_from_dict_of_dicts. cbn [sd_peek0 bind]. rewrite S1, T1. cbn [List.length].
  change (Z.of_nat 4 - Z.of_nat 4)%Z with 0%Z. rewrite E3. cbn [bind].
  eexists. split; [reflexivity|]. exists y, ds', dc', dd'. auto.
Qed.

(** ** Blocks of a layer *)
Definition passes (c : nat) (name : string) (nb : netblock) : Prop :=
  exists fresh pl, nb = mkNB c (net_block name None None fresh None None [] [] pl).

Definition begins (n : nat) (l : layer) (name : string) (nb : netblock) : Prop :=
  exists st co fresh pl, var2 "q1" "q2" [n; channels l; height l; width l] st /\
    var2 "p_q1" "p_q2" [n; channels l; height l; width l] co /\
    nb = mkNB (channels l) (net_block name (Some st) (Some co) fresh None None [] own_registry pl).

Definition joins (n s : nat) (prev l : layer) (name : string) (nb : netblock) : Prop :=
  exists b, nb = mkNB (channels l) b /\
    joinable name n (channels prev) (channels l - channels prev) (height l) (width l) (height prev / s) (width prev / s) b.

Definition done (nb : netblock) : Prop := b_fresh (nb_block nb) = false.
Definition pars (l : list netblock) : list (string * option nat) := flat_map (fun nb => block_parameters (nb_block nb)) l.

Lemma run_passing i c n h w B H W : 0 < c -> 0 < h -> 0 < w -> 0 < H -> 0 < W ->
  forall nbs start j0 cr, j0 < start -> Forall2 (fun j nb => passes c (block_name i j) nb) (seq start (List.length nbs)) nbs ->
  carries (block_name i j0) n c h w B H W cr -> returns B c H W cr ->
  exists nbs' cr' j1, runb cr nbs = (nbs', Ok cr') /\ j1 < start + List.length nbs /\
    Forall2 (fun j nb => passes c (block_name i j) nb) (seq start (List.length nbs')) nbs' /\
    List.length nbs' = List.length nbs /\ Forall done nbs' /\ pars nbs' = [] /\
    carries (block_name i j1) n c h w B H W cr' /\ returns B c H W cr'.
Proof.
  intros C P1 P2 P3 P4. induction nbs as [|nb nbs IH]; intros start j0 cr J F K R.
  - exists [], cr, j0. cbn. repeat split; auto. lia.
  - cbn [List.length seq] in F. inversion F as [|? ? ? ? (fr & pl & ->) F']; subst.
    destruct K as (y & ds & dc & dd & -> & V1 & V2 & V3).
    assert (Nm : block_name i start <> block_name i j0) by (intro E; apply block_name_inj in E; lia).
    destruct (passing_block zero has_attr (rnd (block_name i start)) solve conv (block_name i start) (block_name i j0) ds dc dd n c h w B H W fr pl Nm C P1 P2 P3 P4 V1 V2 V3)
      as (b' & y' & s' & k' & d' & E & Fy & V1' & V2' & V3' & (pl' & Eb) & Ep).
    cbn [run_netblocks run_netblock nb_block nb_features]. change (b_name (net_block (block_name i start) _ _ _ _ _ _ _ _)) with (block_name i start).
    rewrite E. cbn [bind].
    set (cr' := (RTensor y', Some ([(block_name i start, s')], [(block_name i start, k')], [(block_name i start, d')])) : carry).
    destruct (IH (S start) start cr') as (nbs' & cr'' & j1 & E' & J1 & F'' & L' & D' & Q' & K' & R'); [lia|exact F'|..].
    + exists y', s', k', d'. auto.
    + exists y'. eexists. split; [reflexivity|exact Fy].
    + rewrite E'. exists (mkNB c b' :: nbs'), cr'', j1. split; [reflexivity|]. split; [cbn [List.length]; lia|].
      split; [|split; [cbn [List.length]; congruence|split; [|split; [|auto]]]].
      * cbn [List.length seq]. constructor; [|exact F'']. exists false, pl'. rewrite Eb. reflexivity.
      * constructor; auto. unfold done. cbn [nb_block]. rewrite Eb. reflexivity.
      * cbn [pars flat_map nb_block]. unfold pars in Q'. rewrite Q', Ep. reflexivity.
Qed.

(** A layer: one block with particles, then blocks without. *)
Definition layer_of (Q : string -> netblock -> Prop) (c i : nat) (nbs : list netblock) : Prop :=
  exists nb rest, nbs = nb :: rest /\ Q (block_name i 0) nb /\
    Forall2 (fun j nb => passes c (block_name i j) nb) (seq 1 (List.length rest)) rest.

Definition somes (l : list (string * nat)) : list (string * option nat) := map (fun p => (fst p, Some (snd p))) l.

Lemma named_four i prefix n :
  named (block_name i 0) (map (fun k => (prefix ++ k, n))%string own_names) = somes (four i prefix n).
Proof. reflexivity. Qed.

Lemma run_first_layer n l i B H W nbs x : 0 < channels l -> 0 < height l -> 0 < width l -> 0 < H -> 0 < W ->
  layer_of (begins n l) (channels l) i nbs -> ft [B; channels l; H; W] x ->
  exists nbs' cr' j, runb (RTensor x, None) nbs = (nbs', Ok cr') /\ layer_of (begins n l) (channels l) i nbs' /\
    Forall done nbs' /\ pars nbs' = somes (four i "" (n * channels l * (height l * width l))) /\
    carries (block_name i j) n (channels l) (height l) (width l) B H W cr' /\ returns B (channels l) H W cr'.
Proof.
  intros C P1 P2 P3 P4 (nb & rest & -> & (st & co & fr & pl & Vs & Vc & ->) & F) Fx.
  destruct (first_block zero has_attr (rnd (block_name i 0)) solve conv (block_name i 0) st co n (channels l) (height l) (width l) B H W x fr pl C P1 P2 P3 P4 Vs Vc Fx)
    as (b' & y' & s' & k' & d' & E & V1' & V2' & V3' & (pl' & Eb) & Ep).
  cbn [run_netblocks run_netblock nb_block nb_features]. change (b_name (net_block (block_name i 0) _ _ _ _ _ _ _ _)) with (block_name i 0).
  rewrite E. cbn [bind].
  set (cr := (RTensor x, Some ([(block_name i 0, s')], [(block_name i 0, k')], [(block_name i 0, d')])) : carry).
  destruct (run_passing i (channels l) n (height l) (width l) B H W C P1 P2 P3 P4 rest 1 0 cr) as (nbs' & cr'' & j1 & E' & J1 & F'' & L' & D' & Q' & K' & R'); auto.
  - exists x, s', k', d'. auto.
  - exists x. eexists. split; [reflexivity|exact Fx].
  - rewrite E'. exists (mkNB (channels l) b' :: nbs'), cr'', j1. split; [reflexivity|]. split; [|split; [|split; [|auto]]].
    + exists (mkNB (channels l) b'), nbs'. split; auto. split; auto. exists st, co, false, pl'. rewrite Eb. auto.
    + constructor; auto. unfold done. cbn [nb_block]. rewrite Eb. reflexivity.
    + cbn [pars flat_map nb_block]. unfold pars in Q'. rewrite Q', Ep, app_nil_r. reflexivity.
Qed.

Lemma run_later_layer n s prev l i jp B H W nbs cr : 0 < channels prev -> channels prev <= channels l ->
  0 < height l -> 0 < width l -> 0 < H -> 0 < W -> height prev / s <= height l -> width prev / s <= width l ->
  layer_of (joins n s prev l) (channels l) (S i) nbs ->
  carries (block_name i jp) n (channels prev) (height prev / s) (width prev / s) B H W cr ->
  exists nbs' cr' j, runb cr nbs = (nbs', Ok cr') /\ layer_of (joins n s prev l) (channels l) (S i) nbs' /\
    Forall done nbs' /\
    pars nbs' = somes (four (S i) "" (n * (channels l - channels prev) * (height l * width l))
      ++ (if (height l =? height prev / s) && (width l =? width prev / s) then []
          else four (S i) "pt_enlarge_" (n * channels prev * (height l * width l - height prev / s * (width prev / s))))) /\
    carries (block_name (S i) j) n (channels l) (height l) (width l) B H W cr' /\ returns B (channels l) H W cr'.
Proof.
  intros C CC P1 P2 P3 P4 G1 G2 (nb & rest & -> & (b & -> & Hb) & F) (y & ds & dc & dd & -> & V1 & V2 & V3).
  assert (Nm : block_name (S i) 0 <> block_name i jp) by (intro E; apply block_name_inj in E; lia).
  destruct (joining_block zero has_attr (rnd (block_name (S i) 0)) free solve conv (block_name (S i) 0) (block_name i jp) ds dc dd
    n (channels prev) (channels l - channels prev) (height l) (width l) (height prev / s) (width prev / s) B H W b Nm C P1 P2 P3 P4 G1 G2 Hb V1 V2 V3)
    as (b' & y' & s' & k' & d' & E & Fy & V1' & V2' & V3' & Hb' & Fb & Ep).
  replace (channels prev + (channels l - channels prev)) with (channels l) in * by lia.
  cbn [run_netblocks run_netblock nb_block nb_features].
  assert (En : b_name b = block_name (S i) 0).
  { destruct Hb as (st & co & _ & _ & [(pl & ->)|(p & sto & pl & _ & ->)]); reflexivity. }
  rewrite En, E. cbn [bind].
  set (cr := (RTensor y', Some ([(block_name (S i) 0, s')], [(block_name (S i) 0, k')], [(block_name (S i) 0, d')])) : carry).
  assert (C' : 0 < channels l) by lia.
  destruct (run_passing (S i) (channels l) n (height l) (width l) B H W C' P1 P2 P3 P4 rest 1 0 cr) as (nbs' & cr'' & j1 & E' & J1 & F'' & L' & D' & Q' & K' & R'); auto.
  - exists y', s', k', d'. auto.
  - exists y'. eexists. split; [reflexivity|exact Fy].
  - rewrite E'. exists (mkNB (channels l) b' :: nbs'), cr'', j1. split; [reflexivity|]. split; [|split; [|split; [|auto]]].
    + exists (mkNB (channels l) b'), nbs'. split; auto. split; auto. exists b'. auto.
    + constructor; auto.
    + cbn [pars flat_map nb_block]. unfold pars in Q'. rewrite Q', Ep, app_nil_r.
      unfold grows. destruct ((height l =? height prev / s) && (width l =? width prev / s)); reflexivity.
Qed.

(** ** All layers *)
Fixpoint later_ok (n s i : nat) (prev : layer) (rest : list layer) (nbss : list (list netblock)) : Prop :=
  match rest, nbss with
  | [], [] => True
  | l :: rest, nbs :: nbss => layer_of (joins n s prev l) (channels l) (S i) nbs /\ later_ok n s (S i) l rest nbss
  | _, _ => False
  end.

Lemma pow_div H s k : 0 < s -> 0 < H / s ^ S k -> 0 < H / s / s ^ k /\ 0 < H.
Proof.
  intros P Q. split.
  - rewrite Nat.div_div by (try apply Nat.pow_nonzero; lia). exact Q.
  - destruct H; [|lia]. rewrite Nat.div_0_l in Q by (apply Nat.pow_nonzero; lia). lia.
Qed.

Lemma pos_div H s k : 0 < s -> 0 < H / s ^ k -> 0 < H.
Proof. intros P Q. destruct H; [|lia]. rewrite Nat.div_0_l in Q by (apply Nat.pow_nonzero; lia). lia. Qed.

Definition all_done (nbss : list (list netblock)) : Prop := Forall (Forall done) nbss.
Definition all_pars (nbss : list (list netblock)) : list (string * option nat) := flat_map pars nbss.

Lemma somes_app a b : somes (a ++ b) = somes a ++ somes b.
Proof. apply map_app. Qed.

Lemma last_layer (l : layer) rest d d' : last (l :: rest) d = last (l :: rest) d'.
Proof. revert l. induction rest as [|a rest IH]; intro l; auto. cbn [last] in *. apply IH. Qed.

Lemma last_cons (l p : layer) rest : last (l :: rest) p = last rest l.
Proof. destruct rest as [|a rest]; auto. cbn [last]. apply (last_layer a rest p l). Qed.

Lemma run_later n s B : 0 < s -> forall rest i prev jp nbss H W cr, layers_fit s prev rest -> 0 < channels prev ->
  positive_sizes rest -> later_ok n s i prev rest nbss ->
  carries (block_name i jp) n (channels prev) (height prev) (width prev) B H W cr -> returns B (channels prev) H W cr ->
  0 < H / s ^ (List.length rest) -> 0 < W / s ^ (List.length rest) ->
  exists nbss' cr' H' W', 
    match rest with
    | [] => nbss' = nbss /\ cr' = cr
    | _ => exists c1, run_striding (Z.of_nat s) cr = Ok c1 /\ runl (Z.of_nat s) c1 nbss = (nbss', Ok cr')
    end /\
    later_ok n s i prev rest nbss' /\ all_done nbss' /\ all_pars nbss' = somes (later_layers n s (S i) prev rest) /\
    returns B (channels (last rest prev)) H' W' cr' /\ 0 < H' /\ 0 < W'.
Proof.
  intro P. induction rest as [|l rest IH]; intros i prev jp nbss H W cr LF C PS LO K R QH QW.
  - destruct nbss; [|destruct LO]. exists [], cr, H, W.
    pose proof (pos_div _ _ _ P QH). pose proof (pos_div _ _ _ P QW). repeat split; auto. constructor.
  - destruct nbss as [|nbs nbss]; [destruct LO|]. destruct LO as [L0 LO]. destruct LF as (G0 & G1 & G2 & LF).
    unfold positive_sizes in PS. inversion PS as [|? ? [PH PW] PS']; subst.
    cbn [List.length] in QH, QW. destruct (pow_div _ _ _ P QH) as [QH' PH']. destruct (pow_div _ _ _ P QW) as [QW' PW'].
    destruct (stride_carried s _ _ _ _ _ _ _ _ cr P K) as (c1 & ES & K1).
    destruct (run_later_layer n s prev l i jp B (H / s) (W / s) nbs c1) as (nbs' & c2 & j & E2 & L2 & D2 & Q2 & K2 & R2); auto;
      try (exact (pos_div _ _ _ P QH') || exact (pos_div _ _ _ P QW')).
    destruct (IH (S i) l j nbss (H / s) (W / s) c2) as (nbss' & cr' & H' & W' & E3 & L3 & D3 & Q3 & R3 & PH3 & PW3); auto; [lia|].
    exists (nbs' :: nbss'), cr', H', W'. split.
    + exists c1. split; auto. cbn [run_netlayers]. rewrite E2. destruct rest as [|l' rest].
      * destruct E3 as [-> ->]. destruct nbss; [|destruct L3]. reflexivity.
      * destruct E3 as (c3 & E3 & E4). destruct nbss as [|nbs1 nbss]; [destruct LO|]. rewrite E3, E4. reflexivity.
    + split; [split; auto|]. split; [constructor; auto|]. split; [|rewrite last_cons; auto].
      unfold all_pars in *. cbn [flat_map later_layers]. rewrite Q2, Q3. rewrite <- somes_app, <- app_assoc. reflexivity.
Qed.

Definition layers_ok (n s : nat) (l0 : layer) (rest : list layer) (nbss : list (list netblock)) : Prop :=
  exists nbs nbss', nbss = nbs :: nbss' /\ layer_of (begins n l0) (channels l0) 0 nbs /\ later_ok n s 0 l0 rest nbss'.

Lemma run_all n s B H W l0 rest nbss x : 0 < s -> layers_fit s l0 rest -> 0 < channels l0 -> positive_sizes (l0 :: rest) ->
  layers_ok n s l0 rest nbss -> ft [B; channels l0; H; W] x ->
  0 < H / s ^ (List.length rest) -> 0 < W / s ^ (List.length rest) ->
  exists nbss' cr' H' W', runl (Z.of_nat s) (RTensor x, None) nbss = (nbss', Ok cr') /\
    layers_ok n s l0 rest nbss' /\ all_done nbss' /\
    all_pars nbss' = somes (four 0 "" (n * channels l0 * (height l0 * width l0)) ++ later_layers n s 1 l0 rest) /\
    returns B (channels (last rest l0)) H' W' cr' /\ 0 < H' /\ 0 < W'.
Proof.
  intros P LF C PS (nbs & later & -> & L0 & LO) Fx QH QW.
  unfold positive_sizes in PS. inversion PS as [|? ? [PH PW] PS']; subst.
  assert (H0 : 0 < H) by (exact (pos_div _ _ _ P QH)). assert (W0 : 0 < W) by (exact (pos_div _ _ _ P QW)).
  destruct (run_first_layer n l0 0 B H W nbs x C PH PW H0 W0 L0 Fx) as (nbs' & c2 & j & E2 & L2 & D2 & Q2 & K2 & R2).
  destruct (run_later n s B P rest 0 l0 j later H W c2 LF C PS' LO K2 R2 QH QW) as (nbss' & cr' & H' & W' & E3 & L3 & D3 & Q3 & R3 & PH3 & PW3).
  exists (nbs' :: nbss'), cr', H', W'. split.
  - cbn [run_netlayers]. rewrite E2. destruct rest as [|l' rest].
    + destruct E3 as [-> ->]. destruct later; [|destruct L3]. reflexivity.
    + destruct E3 as (c3 & E3 & E4). destruct later as [|nbs1 nbss]; [destruct LO|]. rewrite E3, E4. reflexivity.
  - split; [exists nbs', nbss'; auto|]. split; [constructor; auto|]. split; auto.
    unfold all_pars in *. cbn [flat_map]. rewrite Q2, Q3. rewrite <- somes_app. reflexivity.
Qed.
End Passes.

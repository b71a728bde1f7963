(** The blocks of the residual network. *)
From Coq Require Import List String Ascii Arith ZArith QArith Qcanon Lia Bool Sorting.Sorted.
From Verif Require Import Base BaseFacts Tensor TensorFacts ScdModel ScdSpec ScdProofs ScdProofs2
  ScdProofs3 ScdProofs4 BlockModel BlockSpec BlockProofs BlockProofs2 BlockProofs4 BlockProofs5 EnlargeProofs
  StridingModel ResNetModel NetworkModel NetworkSpec NetworkProofs.
Import ListNotations.
Open Scope string_scope.
Open Scope list_scope.
Open Scope nat_scope.

Definition own_names : list string := ["q1"; "q2"; "p_q1"; "p_q2"].
Definition enlarge_names : list string := map (fun k => "pt_enlarge_" ++ k)%string own_names.

Definition grows (h w h0 w0 : nat) : bool := negb ((h =? h0) && (w =? w0)).

Lemma diff_of n c h w h0 w0 : h0 <= h -> w0 <= w -> size_diff [n; c; h; w] [n; c; h0; w0] = Ok [0; 0; h - h0; w - w0].
Proof.
  intros H W. cbn [size_diff]. rewrite !Nat.ltb_irrefl.
  rewrite (proj2 (Nat.ltb_ge h h0) H), (proj2 (Nat.ltb_ge w w0) W). cbn [bind]. rewrite !Nat.sub_diag. reflexivity.
Qed.

Lemma diff_grows h w h0 w0 : h0 <= h -> w0 <= w -> existsb (fun n => 0 <? n) [0; 0; h - h0; w - w0] = grows h w h0 w0.
Proof.
  intros H W. unfold grows. cbn [existsb].
  destruct (Nat.eqb_spec h h0); destruct (Nat.eqb_spec w w0); subst; rewrite ?Nat.sub_diag; cbn [andb negb];
    change (0 <? 0) with false; cbn [orb].
  - reflexivity.
  - destruct (Nat.ltb_spec 0 (w - w0)); [reflexivity|lia].
  - destruct (Nat.ltb_spec 0 (h - h0)); [reflexivity|lia].
  - destruct (Nat.ltb_spec 0 (h - h0)); [reflexivity|lia].
Qed.

Section Blocks.
Context {A : Type}.
Variable zero : A.
Variable has_attr : string -> bool.
Variable init : string -> string -> nat -> A.
Variable rnd : nat -> nat -> A.
Notation tdict := (sdict (tensor A)).
Notation tdicts := (sdict (sdict (tensor A))).
Notation ig := (conv_integrand zero).

(** ** Enlargement *)
Definition missing (n c h w h0 w0 : nat) : nat := n * c * (h * w - h0 * w0).

Lemma missing_size n c h w h0 w0 : prod [n; c; h; w] - prod [n; c; h0; w0] = missing n c h w h0 w0.
Proof. unfold missing. cbn. rewrite !Nat.mul_1_r, !Nat.mul_assoc, <- !(Nat.mul_assoc (n * c)), Nat.mul_sub_distr_l. reflexivity. Qed.

Definition new_values (id size : nat) : list A := map (rnd id) (seq 0 size).

Lemma create_step k is_state n c c' h w h0 w0 acc prev d t (b : @block A) :
  sd_get k d = Some t -> tshape t = [n; c; h0; w0] -> b_keep_zero b = false -> h0 <= h -> w0 <= w ->
  create_enlargement_step zero ig rnd k [n; c'; h; w] is_state [(prev, acc)] (prev, d) b =
  if grows h w h0 w0
  then (set_store (b_store b ++ [new_values (List.length (b_store b)) (missing n c h w h0 w0)]) b,
        Ok [(prev, sd_set k (Some (List.length (b_store b), [0; 0; h - h0; w - w0])) acc)])
  else (b, Ok [(prev, sd_set k None acc)]).
Proof.
  intros G S K H W. unfold create_enlargement_step, mbind, lift, ret. cbn [fst snd].
  unfold sd_mem, sd_item. cbn [sd_get]. rewrite String.eqb_refl. rewrite G, S.
  unfold list_item, list_set. cbn [nth_error List.length set_nth Nat.ltb Nat.leb].
  rewrite (diff_of n c h w h0 w0 H W). cbv beta iota.
  change (existsb _ [0; 0; h - h0; w - w0]) with (existsb (fun n => 0 <? n) [0; 0; h - h0; w - w0]).
  rewrite (diff_grows h w h0 w0 H W).
  cbn [sd_get]. rewrite String.eqb_refl. cbn [sd_set]. rewrite String.eqb_refl.
  destruct (grows h w h0 w0); [|reflexivity].
  unfold create_raw_enlargement_parameters.
  assert (P : prod [n; c; h0; w0] <= prod [n; c; h; w]).
  { cbn. rewrite !Nat.mul_1_r. apply Nat.mul_le_mono_l, Nat.mul_le_mono_l, Nat.mul_le_mono; assumption. }
  rewrite (proj2 (Nat.ltb_ge _ _) P). rewrite K. unfold create_parameters_of_size. cbn [ig_state_random ig_costate_random conv_integrand].
  rewrite missing_size. destruct is_state; reflexivity.
Qed.

Lemma create_step_first k is_state n c c' h w h0 w0 prev d t (b : @block A) :
  sd_get k d = Some t -> tshape t = [n; c; h0; w0] -> b_keep_zero b = false -> h0 <= h -> w0 <= w ->
  create_enlargement_step zero ig rnd k [n; c'; h; w] is_state [] (prev, d) b =
  create_enlargement_step zero ig rnd k [n; c'; h; w] is_state [(prev, [])] (prev, d) b.
Proof.
  intros. unfold create_enlargement_step. cbn [fst snd]. unfold sd_mem. cbn [sd_get]. rewrite String.eqb_refl. reflexivity.
Qed.

Definition both (k1 k2 : string) (e1 e2 : option (nat * list nat)) : sdict (option (nat * list nat)) := [(k1, e1); (k2, e2)].

Lemma create_enl k1 k2 is_state n c c' h w h0 w0 prev d desired (b : @block A) : str_lt k1 k2 ->
  var2 k1 k2 [n; c; h0; w0] d -> var2 k1 k2 [n; c'; h; w] desired -> b_keep_zero b = false -> h0 <= h -> w0 <= w ->
  let l := List.length (b_store b) in
  let m := missing n c h w h0 w0 in
  let diff := [0; 0; h - h0; w - w0] in
  create_enlargement zero ig rnd [(prev, d)] (Some desired) is_state b =
  if grows h w h0 w0
  then (set_store (b_store b ++ [new_values l m; new_values (S l) m]) b,
        Ok (Some [(prev, both k1 k2 (Some (l, diff)) (Some (S l, diff)))]))
  else (b, Ok (Some [(prev, both k1 k2 None None)])).
Proof.
  intros L (t1 & t2 & -> & [_ S1] & [_ S2]) (u1 & u2 & -> & [_ U1] & [_ U2]) K H W l m diff.
  destruct (keys_apart _ _ L) as (N1 & N2 & B1 & B2).
  unfold create_enlargement. cbn [ig_enlargement conv_integrand].
  cbn [loop fst snd]. rewrite U1, U2.
  assert (G1 : sd_get k1 [(k1, t1); (k2, t2)] = Some t1) by (cbn [sd_get]; rewrite String.eqb_refl; reflexivity).
  assert (G2 : sd_get k2 [(k1, t1); (k2, t2)] = Some t2) by (cbn [sd_get]; rewrite N2, String.eqb_refl; reflexivity).
  unfold mbind, ret.
  rewrite (create_step_first k1 is_state n c c' h w h0 w0 prev _ t1) by auto.
  rewrite (create_step k1 is_state n c c' h w h0 w0 [] prev _ t1) by auto.
  destruct (grows h w h0 w0) eqn:EG.
  - cbn [sd_set].
    rewrite (create_step k2 is_state n c c' h w h0 w0 _ prev _ t2) by auto. rewrite EG.
    cbn [sd_set]. rewrite N2, B1. cbn [sd_set].
    unfold both, l, m, diff. cbn [b_store set_store]. rewrite app_length. cbn [List.length].
    rewrite Nat.add_1_r, <- app_assoc. reflexivity.
  - cbn [sd_set]. rewrite (create_step k2 is_state n c c' h w h0 w0 _ prev _ t2) by auto. rewrite EG.
    cbn [sd_set]. rewrite N2, B1. reflexivity.
Qed.

(** The enlarged tensors. *)
Lemma enlarged_tensor (t : tensor A) n c h w h0 w0 pars : ft [n; c; h0; w0] t -> h0 <= h -> w0 <= w ->
  List.length pars = missing n c h w h0 w0 ->
  exists r, enlarge_tensor t pars [0; 0; h - h0; w - w0] = Ok r /\ ft [n; c; h; w] r.
Proof.
  intros [W S] H W0 LP.
  destruct (enlarge_ok t pars [0; 0; h - h0; w - w0] W) as (r & E & Wr & Sr & _); rewrite ?S; auto.
  - cbn [zip_plus]. rewrite !Nat.add_0_r. replace (h0 + (h - h0)) with h by lia. replace (w0 + (w - w0)) with w by lia.
    rewrite LP, <- missing_size.
    assert (P : prod [n; c; h0; w0] <= prod [n; c; h; w]).
    { cbn. rewrite !Nat.mul_1_r. apply Nat.mul_le_mono_l, Nat.mul_le_mono_l, Nat.mul_le_mono; assumption. }
    lia.
  - exists r. split; auto. split; auto. rewrite Sr. rewrite S. cbn [zip_plus]. rewrite !Nat.add_0_r.
    repeat f_equal; lia.
Qed.

Lemma enlarge_grown k1 k2 n c h w h0 w0 prev (d : tdict) (store : list (list A)) i j : str_lt k1 k2 ->
  var2 k1 k2 [n; c; h0; w0] d -> h0 <= h -> w0 <= w ->
  (forall x, x = i \/ x = j -> exists p, nth_error store x = Some p /\ List.length p = missing n c h w h0 w0) ->
  exists d', enlarge_dicts store [(prev, d)]
      (Some [(prev, both k1 k2 (Some (i, [0; 0; h - h0; w - w0])) (Some (j, [0; 0; h - h0; w - w0])))]) = Ok [(prev, d')]
    /\ var2 k1 k2 [n; c; h; w] d'.
Proof.
  intros L (t1 & t2 & -> & F1 & F2) H W P.
  destruct (keys_apart _ _ L) as (N1 & N2 & B1 & B2).
  destruct (P i (or_introl eq_refl)) as (p1 & E1 & L1). destruct (P j (or_intror eq_refl)) as (p2 & E2 & L2).
  destruct (enlarged_tensor t1 n c h w h0 w0 p1 F1 H W L1) as (r1 & R1 & G1).
  destruct (enlarged_tensor t2 n c h w h0 w0 p2 F2 H W L2) as (r2 & R2 & G2).
  exists [(k1, r1); (k2, r2)]. split; [|do 2 eexists; eauto].
  unfold enlarge_dicts, both. cbn [combine foldM]. unfold enlarge_block. cbn [combine foldM]. unfold enlarge_entry.
  unfold list_item. rewrite E1, E2. cbn [bind]. rewrite R1. cbn [bind]. rewrite R2. cbn [bind sd_set]. rewrite N2, B1. reflexivity.
Qed.

Lemma enlarge_same k1 k2 sh prev (d : tdict) (store : list (list A)) : str_lt k1 k2 -> var2 k1 k2 sh d ->
  enlarge_dicts store [(prev, d)] (Some [(prev, both k1 k2 None None)]) = Ok [(prev, d)].
Proof.
  intros L (t1 & t2 & -> & F1 & F2). destruct (keys_apart _ _ L) as (N1 & N2 & B1 & B2).
  unfold enlarge_dicts, both. cbn [combine foldM]. unfold enlarge_block. cbn [combine foldM]. unfold enlarge_entry.
  cbn [bind sd_set]. rewrite N2, B1. reflexivity.
Qed.

(** ** A fresh block *)
Definition initial_block (name : string) (state costate : option tdict) (registry : pdict pobj) : @block A :=
  mkBlock name state costate true false true None None [] registry (Some (Q2Qc 1)) None None 1.

Definition own_registry : pdict pobj :=
  [("q1", OState "q1"); ("q2", OState "q2"); ("p_q1", OCostate "p_q1"); ("p_q2", OCostate "p_q2")].

Definition enlarge_registry : pdict pobj :=
  [("pt_enlarge_q1", OEnlarge 0); ("pt_enlarge_q2", OEnlarge 1); ("pt_enlarge_p_q1", OEnlarge 2); ("pt_enlarge_p_q2", OEnlarge 3)].

Hypothesis free : forall k, In k (own_names ++ enlarge_names) -> has_attr k = false.

Lemma create_own N size name feat c :
  create_block has_attr init N size (mkRB name feat (Some c)) =
  Ok (mkNB (Z.to_nat feat) (initial_block name (Some (initial_state init name (N :: Z.to_nat c :: size)))
        (Some (initial_costate init name (initial_state init name (N :: Z.to_nat c :: size)))) own_registry)).
Proof.
  unfold create_block. cbn [rb_own rb_name rb_in]. unfold new_block. cbn [andb orb].
  unfold register_state_and_costate, initial_state, initial_costate. cbn [foldM map fst snd].
  unfold register_parameter. cbn [has_dot String.append Ascii.eqb Bool.eqb orb String.eqb].
  rewrite !free by (cbn; tauto). cbn [andb bind]. reflexivity.
Qed.

Lemma create_passing N size name feat :
  create_block has_attr init N size (mkRB name feat None) =
  Ok (mkNB (Z.to_nat feat) (initial_block name None None [])).
Proof. reflexivity. Qed.

Lemma initial_state_shape name sh : var2 "q1" "q2" sh (initial_state init name sh).
Proof.
  do 2 eexists. split; [reflexivity|].
  split; split; try reflexivity; unfold twf, random_tensor; cbn [tdata tshape]; rewrite map_length, seq_length; reflexivity.
Qed.

Lemma initial_costate_shape name sh : var2 "p_q1" "p_q2" sh (initial_costate init name (initial_state init name sh)).
Proof.
  do 2 eexists. split; [reflexivity|].
  split; split; try reflexivity; unfold twf, random_tensor; cbn [tdata tshape]; rewrite map_length, seq_length; reflexivity.
Qed.
End Blocks.

(** Forward with trivial dynamics. *)
From Coq Require Import List String Ascii Arith ZArith QArith Qcanon Lia Bool.
From Verif Require Import Base BaseFacts Tensor TensorFacts ScdModel ScdSpec ScdProofs ScdProofs2
  ScdProofs3 ScdProofs4 BlockModel BlockSpec BlockProofs BlockProofs2 BlockProofs4.
Import ListNotations.
Open Scope nat_scope.

Lemma tselect_constant {A} (x0 : list A) n i : i < n ->
  tselect i (mkT [n; List.length x0] (List.concat (repeat x0 n))) = Ok (vec x0).
Proof.
  intro Hi.
  assert (L : forall n, List.length (List.concat (repeat x0 n)) = n * List.length x0).
  { induction n0 as [|m IH]; simpl; auto. rewrite app_length, IH. reflexivity. }
  assert (W : twf (mkT [n; List.length x0] (List.concat (repeat x0 n)))).
  { unfold twf. simpl. rewrite L. lia. }
  destruct (tselect_ok i _ n [List.length x0] W eq_refl Hi) as [r [E [Wr [S G]]]].
  rewrite E. f_equal. apply tensor_ext; auto; [apply vec_wf|].
  intros idx V. rewrite S in V. rewrite G by auto. destruct idx as [|j [|? ?]]; simpl in V; try tauto.
  destruct V as [Hj _]. unfold vec. rewrite tget_vec by auto. unfold tget. cbn [tshape tdata ravel].
  apply Nat.ltb_lt in Hi as Hb. rewrite Hb. apply Nat.ltb_lt in Hj as Hc. rewrite Hc. simpl.
  replace (i * (List.length x0 * 1) + (j * 1 + 0)) with (i * List.length x0 + j) by lia.
  clear -Hi Hj. revert i Hi. induction n as [|n IH]; intros i Hi; [lia|]. simpl.
  destruct i as [|i].
  - simpl. rewrite nth_error_app1 by auto. reflexivity.
  - rewrite nth_error_app2 by (simpl; lia).
    replace (S i * List.length x0 + j - List.length x0) with (i * List.length x0 + j) by (simpl; lia).
    apply IH. lia.
Qed.

Section Constant.
Context {A : Type}.
Variable zero : A.
Variable ig : @integrand A.
Variable has_attr : string -> bool.
Variable rnd : nat -> nat -> A.
Notation block := (@block A).
Notation fwd := (forward zero ig has_attr rnd).
Notation tdict := (sdict (tensor A)).
Notation tdicts := (sdict (sdict (tensor A))).

Definition family_ok (name : string) (d : option tdicts) : Prop :=
  forall dd, d = Some dd -> sd_wf dd /\ Forall (fun kd => good_dict (snd kd)) dd /\ ~ In name (keys dd).

Lemma merge_joined (g : tdict) d name : good_dict g -> family_ok name d ->
  exists r, merge_dict (Some g) d name = Ok r /\ joined name g d r /\
    Forall (fun kd => good_dict (snd kd)) r.
Proof.
  intros G F. destruct (merge_ok (Some g) d name) as [r [E [W [S O]]]].
  { intros dd ->. destruct (F dd eq_refl) as [W [Fa N]]. split; auto. split; auto.
    eapply Forall_impl; [|exact Fa]. intros kd [[H _] _]. exact H. }
  exists r. split; auto. split; [split; auto|].
  apply Forall_forall. intros [k b] I. pose proof (sd_in_get _ _ _ W I) as Gk. simpl.
  destruct (string_dec k name) as [->|N].
  - rewrite S in Gk. injection Gk as <-. exact G.
  - rewrite O in Gk by auto. destruct d as [dd|]; [|discriminate].
    destruct (F dd eq_refl) as [_ [Fa _]]. rewrite Forall_forall in Fa.
    apply sd_get_in in Gk. apply (Fa _ Gk).
Qed.

Lemma good_family (r : tdicts) : sd_wf r -> Forall (fun kd => good_dict (snd kd)) r ->
  dicts_wf r /\ ranked r /\ nonempty_blocks r = r /\ (r <> [] -> has_variable r).
Proof.
  intros W F. split; [split; auto; eapply Forall_impl; [|exact F]; intros ? [H _]; exact H|].
  split; [eapply Forall_impl; [|exact F]; intros ? [_ [_ H]]; exact H|].
  split.
  - unfold nonempty_blocks. clear W. induction F as [|[n b] r [_ [N _]] _ IH]; simpl in *; auto.
    destruct b; [congruence|]. rewrite IH. reflexivity.
  - intro N. destruct r as [|[n b] r]; [congruence|]. exists n, b. split; [left; auto|].
    inversion F as [|? ? [_ [Nb _]] _]; subst. exact Nb.
Qed.

Lemma constant_forward solve x st co (b : block) t s0 c0 d0 out :
  (forall b x0 ts, solve b x0 ts = constant_solution b x0 ts) ->
  has_setting b (Scalar t) -> (st = None <-> co = None) ->
  b_enlarge b = false \/ st = None -> ig_concatenate ig = false \/ st = None ->
  b_state b = Some s0 -> good_dict s0 -> b_costate b = Some c0 -> good_dict c0 ->
  family_ok (b_name b) st -> family_ok (b_name b) co ->
  ig_initial_data ig x = Ok d0 -> good_dict d0 -> sd_get (ig_output_key ig) d0 = Some out ->
  exists b' s c, fwd solve (Some x) st co None b
     = (b', Ok (RTensor out, s, c, [(b_name b, d0)])) /\
    joined (b_name b) s0 st s /\ joined (b_name b) c0 co c.
Proof.
  intros HS [T1 T2] SC HE HC ES Gs EC Gc Fs Fc EI Gd EO.
  destruct (merge_joined s0 st _ Gs Fs) as [s [Ms [Js Fs']]].
  destruct (merge_joined c0 co _ Gc Fc) as [c [Mc [Jc Fc']]].
  destruct (good_family s (proj1 Js) Fs') as (Ws & Rs & Ns & Hs).
  destruct (good_family c (proj1 Jc) Fc') as (Wc & Rc & Nc & Hc).
  assert (Wd0 : sd_wf [(b_name b, d0)]) by (repeat constructor).
  destruct (good_family [(b_name b, d0)] Wd0) as (Wd & Rd & Nd & Hd); [repeat constructor; auto; apply Gd|].
  assert (Js2 := proj1 (proj2 Js)). assert (Jc2 := proj1 (proj2 Jc)).
  assert (Vs : has_variable s) by (apply Hs; intros ->; discriminate Js2).
  assert (Vc : has_variable c) by (apply Hc; intros ->; discriminate Jc2).
  assert (Vd : has_variable [(b_name b, d0)]) by (apply Hd; discriminate).
  destruct (assemble_disassemble s c [(b_name b, d0)] Ws Wc Wd Rs Rc Rd Vs Vc Vd) as [ps [EA ED]].
  rewrite Ns, Nc, Nd in ED.
  set (x0 := elements s ++ elements c ++ elements [(b_name b, d0)]) in *.
  assert (E1 : effective_pass_through zero ig has_attr rnd st co b = (b, Ok (st, co))).
  { unfold effective_pass_through. destruct st as [st|], co as [co|]; try reflexivity.
    - destruct HE as [-> |]; [reflexivity|discriminate].
    - discriminate (proj2 SC eq_refl).
    - discriminate (proj1 SC eq_refl). }
  assert (E2 : effective_data ig (Some x) None b = (b, Ok ([(b_name b, d0)], false))).
  { unfold effective_data. rewrite EI. reflexivity. }
  assert (E3 : initial_conditions zero ig [(b_name b, d0)] st co false b = (b, Ok (x0, ps))).
  { unfold initial_conditions, mbind, lift, ret. rewrite ES, EC, Ms, Mc, EA. reflexivity. }
  assert (EX : extract_key [(b_name b, d0)] (ig_output_key ig) = Ok (OneTensor out)).
  { rewrite extract_key_spec by auto. rewrite EO. reflexivity. }
  assert (E4 : snd (integrate_and_disassemble ig solve x0 (set_plans (Some ps) b))
             = Ok (s, c, [(b_name b, d0)], OneTensor out)).
  { rewrite (integrate_scalar ig solve x0 t) by auto. rewrite HS. unfold constant_solution.
    change (b_plans (set_plans (Some ps) b)) with (Some ps). cbn [bind].
    unfold list_item. cbn [tshape nth_error bind List.length Nat.eqb].
    change (2 - 1) with 1. rewrite (tselect_constant x0 2 1) by lia. cbn [bind].
    rewrite ED. cbn [bind]. unfold disassemble. rewrite ED. cbn [bind]. rewrite EX. reflexivity. }
  assert (E5 : snd (finish_outputs ig (s, c, [(b_name b, d0)], OneTensor out) (set_plans (Some ps) b))
             = Ok (plain s c [(b_name b, d0)] (OneTensor out))).
  { rewrite finish_plain; [reflexivity|]. destruct HC as [HC|HN]; [left; exact HC|]. right.
    change (b_name (set_plans (Some ps) b)) with (b_name b). subst st.
    assert (co = None) by (apply SC; reflexivity). subst co.
    unfold merge_dict in Ms, Mc. cbn in Ms, Mc. injection Ms as <-. injection Mc as <-.
    split; [exists s0; split; auto; apply Gs|]. split; [exists c0; split; auto; apply Gc|].
    split; [exists d0; split; auto; apply Gd|eauto]. }
  eexists _, s, c. split; [|split; auto].
  unshelve eapply (forward_ok_intro zero ig has_attr rnd solve (Some x) st co None b _ _ _ _ _ _ _ _ _ _ SC _ E1 E2 E3 E4 E5).
  left. discriminate.
Qed.
End Constant.

(** Proofs about the dictionary utilities. *)
From Coq Require Import List String Arith ZArith Lia Bool Sorting.Sorted.
From Verif Require Import Base BaseFacts Tensor TensorFacts ScdModel ScdSpec.
Import ListNotations.

(** * Assembly *)

Definition plan_of {A} (d : sdict (tensor A)) : plan := map (fun kt => (fst kt, tshape (snd kt))) d.
Definition plans_of {A} (d : sdict (sdict (tensor A))) : pdict plan :=
  map (fun kd => (fst kd, plan_of (snd kd))) d.

Lemma plan_of_wf {A} (d : sdict (tensor A)) : sd_wf d -> sd_wf (plan_of d).
Proof. apply sd_wf_map. Qed.

Lemma assemble_fold {A} (d : sdict (tensor A)) l p :
  fold_left (fun acc kt => (fst acc ++ [tflatten (snd kt)],
                            sd_set (fst kt) (tshape (snd kt)) (snd acc))) d (l, p)
  = (l ++ map (fun kt => tdata (snd kt)) d,
     fold_left (fun acc kt => sd_set (fst kt) (tshape (snd kt)) acc) d p).
Proof.
  revert l p; induction d as [|[k t] d IH]; simpl; intros.
  - rewrite app_nil_r; auto.
  - rewrite IH. rewrite <- app_assoc. reflexivity.
Qed.

Lemma assemble_generic_dict_spec {A} (d : sdict (tensor A)) : sd_wf d ->
  assemble_generic_dict d =
  match d with
  | [] => (None, None)
  | _ => (Some (flat_map (fun kt => tdata (snd kt)) d), Some (plan_of d))
  end.
Proof.
  intro W. unfold assemble_generic_dict. rewrite assemble_fold.
  pose proof (sd_rebuild (fun kt => tshape (snd kt)) d W) as R. rewrite R.
  destruct d as [|kt d]; [reflexivity|].
  rewrite app_nil_l. rewrite map_length. cbn [List.length]. cbn [Nat.ltb Nat.leb].
  rewrite <- flat_map_concat_map. reflexivity.
Qed.

Lemma pd_set_notin {V} k (v : V) d : ~ In k (keys d) -> pd_set k v d = d ++ [(k, v)].
Proof.
  induction d as [|[k0 v0] d IH]; simpl; intro H; auto.
  destruct (String.eqb_spec k k0); subst; [tauto|]. rewrite IH; tauto.
Qed.

Definition opt_app {A} (o : option (list A)) (d : sdict (sdict (tensor A))) : option (list A) :=
  match nonempty_blocks d with
  | [] => o
  | _ => Some (match o with Some r => r | None => [] end ++ elements d)
  end.

Lemma elements_nonempty {A} (d : sdict (sdict (tensor A))) :
  elements (nonempty_blocks d) = elements d.
Proof.
  unfold elements, nonempty_blocks. induction d as [|[k b] d IH]; simpl; auto.
  destruct b; simpl; auto. rewrite IH; auto.
Qed.

Lemma assemble_dicts_fold {A} (d : sdict (sdict (tensor A))) o p :
  sd_wf d -> Forall (fun kd => sd_wf (snd kd)) d ->
  (forall k, In k (keys d) -> ~ In k (keys p)) ->
  fold_left (fun acc kd =>
               match assemble_generic_dict (snd kd) with
               | (Some current_ret, Some current_plan) =>
                   (match fst acc with
                    | None => Some current_ret
                    | Some r => Some (r ++ current_ret)
                    end, pd_set (fst kd) current_plan (snd acc))
               | _ => acc
               end) d (o, p)
  = (opt_app o d, p ++ plans_of (nonempty_blocks d)).
Proof.
  revert o p; induction d as [|[k b] d IH]; cbn [fold_left fst snd]; intros o p W F D.
  - unfold opt_app; simpl. rewrite app_nil_r; auto.
  - apply sd_wf_cons_inv in W as [W Fk]. inversion F as [|? ? Hb F']; subst. simpl in Hb.
    rewrite (assemble_generic_dict_spec b Hb).
    destruct b as [|kt b].
    + rewrite IH; auto. intros; apply D; right; auto.
    + rewrite pd_set_notin by (apply D; left; auto).
      rewrite IH; auto.
      * f_equal.
        -- unfold opt_app. simpl. destruct (nonempty_blocks d) eqn:E.
           ++ assert (elements d = []) as ->.
              { rewrite <- elements_nonempty, E. reflexivity. }
              rewrite app_nil_r. destruct o; simpl; auto.
           ++ destruct o; simpl; rewrite <- ?app_assoc; auto.
        -- rewrite <- app_assoc. reflexivity.
      * intros k' Hk'. unfold keys. rewrite map_app, in_app_iff. intros [H|H].
        -- eapply D; [right; exact Hk'|exact H].
        -- simpl in H. destruct H as [<-|[]]. rewrite Forall_forall in Fk.
           eapply str_lt_irrefl, Fk; auto.
Qed.

Lemma assemble_dicts_spec {A} (d : sdict (sdict (tensor A))) :
  sd_wf d -> Forall (fun kd => sd_wf (snd kd)) d ->
  assemble_generic_dict_of_dicts d
  = (opt_app None d, plans_of (nonempty_blocks d)).
Proof.
  intros W F. unfold assemble_generic_dict_of_dicts.
  rewrite assemble_dicts_fold; auto.
Qed.

Lemma has_variable_nonempty {V} (d : sdict (sdict V)) :
  has_variable d <-> nonempty_blocks d <> [].
Proof.
  unfold has_variable. split.
  - intros [n [b [Hin Hb]]] E.
    assert (In (n, b) []) as []. rewrite <- E. apply filter_In; split; auto. simpl.
    destruct b; auto.
  - intro H. destruct (nonempty_blocks d) as [|[n b] r] eqn:E; [congruence|].
    assert (In (n, b) ((n, b) :: r)) as Hin by (left; auto). rewrite <- E in Hin.
    apply filter_In in Hin as [Hin Hb]. exists n, b; split; auto. simpl in Hb.
    destruct b; congruence.
Qed.

Lemma opt_app_some {A} (d : sdict (sdict (tensor A))) :
  has_variable d -> opt_app None d = Some (elements d).
Proof.
  intro H. apply has_variable_nonempty in H. unfold opt_app.
  destruct (nonempty_blocks d); [congruence|]. auto.
Qed.

Lemma opt_app_none {A} (d : sdict (sdict (tensor A))) :
  ~ has_variable d -> opt_app None d = None.
Proof.
  intro H. unfold opt_app. destruct (nonempty_blocks d) eqn:E; auto.
  exfalso; apply H, has_variable_nonempty. rewrite E; discriminate.
Qed.

Lemma dicts_wf_inner {A} (d : sdict (sdict (tensor A))) :
  dicts_wf d -> Forall (fun kd => sd_wf (snd kd)) d.
Proof. intros [_ F]. eapply Forall_impl; [|exact F]. intros a [H _]; auto. Qed.

Lemma assemble_tensor_ok {A} (s c d : sdict (sdict (tensor A))) :
  dicts_wf s -> dicts_wf c -> dicts_wf d ->
  has_variable s -> has_variable c -> has_variable d ->
  assemble_tensor s c d
  = Ok (elements s ++ elements c ++ elements d,
        mkPlans (plans_of (nonempty_blocks s)) (plans_of (nonempty_blocks c))
                (plans_of (nonempty_blocks d))).
Proof.
  intros Ws Wc Wd Hs Hc Hd. unfold assemble_tensor.
  rewrite !assemble_dicts_spec by (try apply dicts_wf_inner; auto; apply Ws || apply Wc || apply Wd).
  rewrite !opt_app_some by auto. reflexivity.
Qed.

Lemma assemble_tensor_err {A} (s c d : sdict (sdict (tensor A))) :
  dicts_wf s -> dicts_wf c -> dicts_wf d ->
  ~ (has_variable s /\ has_variable c /\ has_variable d) ->
  assemble_tensor s c d = Raise TypeError.
Proof.
  intros Ws Wc Wd H. unfold assemble_tensor.
  rewrite !assemble_dicts_spec by (try apply dicts_wf_inner; auto; apply Ws || apply Wc || apply Wd).
  assert (forall e : sdict (sdict (tensor A)), has_variable e \/ ~ has_variable e) as D.
  { intro e. destruct (nonempty_blocks e) eqn:E.
    - right. rewrite has_variable_nonempty, E; auto.
    - left. rewrite has_variable_nonempty, E; discriminate. }
  destruct (D s) as [Hs|Hs]; [rewrite (opt_app_some s Hs)|rewrite (opt_app_none s Hs); auto].
  destruct (D c) as [Hc|Hc]; [rewrite (opt_app_some c Hc)|rewrite (opt_app_none c Hc); auto].
  destruct (D d) as [Hd|Hd]; [rewrite (opt_app_some d Hd)|rewrite (opt_app_none d Hd); auto].
  tauto.
Qed.

(** * Disassembly of a vector *)

Lemma nth_error_firstn_lt {A} (l : list A) n i : i < n -> nth_error (firstn n l) i = nth_error l i.
Proof.
  revert l i; induction n; intros [|a l] [|i] H; simpl; auto; try lia. apply IHn; lia.
Qed.

Lemma nth_error_skipn_add {A} (l : list A) n i : nth_error (skipn n l) i = nth_error l (n + i).
Proof. revert l; induction n; intros [|a l]; simpl; auto. destruct i; auto. Qed.

Lemma vec_wf {A} (l : list A) : twf (vec l).
Proof. unfold twf, vec; simpl. lia. Qed.

Lemma tget_vec {A} n (l : list A) i : i < n -> tget (mkT [n] l) [i] = nth_error l i.
Proof.
  intro H. unfold tget; simpl. apply Nat.ltb_lt in H. rewrite H; simpl.
  f_equal; lia.
Qed.

Lemma tslice_vec {A} lo hi (l : list A) : lo <= hi ->
  tslice 0 lo hi (vec l) = Ok (vec (firstn (hi - lo) (skipn lo l))).
Proof.
  intro H. set (n := List.length l).
  assert (Nat.min hi n - Nat.min lo n = List.length (firstn (hi - lo) (skipn lo l))) as HL.
  { rewrite firstn_length, skipn_length. fold n. lia. }
  destruct (tslice_gen 0 lo hi (vec l) n) as [r [-> [Wr [Sr Gr]]]];
    [apply vec_wf|reflexivity|].
  f_equal. cbn [vec tshape set_nth] in Sr. apply tensor_ext; auto.
  - apply vec_wf.
  - rewrite Sr. unfold vec; cbn [tshape]. rewrite HL; auto.
  - intros idx V. rewrite Gr by auto. rewrite Sr in V.
    destruct idx as [|i [|]]; simpl in V; try tauto. destruct V as [V _].
    cbn [set_nth nth]. unfold vec at 1. rewrite tget_vec by (fold n; lia).
    unfold vec. rewrite tget_vec by (rewrite <- HL; auto).
    rewrite nth_error_firstn_lt by lia. rewrite nth_error_skipn_add. f_equal. lia.
Qed.

Definition plan_size (p : plan) : nat := fold_right (fun ks n => prod (snd ks) + n) 0 p.
Definition plans_size (ps : pdict plan) : nat := fold_right (fun kp n => plan_size (snd kp) + n) 0 ps.

(** Reading a vector according to a plan. *)
Fixpoint read_plan {A} (p : plan) (l : list A) : sdict (tensor A) :=
  match p with
  | [] => []
  | (k, s) :: r => (k, mkT s (firstn (prod s) l)) :: read_plan r (skipn (prod s) l)
  end.

Fixpoint read_plans {A} (ps : pdict plan) (l : list A) : sdict (sdict (tensor A)) :=
  match ps with
  | [] => []
  | (k, p) :: r => (k, read_plan p l) :: read_plans r (skipn (plan_size p) l)
  end.

Definition shapes_ranked (p : plan) : Prop := Forall (fun ks => snd ks <> []) p.

Lemma sd_set_app_last {V} k (v : V) acc :
  (forall k', In k' (keys acc) -> str_lt k' k) -> sd_set k v acc = acc ++ [(k, v)].
Proof. intro H. apply sd_set_last. apply Forall_forall; auto. Qed.

Lemma len_shape_ok s : s <> [] -> len_shape s = Ok (prod s).
Proof. destruct s; [congruence|auto]. Qed.

Lemma skipn_add {A} (l : list A) a b : skipn a (skipn b l) = skipn (b + a) l.
Proof.
  revert l; induction b; intros [|x l]; simpl; auto.
  - destruct a; auto.
Qed.

Lemma disassemble_dict_vec {A} (l : list A) p incr acc :
  sd_wf p -> shapes_ranked p -> incr + plan_size p <= List.length l ->
  (forall k k', In k (keys acc) -> In k' (keys p) -> str_lt k k') ->
  foldM (disassemble_step (vec l) 0) p (acc, incr)
  = Ok (acc ++ read_plan p (skipn incr l), incr + plan_size p).
Proof.
  revert incr acc; induction p as [|[k s] p IH]; intros incr acc W R L D.
  - simpl. rewrite app_nil_r, Nat.add_0_r. reflexivity.
  - cbn [foldM]; unfold disassemble_step at 1; cbn [Z.eqb]. inversion R as [|? ? Rs R']; subst. simpl in Rs.
    apply sd_wf_cons_inv in W as [W Fk]. simpl in L.
    rewrite (len_shape_ok _ Rs). cbn [bind].
    rewrite tslice_vec by lia. cbn [bind]. replace (incr + prod s - incr) with (prod s) by lia.
    cbn [vec tdata]. unfold tview. rewrite firstn_length, skipn_length.
    rewrite Nat.min_l by lia. rewrite Nat.eqb_refl. cbn [bind].
    rewrite sd_set_app_last by (intros; apply D; simpl; auto).
    rewrite IH; auto.
    + f_equal. f_equal.
      * rewrite <- app_assoc. cbn [read_plan app]. rewrite skipn_add. reflexivity.
      * simpl. lia.
    + lia.
    + intros k1 k2 H1 H2. unfold keys in H1. rewrite map_app, in_app_iff in H1.
      destruct H1 as [H1|H1].
      * apply D; simpl; auto.
      * simpl in H1. destruct H1 as [<-|[]]. rewrite Forall_forall in Fk; auto.
Qed.

Lemma disassemble_dict_ok {A} (l : list A) p incr :
  sd_wf p -> shapes_ranked p -> incr + plan_size p <= List.length l ->
  disassemble_dict (vec l) p 0 incr = Ok (read_plan p (skipn incr l), incr + plan_size p).
Proof.
  intros. unfold disassemble_dict.
  pose proof (disassemble_dict_vec l p incr []) as E. rewrite app_nil_l in E.
  apply E; auto. simpl; tauto.
Qed.

Lemma disassemble_dicts_vec {A} (l : list A) ps incr acc :
  sd_wf ps -> Forall (fun kp => sd_wf (snd kp) /\ shapes_ranked (snd kp)) ps ->
  incr + plans_size ps <= List.length l ->
  (forall k k', In k (keys acc) -> In k' (keys ps) -> str_lt k k') ->
  foldM (disassemble_block_step (vec l) 0) ps (acc, incr)
  = Ok (acc ++ read_plans ps (skipn incr l), incr + plans_size ps).
Proof.
  revert incr acc; induction ps as [|[k p] ps IH]; intros incr acc W F L D.
  - simpl. rewrite app_nil_r, Nat.add_0_r. reflexivity.
  - cbn [foldM]; unfold disassemble_block_step at 1; cbn [fst snd]. inversion F as [|? ? [Wp Rp] F']; subst. simpl in Wp, Rp, L.
    apply sd_wf_cons_inv in W as [W Fk].
    rewrite disassemble_dict_ok by (auto; lia). cbn [bind].
    rewrite sd_set_app_last by (intros; apply D; simpl; auto).
    rewrite IH; auto.
    + f_equal. f_equal.
      * rewrite <- app_assoc. cbn [read_plans app]. rewrite skipn_add. reflexivity.
      * simpl. lia.
    + lia.
    + intros k1 k2 H1 H2. unfold keys in H1. rewrite map_app, in_app_iff in H1.
      destruct H1 as [H1|H1].
      * apply D; simpl; auto.
      * simpl in H1. destruct H1 as [<-|[]]. rewrite Forall_forall in Fk; auto.
Qed.

Lemma disassemble_dicts_ok {A} (l : list A) ps incr :
  sd_wf ps -> Forall (fun kp => sd_wf (snd kp) /\ shapes_ranked (snd kp)) ps ->
  incr + plans_size ps <= List.length l ->
  disassemble_dict_of_dicts (vec l) ps 0 incr
  = Ok (read_plans ps (skipn incr l), incr + plans_size ps).
Proof.
  intros. unfold disassemble_dict_of_dicts.
  pose proof (disassemble_dicts_vec l ps incr []) as E. rewrite app_nil_l in E.
  apply E; auto. simpl; tauto.
Qed.

Lemma firstn_app_exact {A} (l1 l2 : list A) : firstn (List.length l1) (l1 ++ l2) = l1.
Proof. induction l1; simpl; auto. congruence. Qed.
Lemma skipn_app_exact {A} (l1 l2 : list A) : skipn (List.length l1) (l1 ++ l2) = l2.
Proof. induction l1; simpl; auto. Qed.

Lemma read_plan_of {A} (d : sdict (tensor A)) rest :
  Forall (fun kt => twf (snd kt)) d ->
  read_plan (plan_of d) (flat_map (fun kt => tdata (snd kt)) d ++ rest) = d.
Proof.
  intro F; induction d as [|[k [s v]] d IH]; simpl; auto.
  inversion F as [|? ? Ht F']; subst. unfold twf in Ht; simpl in Ht.
  rewrite <- app_assoc. rewrite <- Ht. rewrite firstn_app_exact, skipn_app_exact.
  rewrite IH; auto.
Qed.

Lemma plan_size_of {A} (d : sdict (tensor A)) :
  Forall (fun kt => twf (snd kt)) d ->
  plan_size (plan_of d) = List.length (flat_map (fun kt => tdata (snd kt)) d).
Proof.
  intro F; induction d as [|[k t] d IH]; simpl; auto.
  inversion F as [|? ? Ht F']; subst. rewrite app_length, IH by auto. unfold twf in Ht.
  simpl in Ht. rewrite Ht; auto.
Qed.

Lemma read_plans_of {A} (d : sdict (sdict (tensor A))) rest :
  Forall (fun kd => dict_wf (snd kd)) d ->
  read_plans (plans_of d) (elements d ++ rest) = d.
Proof.
  intro F; induction d as [|[k b] d IH]; simpl; auto.
  inversion F as [|? ? [_ Hb] F']; subst. simpl in Hb.
  unfold elements. simpl. rewrite <- app_assoc.
  rewrite read_plan_of by auto. rewrite plan_size_of by auto. rewrite skipn_app_exact.
  fold (elements d). rewrite IH; auto.
Qed.

Lemma plans_size_of {A} (d : sdict (sdict (tensor A))) :
  Forall (fun kd => dict_wf (snd kd)) d ->
  plans_size (plans_of d) = List.length (elements d).
Proof.
  intro F; induction d as [|[k b] d IH]; simpl; auto.
  inversion F as [|? ? [_ Hb] F']; subst. simpl in Hb.
  unfold elements; simpl. rewrite app_length, plan_size_of by auto. fold (elements d).
  rewrite IH; auto.
Qed.

Lemma nonempty_wf {A} (d : sdict (sdict (tensor A))) : dicts_wf d -> dicts_wf (nonempty_blocks d).
Proof.
  intros [W F]; split; [apply sd_wf_filter; auto|].
  rewrite Forall_forall in *. intros x Hx. apply filter_In in Hx as [Hx _]; auto.
Qed.

Lemma nonempty_ranked {A} (d : sdict (sdict (tensor A))) : ranked d -> ranked (nonempty_blocks d).
Proof.
  unfold ranked. rewrite !Forall_forall. intros F x Hx. apply filter_In in Hx as [Hx _]; auto.
Qed.

Lemma plans_of_ok {A} (d : sdict (sdict (tensor A))) :
  dicts_wf d -> ranked d ->
  sd_wf (plans_of d) /\ Forall (fun kp => sd_wf (snd kp) /\ shapes_ranked (snd kp)) (plans_of d).
Proof.
  intros [W F] R. unfold ranked in R. split; [apply sd_wf_map; auto|].
  unfold plans_of. rewrite Forall_forall in *. intros x Hx.
  apply in_map_iff in Hx as [[k b] [<- Hin]]. simpl. specialize (F _ Hin). specialize (R _ Hin).
  simpl in *. destruct F as [Wb _]. split; [apply plan_of_wf; auto|].
  unfold shapes_ranked, plan_of. rewrite Forall_forall in *. intros y Hy.
  apply in_map_iff in Hy as [[k' t] [<- Hin']]. simpl. apply (R _ Hin').
Qed.

Lemma disassemble_tensor_read {A} (l : list A) ps :
  (sd_wf (state_plans ps) /\
     Forall (fun kp => sd_wf (snd kp) /\ shapes_ranked (snd kp)) (state_plans ps)) ->
  (sd_wf (costate_plans ps) /\
     Forall (fun kp => sd_wf (snd kp) /\ shapes_ranked (snd kp)) (costate_plans ps)) ->
  (sd_wf (data_plans ps) /\
     Forall (fun kp => sd_wf (snd kp) /\ shapes_ranked (snd kp)) (data_plans ps)) ->
  plans_size (state_plans ps) + plans_size (costate_plans ps) + plans_size (data_plans ps)
    <= List.length l ->
  disassemble_tensor (vec l) (Some ps) 0
  = Ok (read_plans (state_plans ps) l,
        read_plans (costate_plans ps) (skipn (plans_size (state_plans ps)) l),
        read_plans (data_plans ps)
          (skipn (plans_size (state_plans ps) + plans_size (costate_plans ps)) l)).
Proof.
  intros [W1 F1] [W2 F2] [W3 F3] L. unfold disassemble_tensor. cbn [Z.eqb orb negb].
  rewrite disassemble_dicts_ok by (auto; lia). cbn [bind]. rewrite Nat.add_0_l.
  rewrite disassemble_dicts_ok by (auto; lia). cbn [bind].
  rewrite disassemble_dicts_ok by (auto; lia). cbn [bind]. reflexivity.
Qed.

Lemma assemble_disassemble {A} (s c d : sdict (sdict (tensor A))) :
  dicts_wf s -> dicts_wf c -> dicts_wf d ->
  ranked s -> ranked c -> ranked d ->
  has_variable s -> has_variable c -> has_variable d ->
  exists ps,
    assemble_tensor s c d = Ok (elements s ++ elements c ++ elements d, ps) /\
    disassemble_tensor (vec (elements s ++ elements c ++ elements d)) (Some ps) 0
    = Ok (nonempty_blocks s, nonempty_blocks c, nonempty_blocks d).
Proof.
  intros Ws Wc Wd Rs Rc Rd Hs Hc Hd.
  eexists; split; [apply assemble_tensor_ok; auto|].
  pose proof (nonempty_wf _ Ws) as Ws'. pose proof (nonempty_wf _ Wc) as Wc'.
  pose proof (nonempty_wf _ Wd) as Wd'.
  pose proof (plans_size_of _ (proj2 Ws')) as Ss. pose proof (plans_size_of _ (proj2 Wc')) as Sc.
  pose proof (plans_size_of _ (proj2 Wd')) as Sd. rewrite elements_nonempty in Ss, Sc, Sd.
  rewrite disassemble_tensor_read; cbn [state_plans costate_plans data_plans].
  - rewrite Ss, Sc. rewrite <- skipn_add, !skipn_app_exact.
    f_equal. f_equal; [f_equal|].
    + rewrite <- (elements_nonempty s). apply read_plans_of. apply Ws'.
    + rewrite <- (elements_nonempty c). apply read_plans_of. apply Wc'.
    + rewrite <- (elements_nonempty d), <- (app_nil_r (elements (nonempty_blocks d))).
      apply read_plans_of. apply Wd'.
  - apply plans_of_ok; auto. apply nonempty_ranked; auto.
  - apply plans_of_ok; auto. apply nonempty_ranked; auto.
  - apply plans_of_ok; auto. apply nonempty_ranked; auto.
  - rewrite Ss, Sc, Sd, !app_length. lia.
Qed.

(** * Disassembly with a vector that is too short *)

Lemma disassemble_dict_short {A} (l : list A) p incr acc :
  shapes_ranked p -> incr <= List.length l -> List.length l < incr + plan_size p ->
  foldM (disassemble_step (vec l) 0) p (acc, incr)
  = Raise RuntimeError.
Proof.
  revert incr acc; induction p as [|[k s] p IH]; intros incr acc R L L'; [simpl in L'; lia|].
  cbn [foldM]; unfold disassemble_step at 1; cbn [Z.eqb]. inversion R as [|? ? Rs R']; subst. simpl in Rs, L'.
  rewrite (len_shape_ok _ Rs). cbn [bind].
  rewrite tslice_vec by lia. cbn [bind]. replace (incr + prod s - incr) with (prod s) by lia.
  cbn [vec tdata]. unfold tview. rewrite firstn_length, skipn_length.
  destruct (Nat.eqb_spec (Nat.min (prod s) (List.length l - incr)) (prod s)); [|reflexivity].
  cbn [bind]. apply IH; auto; lia.
Qed.

Lemma disassemble_dict_short' {A} (l : list A) p incr :
  shapes_ranked p -> incr <= List.length l -> List.length l < incr + plan_size p ->
  disassemble_dict (vec l) p 0 incr = Raise RuntimeError.
Proof. intros. unfold disassemble_dict. exact (disassemble_dict_short l p incr [] H H0 H1). Qed.

Lemma disassemble_dicts_short {A} (l : list A) ps incr acc :
  Forall (fun kp => sd_wf (snd kp) /\ shapes_ranked (snd kp)) ps ->
  incr <= List.length l -> List.length l < incr + plans_size ps ->
  foldM (disassemble_block_step (vec l) 0) ps (acc, incr)
  = Raise RuntimeError.
Proof.
  revert incr acc; induction ps as [|[k p] ps IH]; intros incr acc F L L'; [simpl in L'; lia|].
  cbn [foldM]; unfold disassemble_block_step at 1; cbn [fst snd]. inversion F as [|? ? [Wp Rp] F']; subst. simpl in Wp, Rp, L'.
  destruct (Nat.le_gt_cases (incr + plan_size p) (List.length l)) as [H|H].
  - rewrite disassemble_dict_ok by auto. cbn [bind]. apply IH; auto; lia.
  - rewrite disassemble_dict_short' by auto. reflexivity.
Qed.

Lemma disassemble_dicts_short' {A} (l : list A) ps incr :
  Forall (fun kp => sd_wf (snd kp) /\ shapes_ranked (snd kp)) ps ->
  incr <= List.length l -> List.length l < incr + plans_size ps ->
  disassemble_dict_of_dicts (vec l) ps 0 incr = Raise RuntimeError.
Proof.
  intros. unfold disassemble_dict_of_dicts. exact (disassemble_dicts_short l ps incr [] H H0 H1).
Qed.

Definition plans_ok (ps : pdict plan) : Prop :=
  sd_wf ps /\ Forall (fun kp => sd_wf (snd kp) /\ shapes_ranked (snd kp)) ps.

Lemma disassemble_tensor_short {A} (l : list A) ps :
  plans_ok (state_plans ps) -> plans_ok (costate_plans ps) -> plans_ok (data_plans ps) ->
  List.length l <
    plans_size (state_plans ps) + plans_size (costate_plans ps) + plans_size (data_plans ps) ->
  disassemble_tensor (vec l) (Some ps) 0 = Raise RuntimeError.
Proof.
  intros [W1 F1] [W2 F2] [W3 F3] L. unfold disassemble_tensor. cbn [Z.eqb orb negb].
  destruct (Nat.le_gt_cases (plans_size (state_plans ps)) (List.length l)) as [H1|H1].
  2: { rewrite disassemble_dicts_short' by (auto; lia). reflexivity. }
  rewrite disassemble_dicts_ok by (auto; lia). cbn [bind]. rewrite Nat.add_0_l.
  destruct (Nat.le_gt_cases (plans_size (state_plans ps) + plans_size (costate_plans ps))
              (List.length l)) as [H2|H2].
  2: { rewrite disassemble_dicts_short' by (auto; lia). reflexivity. }
  rewrite disassemble_dicts_ok by (auto; lia). cbn [bind].
  rewrite disassemble_dicts_short' by (auto; lia). reflexivity.
Qed.

Lemma elements_read_plan {A} p (l : list A) :
  plan_size p <= List.length l ->
  flat_map (fun kt => tdata (snd kt)) (read_plan p l) = firstn (plan_size p) l.
Proof.
  revert l; induction p as [|[k s] p IH]; intros l L; simpl in *; auto.
  rewrite IH by (rewrite skipn_length; lia).
  rewrite <- (firstn_skipn (prod s) l) at 3.
  rewrite firstn_app, firstn_length, Nat.min_l by lia.
  replace (prod s + plan_size p - prod s) with (plan_size p) by lia.
  rewrite firstn_firstn, Nat.min_r by lia. reflexivity.
Qed.

Lemma elements_read_plans {A} ps (l : list A) :
  plans_size ps <= List.length l -> elements (read_plans ps l) = firstn (plans_size ps) l.
Proof.
  revert l; induction ps as [|[k p] ps IH]; intros l L; simpl in *; auto.
  unfold elements; simpl. fold (elements (read_plans ps (skipn (plan_size p) l))).
  rewrite elements_read_plan by lia.
  rewrite IH by (rewrite skipn_length; lia).
  rewrite <- (firstn_skipn (plan_size p) l) at 3.
  rewrite firstn_app, firstn_length, Nat.min_l by lia.
  replace (plan_size p + plans_size ps - plan_size p) with (plans_size ps) by lia.
  rewrite firstn_firstn, Nat.min_r by lia. reflexivity.
Qed.

Lemma read_plan_wf {A} p (l : list A) :
  plan_size p <= List.length l ->
  Forall (fun kt => twf (snd kt)) (read_plan p l).
Proof.
  revert l; induction p as [|[k s] p IH]; intros l L; simpl in *; constructor.
  - unfold twf; simpl. rewrite firstn_length; lia.
  - apply IH. rewrite skipn_length; lia.
Qed.

Lemma read_plan_rel {A} p (l : list A) :
  dict_rel (fun t s => tshape t = s) (read_plan p l) p.
Proof.
  revert l; induction p as [|[k s] p IH]; intros l; simpl; constructor; simpl; auto. apply IH.
Qed.

Lemma read_plans_rel {A} ps (l : list A) :
  dicts_rel (fun t s => tshape t = s) (read_plans ps l) ps.
Proof.
  revert l; induction ps as [|[k p] ps IH]; intros l; simpl; constructor; simpl.
  - split; auto. apply read_plan_rel.
  - apply IH.
Qed.

Lemma disassemble_tensor_exact {A} (l : list A) ps :
  plans_ok (state_plans ps) -> plans_ok (costate_plans ps) -> plans_ok (data_plans ps) ->
  List.length l =
    plans_size (state_plans ps) + plans_size (costate_plans ps) + plans_size (data_plans ps) ->
  exists s c d, disassemble_tensor (vec l) (Some ps) 0 = Ok (s, c, d) /\
    elements s ++ elements c ++ elements d = l /\
    dicts_rel (fun t sh => tshape t = sh) s (state_plans ps) /\
    dicts_rel (fun t sh => tshape t = sh) c (costate_plans ps) /\
    dicts_rel (fun t sh => tshape t = sh) d (data_plans ps).
Proof.
  intros P1 P2 P3 L. do 3 eexists. split; [apply disassemble_tensor_read; auto; lia|].
  rewrite !elements_read_plans by (rewrite ?skipn_length; lia).
  repeat split; try apply read_plans_rel.
  rewrite <- skipn_add. set (a := plans_size (state_plans ps)) in *.
  set (b := plans_size (costate_plans ps)) in *. set (c := plans_size (data_plans ps)) in *.
  rewrite (firstn_all2 (n := c)) by (rewrite !skipn_length; lia).
  rewrite firstn_skipn, firstn_skipn. reflexivity.
Qed.

(** * Time-major disassembly *)

Lemma dict_rel_set {V W} (R : V -> W -> Prop) k v w d1 d2 :
  dict_rel R d1 d2 -> R v w -> dict_rel R (sd_set k v d1) (sd_set k w d2).
Proof.
  intros H HR. induction H as [|[k1 v1] [k2 v2] d1 d2 [E Rv] F IH]; simpl.
  - constructor; [simpl; auto|constructor].
  - simpl in E, Rv. subst k2. destruct (String.eqb k k1).
    + constructor; simpl; auto.
    + destruct (str_ltb k k1); constructor; simpl; auto; constructor; simpl; auto.
Qed.

Lemma tselect_ok {A} i (t : tensor A) n s :
  twf t -> tshape t = n :: s -> i < n ->
  exists r, tselect i t = Ok r /\ twf r /\ tshape r = s /\
    forall idx, valid_idx s idx -> tget r idx = tget t (i :: idx).
Proof.
  intros W E Hi. unfold tselect. rewrite E. apply Nat.ltb_lt in Hi as Hb. rewrite Hb.
  assert (Hsrc : forall idx, valid_idx s idx -> tget t (i :: idx) <> None).
  { intros idx V. edestruct (tget_valid t (i :: idx) W) as [a ->]; [|discriminate].
    rewrite E; simpl; auto. }
  eexists; split; [reflexivity|]. split; [apply tgather_wf; auto|]. split; auto.
  intros idx V. exact (tget_gather _ _ idx Hsrc V).
Qed.

(** Viewing a matrix slice and then selecting a row = selecting the row and then
    viewing its slice. *)
Lemma slice_view_row {A} (input row sl v : tensor A) T n i shape incr :
  twf input -> tshape input = [T; n] -> i < T -> tselect i input = Ok row ->
  tslice 1 incr (incr + prod shape) input = Ok sl ->
  tview (tdata sl) (T :: shape) = Ok v ->
  exists sl' v', tslice 0 incr (incr + prod shape) row = Ok sl' /\
    tview (tdata sl') shape = Ok v' /\ tselect i v = Ok v'.
Proof.
  intros W S Hi Hrow Hsl Hv.
  destruct (tselect_ok i input T [n] W S Hi) as [row' [E [Wr [Sr Gr]]]].
  rewrite Hrow in E; injection E as <-.
  destruct (tslice_gen 1 incr (incr + prod shape) input n W) as [sl1 [E1 [W1 [S1 G1]]]].
  { rewrite S; reflexivity. }
  rewrite Hsl in E1; injection E1 as <-.
  destruct (tslice_gen 0 incr (incr + prod shape) row n Wr) as [sl' [E2 [W2 [S2 G2]]]].
  { rewrite Sr; reflexivity. }
  rewrite S in S1. rewrite Sr in S2. cbn [set_nth] in S1, S2.
  set (m := Nat.min (incr + prod shape) n - Nat.min incr n) in *.
  unfold tview in Hv. destruct (Nat.eqb_spec (List.length (tdata sl)) (prod (T :: shape))) as [L|];
    [|discriminate].
  injection Hv as <-.
  unfold twf in W1, W2. rewrite S1 in W1. rewrite S2 in W2. cbn [prod fold_right] in W1, W2, L.
  fold (prod shape) in L.
  assert (m = prod shape) as Hm by nia.
  exists sl', (mkT shape (tdata sl')). split; auto. split.
  { unfold tview. rewrite W2. destruct (Nat.eqb_spec (m * 1) (prod shape)); [reflexivity|lia]. }
  set (v := mkT (T :: shape) (tdata sl)).
  assert (twf v) as Wv by (unfold twf, v; simpl; rewrite L; reflexivity).
  destruct (tselect_ok i v T shape Wv eq_refl Hi) as [u [Eu [Wu [Su Gu]]]].
  rewrite Eu. f_equal. apply tensor_ext; auto.
  - unfold twf; simpl. lia.
  - intros idx V. rewrite Su in V. rewrite Gu by auto.
    destruct (ravel_valid _ _ V) as [r [Er Hr]].
    assert (tget v (i :: idx) = tget sl [i; r]) as ->.
    { unfold tget, v. cbn [tshape tdata]. rewrite S1. cbn [ravel].
      apply Nat.ltb_lt in Hi as Hb. rewrite Hb, Er. cbn [option_map].
      assert (r <? m = true) as Hb2 by (apply Nat.ltb_lt; lia). rewrite Hb2. cbn [option_map prod fold_right].
      f_equal. lia. }
    rewrite G1 by (rewrite S1; simpl; lia). cbn [nth set_nth].
    assert (tget (mkT shape (tdata sl')) idx = tget sl' [r]) as ->.
    { unfold tget. cbn [tshape tdata]. rewrite S2, Er. cbn [ravel].
      assert (r <? m = true) as Hb2 by (apply Nat.ltb_lt; lia). rewrite Hb2. cbn [option_map prod fold_right].
      f_equal. lia. }
    rewrite G2 by (rewrite S2; simpl; lia). cbn [nth set_nth].
    rewrite Gr; auto. simpl. unfold m in Hm. lia.
Qed.

Lemma disassemble_dict_rows {A} (input row : tensor A) T n i p :
  twf input -> tshape input = [T; n] -> i < T -> tselect i input = Ok row ->
  forall incr d incr',
  disassemble_dict input p 1 incr = Ok (d, incr') ->
  exists d', disassemble_dict row p 0 incr = Ok (d', incr') /\
    dict_rel (fun t u => tselect i t = Ok u) d d'.
Proof.
  intros W S Hi Hrow. unfold disassemble_dict.
  assert (forall acc1 acc2, dict_rel (fun t u => tselect i t = Ok u) acc1 acc2 ->
    forall incr d incr', foldM (disassemble_step input 1) p (acc1, incr) = Ok (d, incr') ->
    exists d', foldM (disassemble_step row 0) p (acc2, incr) = Ok (d', incr') /\
      dict_rel (fun t u => tselect i t = Ok u) d d') as G.
  2: { intros incr d incr'. apply G. constructor. }
  induction p as [|[k s] p IH]; intros acc1 acc2 HR incr d incr' H.
  - simpl in H. injection H as <- <-. exists acc2; auto.
  - cbn [foldM] in H |- *.
    apply bind_ok in H as [[acc1' incr1] [H1 H]].
    unfold disassemble_step in H1. cbn [Z.eqb] in H1.
    apply bind_ok in H1 as [fd [Hfd H1]]. rewrite S in Hfd. injection Hfd as <-.
    apply bind_ok in H1 as [len [Hlen H1]].
    assert (len = prod s) as -> by (destruct s; [discriminate|injection Hlen; auto]).
    apply bind_ok in H1 as [sl [Hsl H1]]. apply bind_ok in H1 as [v [Hv H1]].
    injection H1 as <- <-.
    destruct (slice_view_row input row sl v T n i s incr W S Hi Hrow Hsl Hv)
      as [sl' [v' [E1 [E2 E3]]]].
    unfold disassemble_step at 1. cbn [Z.eqb].
    rewrite Hlen. cbn [bind]. rewrite E1. cbn [bind]. rewrite E2. cbn [bind].
    eapply IH; [|exact H]. apply dict_rel_set; auto.
Qed.

Lemma disassemble_dicts_rows {A} (input row : tensor A) T n i ps :
  twf input -> tshape input = [T; n] -> i < T -> tselect i input = Ok row ->
  forall incr d incr',
  disassemble_dict_of_dicts input ps 1 incr = Ok (d, incr') ->
  exists d', disassemble_dict_of_dicts row ps 0 incr = Ok (d', incr') /\ at_time i d d'.
Proof.
  intros W S Hi Hrow. unfold disassemble_dict_of_dicts.
  assert (forall acc1 acc2, at_time i acc1 acc2 ->
    forall incr d incr', foldM (disassemble_block_step input 1) ps (acc1, incr) = Ok (d, incr') ->
    exists d', foldM (disassemble_block_step row 0) ps (acc2, incr) = Ok (d', incr') /\
      at_time i d d') as G.
  2: { intros incr d incr'. apply G. constructor. }
  induction ps as [|[k p] ps IH]; intros acc1 acc2 HR incr d incr' H.
  - simpl in H. injection H as <- <-. exists acc2; auto.
  - cbn [foldM] in H |- *.
    apply bind_ok in H as [[acc1' incr1] [H1 H]].
    unfold disassemble_block_step in H1. cbn [fst snd] in H1.
    apply bind_ok in H1 as [[dd ii] [Hd H1]]. injection H1 as <- <-.
    destruct (disassemble_dict_rows input row T n i p W S Hi Hrow _ _ _ Hd) as [d' [E R]].
    unfold disassemble_block_step at 1. cbn [fst snd].
    rewrite E. cbn [bind]. eapply IH; [|exact H]. apply dict_rel_set; auto.
Qed.

Lemma disassemble_tensor_rows {A} (input : tensor A) T n i ps s c d :
  twf input -> tshape input = [T; n] -> i < T ->
  disassemble_tensor input (Some ps) 1 = Ok (s, c, d) ->
  exists row s' c' d', tselect i input = Ok row /\
    disassemble_tensor row (Some ps) 0 = Ok (s', c', d') /\
    at_time i s s' /\ at_time i c c' /\ at_time i d d'.
Proof.
  intros W S Hi H. destruct (tselect_ok i input T [n] W S Hi) as [row [Hrow _]].
  unfold disassemble_tensor in *. cbn [Z.eqb orb negb] in *.
  apply bind_ok in H as [[s1 i1] [H1 H]]. apply bind_ok in H as [[c1 i2] [H2 H]].
  apply bind_ok in H as [[d1 i3] [H3 H]]. injection H as <- <- <-.
  destruct (disassemble_dicts_rows input row T n i _ W S Hi Hrow _ _ _ H1) as [s' [E1 R1]].
  destruct (disassemble_dicts_rows input row T n i _ W S Hi Hrow _ _ _ H2) as [c' [E2 R2]].
  destruct (disassemble_dicts_rows input row T n i _ W S Hi Hrow _ _ _ H3) as [d' [E3 R3]].
  exists row, s', c', d'. rewrite E1. cbn [bind]. rewrite E2. cbn [bind]. rewrite E3. auto.
Qed.

(** Existence. *)
Lemma dict_rel_app_last {V W} (R : V -> W -> Prop) d1 d2 k v w :
  dict_rel R d1 d2 -> R v w -> dict_rel R (d1 ++ [(k, v)]) (d2 ++ [(k, w)]).
Proof. intros. apply Forall2_app; auto; constructor; simpl; auto. Qed.

Lemma dict_rel_keys {V W} (R : V -> W -> Prop) d1 d2 : dict_rel R d1 d2 -> keys d1 = keys d2.
Proof.
  induction 1 as [|[k v] [k' v'] d1 d2 [E _] F IH]; auto.
  unfold keys in *. simpl in *. congruence.
Qed.

Lemma disassemble_dict_time_ok_gen {A} (input : tensor A) T n p :
  twf input -> tshape input = [T; n] -> shapes_ranked p ->
  forall acc pre incr, sd_wf (pre ++ p) -> incr + plan_size p <= n ->
  dict_rel (fun t s => tshape t = T :: s) acc pre ->
  exists d,
    foldM (disassemble_step input 1) p (acc, incr) = Ok (d, incr + plan_size p) /\
    dict_rel (fun t s => tshape t = T :: s) d (pre ++ p).
Proof.
  intros W S. induction p as [|[k s] p IH]; intros R acc pre incr Wp L HR.
  - simpl. exists acc. rewrite app_nil_r, Nat.add_0_r. auto.
  - cbn [foldM]; unfold disassemble_step at 1; cbn [Z.eqb]. inversion R as [|? ? Rs R']; subst. simpl in Rs, L.
    rewrite S. cbn [list_item nth_error bind]. rewrite (len_shape_ok _ Rs). cbn [bind].
    destruct (tslice_gen 1 incr (incr + prod s) input n W) as [sl [E [W1 [S1 _]]]].
    { rewrite S; reflexivity. }
    rewrite E. cbn [bind]. rewrite S in S1. cbn [set_nth] in S1. unfold twf in W1.
    rewrite S1 in W1. cbn [prod fold_right] in W1. unfold tview at 1. cbn [prod fold_right].
    fold (prod s).
    destruct (Nat.eqb_spec (List.length (tdata sl)) (T * prod s)) as [Hl|Hl]; [|nia].
    cbn [bind].
    rewrite sd_set_app_last.
    + edestruct IH with (acc := acc ++ [(k, mkT (T :: s) (tdata sl))])
        (pre := pre ++ [(k, s)]) (incr := incr + prod s) as [d [Ed Rd]]; auto.
      * rewrite <- app_assoc. exact Wp.
      * lia.
      * apply dict_rel_app_last; auto.
      * exists d. split; [etransitivity; [exact Ed|]|].
        -- f_equal. f_equal. simpl. lia.
        -- rewrite <- app_assoc in Rd. exact Rd.
    + rewrite (dict_rel_keys _ _ _ HR). intros k' Hk'.
      clear - Wp Hk'. induction pre as [|[k0 s0] pre IH]; [destruct Hk'|].
      cbn [app] in Wp. apply sd_wf_cons_inv in Wp as [Wp F]. destruct Hk' as [<-|Hk'].
      * rewrite Forall_forall in F. apply F. unfold keys. rewrite map_app, in_app_iff.
        right; left; auto.
      * apply IH; auto.
Qed.

Lemma disassemble_dict_time_ok {A} (input : tensor A) T n p incr :
  twf input -> tshape input = [T; n] -> sd_wf p -> shapes_ranked p -> incr + plan_size p <= n ->
  exists d, disassemble_dict input p 1 incr = Ok (d, incr + plan_size p) /\
    dict_rel (fun t s => tshape t = T :: s) d p.
Proof.
  intros W S Wp R L. unfold disassemble_dict.
  apply (disassemble_dict_time_ok_gen input T n p W S R [] [] incr Wp L). constructor.
Qed.

Lemma disassemble_dicts_time_ok {A} (input : tensor A) T n ps :
  twf input -> tshape input = [T; n] ->
  Forall (fun kp => sd_wf (snd kp) /\ shapes_ranked (snd kp)) ps ->
  forall acc pre incr, sd_wf (pre ++ ps) -> incr + plans_size ps <= n ->
  dicts_rel (fun t s => tshape t = T :: s) acc pre ->
  exists d,
    foldM (disassemble_block_step input 1) ps (acc, incr)
    = Ok (d, incr + plans_size ps) /\
    dicts_rel (fun t s => tshape t = T :: s) d (pre ++ ps).
Proof.
  intros W S. induction ps as [|[k p] ps IH]; intros F acc pre incr Wp L HR.
  - simpl. exists acc. rewrite app_nil_r, Nat.add_0_r. auto.
  - cbn [foldM]; unfold disassemble_block_step at 1; cbn [fst snd]. inversion F as [|? ? [Wpp Rp] F']; subst. simpl in Wpp, Rp, L.
    destruct (disassemble_dict_time_ok input T n p incr W S Wpp Rp) as [d [E R]]; [lia|].
    rewrite E. cbn [bind].
    rewrite sd_set_app_last.
    + edestruct IH with (acc := acc ++ [(k, d)])
        (pre := pre ++ [(k, p)]) (incr := incr + plan_size p) as [dd [Ed Rd]]; auto.
      * rewrite <- app_assoc. exact Wp.
      * lia.
      * apply dict_rel_app_last; auto.
      * exists dd. split; [etransitivity; [exact Ed|]|].
        -- f_equal. f_equal. simpl. lia.
        -- rewrite <- app_assoc in Rd. exact Rd.
    + intros k' Hk0. assert (In k' (keys pre)) as Hk'.
      { rewrite <- (dict_rel_keys _ _ _ HR). exact Hk0. }
      clear - Wp Hk'. induction pre as [|[k0 s0] pre IH]; [destruct Hk'|].
      cbn [app] in Wp. apply sd_wf_cons_inv in Wp as [Wp F]. destruct Hk' as [<-|Hk'].
      * rewrite Forall_forall in F. apply F. unfold keys. rewrite map_app, in_app_iff.
        right; left; auto.
      * apply IH; auto.
Qed.

Lemma disassemble_dicts_time_ok' {A} (input : tensor A) T n ps :
  twf input -> tshape input = [T; n] ->
  Forall (fun kp => sd_wf (snd kp) /\ shapes_ranked (snd kp)) ps ->
  forall incr, sd_wf ps -> incr + plans_size ps <= n ->
  exists d, disassemble_dict_of_dicts input ps 1 incr = Ok (d, incr + plans_size ps) /\
    dicts_rel (fun t s => tshape t = T :: s) d ps.
Proof.
  intros W S F incr Wp L. unfold disassemble_dict_of_dicts.
  destruct (disassemble_dicts_time_ok input T n ps W S F [] [] incr Wp L) as [d [E R]];
    [constructor|]. exists d. split; [exact E|exact R].
Qed.

Lemma disassemble_tensor_time_ok {A} (input : tensor A) T n ps :
  twf input -> tshape input = [T; n] ->
  plans_ok (state_plans ps) -> plans_ok (costate_plans ps) -> plans_ok (data_plans ps) ->
  plans_size (state_plans ps) + plans_size (costate_plans ps) + plans_size (data_plans ps) <= n ->
  exists s c d, disassemble_tensor input (Some ps) 1 = Ok (s, c, d) /\
    dicts_rel (fun t sh => tshape t = T :: sh) s (state_plans ps) /\
    dicts_rel (fun t sh => tshape t = T :: sh) c (costate_plans ps) /\
    dicts_rel (fun t sh => tshape t = T :: sh) d (data_plans ps).
Proof.
  intros W S [W1 F1] [W2 F2] [W3 F3] L. unfold disassemble_tensor. cbn [Z.eqb orb negb].
  destruct (disassemble_dicts_time_ok' input T n (state_plans ps) W S F1 0 W1)
    as [s [E1 R1]]; [lia|]. rewrite E1. cbn [bind].
  destruct (disassemble_dicts_time_ok' input T n (costate_plans ps) W S F2
     (0 + plans_size (state_plans ps)) W2) as [c [E2 R2]]; [lia|]. rewrite E2. cbn [bind].
  destruct (disassemble_dicts_time_ok' input T n (data_plans ps) W S F3
     (0 + plans_size (state_plans ps) + plans_size (costate_plans ps)) W3)
    as [d [E3 R3]]; [lia|]. rewrite E3. cbn [bind].
  exists s, c, d. auto.
Qed.

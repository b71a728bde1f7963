(** Proofs about the gradient comparison. *)
From Coq Require Import List String Bool Reals Arith Lia Lra.
From Verif Require Import Base GradCheckModel GradCheckSpec.
Import ListNotations.
Open Scope string_scope.
Open Scope list_scope.
Open Scope R_scope.

Lemma nonzero_true x : nonzero x = true <-> x <> 0.
Proof. unfold nonzero. destruct (Req_EM_T x 0); split; congruence. Qed.
Lemma nonzero_false x : nonzero x = false <-> x = 0.
Proof. unfold nonzero. destruct (Req_EM_T x 0); split; congruence. Qed.

Lemma zero_iff a b : nonzero b = nonzero a <-> (a = 0 <-> b = 0).
Proof.
  destruct (nonzero a) eqn:A, (nonzero b) eqn:B; try apply nonzero_true in A; try apply nonzero_true in B;
    try apply nonzero_false in A; try apply nonzero_false in B; split; intros; try congruence; tauto.
Qed.

Lemma all_equal_spec b : forall a, List.length a = List.length b ->
  exists r, all_equal (map nonzero b) (map nonzero a) = Ok r /\ (r = true <-> same_zeros a b).
Proof.
  induction b as [|y b IH]; intros [|x a] H; cbn in H; try discriminate.
  - exists true. split; [reflexivity|]. split; auto. constructor.
  - destruct (IH a ltac:(lia)) as [r [E Hr]]. cbn [map all_equal]. rewrite E. cbn [bind]. eexists. split; [reflexivity|].
    rewrite andb_true_iff, Hr, Bool.eqb_true_iff, zero_iff. split.
    + intros [A B]. constructor; auto.
    + intros Hx. inversion Hx; subst. auto.
Qed.

Lemma all_equal_raise b : forall a, List.length a <> List.length b -> all_equal (map nonzero b) (map nonzero a) = Raise RuntimeError.
Proof.
  induction b as [|y b IH]; intros [|x a] H; cbn in *; try congruence; auto.
  rewrite IH; auto.
Qed.

(** The pairs of entries that are not zero. *)
Definition pairs (a b : list R) : list (R * R) := filter (fun ab => nonzero (snd ab)) (combine a b).

Lemma selected a : forall b, same_zeros a b ->
  combine (select (map nonzero a) a) (select (map nonzero b) b) = pairs a b.
Proof.
  intros b H. induction H as [|x y a b Hxy H IH]; [reflexivity|].
  unfold pairs. cbn [combine filter snd]. apply zero_iff in Hxy. unfold select. cbn [map combine filter fst].
  rewrite <- Hxy. destruct (nonzero y); cbn [map snd combine].
  - f_equal. exact IH.
  - exact IH.
Qed.

Lemma in_pairs a b x y : In (x, y) (pairs a b) <-> exists i, nth_error a i = Some x /\ nth_error b i = Some y /\ y <> 0.
Proof.
  unfold pairs. rewrite filter_In. cbn [snd]. rewrite nonzero_true. split.
  - intros [H N]. revert b H. induction a as [|u a IH]; intros [|v b] H; cbn in H; try tauto.
    destruct H as [H|H].
    + injection H as -> ->. exists O. auto.
    + destruct (IH _ H) as [i Hi]. exists (S i). auto.
  - intros [i [Ha [Hb N]]]. split; auto. revert a b Ha Hb. induction i; intros [|u a] [|v b] Ha Hb; cbn in *; try discriminate.
    + left. congruence.
    + right. auto.
Qed.

Lemma fold_max l : forall x, x <= fold_left Rmax l x /\ (forall y, In y l -> y <= fold_left Rmax l x) /\ (fold_left Rmax l x = x \/ In (fold_left Rmax l x) l).
Proof.
  induction l as [|z l IH]; intros x; cbn.
  - repeat split; auto; [lra|intros y []].
  - destruct (IH (Rmax x z)) as [A [B C]]. pose proof (Rmax_l x z). pose proof (Rmax_r x z). repeat split.
    + lra.
    + intros y [->|Hy]; [lra|auto].
    + destruct C as [C|C]; auto. rewrite C. unfold Rmax. destruct (Rle_dec x z); auto.
Qed.

Lemma tmax_spec l : l <> [] -> exists e, tmax l = Ok e /\ In e l /\ forall y, In y l -> y <= e.
Proof.
  destruct l as [|x l]; [congruence|]. intros _. destruct (fold_max l x) as [A [B C]]. exists (fold_left Rmax l x).
  cbn. repeat split; auto.
  - destruct C as [C|C]; auto.
  - intros y [<-|Hy]; auto.
Qed.

Lemma relative_error_spec a b : same_zeros a b -> (exists x, In x b /\ x <> 0) ->
  exists e, relative_error a b = Ok e /\ largest_deviation a b e.
Proof.
  intros H [y [Hy N]]. unfold relative_error. rewrite selected by exact H.
  assert (Hne : exists x, In (x, y) (pairs a b)).
  { apply In_nth_error in Hy. destruct Hy as [i Hi].
    assert (Hl : List.length a = List.length b) by (clear -H; induction H; cbn; auto).
    destruct (nth_error a i) as [x|] eqn:Ea.
    - exists x. apply in_pairs. eauto.
    - apply nth_error_None in Ea. assert (i < List.length b)%nat by (apply nth_error_Some; congruence). lia. }
  destruct Hne as [x Hx].
  destruct (tmax_spec (map (fun ab => Rabs (fst ab / snd ab - 1)) (pairs a b))) as [e [E [Hin Hmax]]].
  { intros E. apply (in_map (fun ab : R * R => Rabs (fst ab / snd ab - 1))) in Hx. rewrite E in Hx. destruct Hx. }
  exists e. split; auto. split.
  - intros i u v Hu Hv Nv. apply Hmax. apply (in_map (fun ab : R * R => Rabs (fst ab / snd ab - 1)) _ (u, v)). apply in_pairs. eauto.
  - apply in_map_iff in Hin. destruct Hin as [[u v] [Ee Hin]]. apply in_pairs in Hin. destruct Hin as [i [Hu [Hv Nv]]].
    exists i, u, v. cbn in Ee. auto.
Qed.

Lemma compare_spec tol p : comparable p ->
  exists v, compare tol (by_autodiff p) (by_analytic p) = Ok v /\ right_verdict tol (by_autodiff p) (by_analytic p) v.
Proof.
  intros [Hl Hn]. unfold compare. destruct (all_equal_spec _ _ Hl) as [r [E Hr]]. rewrite E. cbn [bind].
  destruct r.
  - assert (Hz : same_zeros (by_autodiff p) (by_analytic p)) by (apply Hr; auto).
    destruct (relative_error_spec _ _ Hz Hn) as [e [Ee He]]. rewrite Ee. cbn [bind].
    destruct (Rlt_dec e tol) as [L|L]; eexists; (split; [reflexivity|]); cbn; auto. repeat split; try apply He; auto. lra.
  - eexists. split; [reflexivity|]. cbn. intros Hz. apply Hr in Hz. discriminate.
Qed.

(** Relative deviation and distance. *)
Lemma deviation tol a b : b <> 0 -> Rabs (a / b - 1) < tol <-> Rabs (a - b) < tol * Rabs b.
Proof.
  intros N. replace (a / b - 1) with ((a - b) * / b) by (field; auto). rewrite Rabs_mult, Rabs_inv.
  pose proof (Rabs_pos_lt b N) as P. split; intros H.
  - apply (Rmult_lt_compat_r (Rabs b)) in H; auto. replace (Rabs (a - b) * / Rabs b * Rabs b) with (Rabs (a - b)) in H by (field; lra). exact H.
  - apply (Rmult_lt_reg_r (Rabs b)); auto. replace (Rabs (a - b) * / Rabs b * Rabs b) with (Rabs (a - b)) by (field; lra). exact H.
Qed.

Lemma passed_iff tol p v : comparable p -> right_verdict tol (by_autodiff p) (by_analytic p) v ->
  is_passed v <-> close tol (by_autodiff p) (by_analytic p).
Proof.
  intros [Hl Hn] H. destruct v as [e|e|]; cbn in H |- *.
  - split; auto. intros _. destruct H as [Hz [[Hm _] Ht]]. revert Hm. clear Hn Hl.
    induction Hz as [|a b la lb Hab Hz IH]; intros Hm; constructor.
    + split; auto. intros N. apply deviation; auto. apply (Rle_lt_trans _ e); auto. apply (Hm O a b); auto.
    + apply IH. intros i. apply (Hm (S i)).
  - split; [tauto|]. intros Hc. destruct H as [Hz [[_ [i [a [b [Ha [Hb [N E]]]]]]] Ht]].
    assert (Hx : Rabs (a - b) < tol * Rabs b).
    { revert i Ha Hb. induction Hc as [|x y la lb [_ Hxy] Hc IH]; intros [|i] Ha Hb; cbn in *; try discriminate.
      - injection Ha as ->. injection Hb as ->. auto.
      - inversion Hz; subst. apply IH with (i := i); auto.
        + destruct Hn as [z [[->|Hz'] Nz]]; eauto. exists b. split; auto. apply nth_error_In in Hb. auto. }
    apply deviation in Hx; auto. lra.
  - split; [tauto|]. intros Hc. apply H. clear - Hc. induction Hc as [|x y la lb [H _] Hc IH]; constructor; auto.
Qed.

Lemma close_refl tol b : 0 < tol -> close tol b b.
Proof.
  intros H. induction b as [|x b IH]; constructor; auto. split; [tauto|]. intros N.
  replace (x - x) with 0 by ring. rewrite Rabs_R0. apply Rmult_lt_0_compat; auto. apply Rabs_pos_lt; auto.
Qed.

(** ** Dictionaries *)
Lemma set_fresh {A} k (v : A) (d : pdict A) : ~ In k (map fst d) -> pd_set k v d = d ++ [(k, v)].
Proof.
  induction d as [|[k' v'] d IH]; intros H; [reflexivity|]. cbn in *.
  destruct (String.eqb_spec k k'); [subst; tauto|]. rewrite IH by tauto. reflexivity.
Qed.

Lemma collect_all (f : parameter -> list R) ps : forall acc, NoDup (map fst acc ++ map name_of ps) ->
  collect (map (fun p => (name_of p, Some (f p))) ps) acc = Ok (acc ++ map (fun p => (name_of p, f p)) ps).
Proof.
  induction ps as [|p ps IH]; intros acc H; cbn; [rewrite app_nil_r; reflexivity|].
  rewrite set_fresh.
  - rewrite IH; [rewrite <- app_assoc; reflexivity|]. rewrite map_app. cbn. rewrite <- app_assoc. exact H.
  - intros Hi. cbn in H. apply NoDup_remove_2 in H. apply H. apply in_or_app. auto.
Qed.

Lemma item_of (f : parameter -> list R) ps p : NoDup (map name_of ps) -> In p ps ->
  sd_item (name_of p) (map (fun p => (name_of p, f p)) ps) = Ok (f p).
Proof.
  intros H Hin. unfold sd_item. replace (sd_get _ _) with (Some (f p)); auto. symmetry.
  induction ps as [|p' ps IH]; [destruct Hin|]. cbn in *. inversion H as [|? ? N H']; subst.
  destruct (String.eqb_spec (name_of p) (name_of p')) as [E|E].
  - destruct Hin as [->|Hin]; auto. exfalso. apply N. rewrite <- E. apply in_map. exact Hin.
  - destruct Hin as [->|Hin]; [congruence|]. auto.
Qed.

Definition outcome tol (p : parameter) (nv : string * verdict) : Prop :=
  fst nv = name_of p /\ right_verdict tol (by_autodiff p) (by_analytic p) (snd nv).

Lemma count_app l l' : count_passed (l ++ l') = (count_passed l + count_passed l')%nat.
Proof. unfold count_passed. rewrite filter_app, app_length. reflexivity. Qed.

Lemma compare_model_spec tol all : NoDup (map name_of all) -> forall ps, (forall p, In p ps -> In p all /\ comparable p) ->
  forall c out, exists l, foldM (fun cl ng =>
      let '(c, out) := cl in
      b <- sd_item (fst ng) (map (fun p => (name_of p, by_analytic p)) all) ;;
      v <- compare tol (snd ng) b ;;
      Ok (mkCounters (match v with Passed _ => S (passed c) | _ => passed c end) (S (attempted c)), out ++ [(fst ng, v)]))
    (map (fun p => (name_of p, by_autodiff p)) ps) (c, out)
  = Ok (mkCounters (passed c + count_passed l) (attempted c + List.length ps), out ++ l) /\ Forall2 (outcome tol) ps l.
Proof.
  intros Hd. induction ps as [|p ps IH]; intros Hp c out.
  - exists []. cbn. unfold count_passed. cbn. rewrite !Nat.add_0_r, app_nil_r. destruct c; split; [reflexivity|constructor].
  - destruct (Hp p (or_introl eq_refl)) as [Hin Hcmp]. destruct (compare_spec tol p Hcmp) as [v [Ev Hv]].
    cbn [map foldM fst snd]. rewrite (item_of by_analytic all p Hd Hin). cbn [bind]. rewrite Ev. cbn [bind].
    destruct (IH (fun p' H => Hp p' (or_intror H))
       (mkCounters (match v with Passed _ => S (passed c) | _ => passed c end) (S (attempted c))) (out ++ [(name_of p, v)])) as [l [El Hl]].
    exists ((name_of p, v) :: l). rewrite El. split.
    + cbn [passed attempted List.length]. rewrite <- app_assoc. cbn [app]. do 3 f_equal.
      * unfold count_passed. cbn [filter snd]. destruct v; cbn; lia.
      * lia.
    + constructor; auto. split; auto.
Qed.

Lemma check_model_spec tol ps cl : well_named ps -> Forall comparable ps ->
  exists l, check_model tol (gradients_of ps) cl
     = Ok (mkCounters (passed (fst cl) + count_passed l) (attempted (fst cl) + List.length ps), snd cl ++ l) /\ Forall2 (outcome tol) ps l.
Proof.
  intros Hd Hc. unfold check_model, gradients_of. cbn [with_analytic with_autodiff].
  rewrite (collect_all by_analytic ps []) by exact Hd. cbn [bind]. rewrite (collect_all by_autodiff ps []) by exact Hd. cbn [bind app].
  unfold compare_model.
  destruct (compare_model_spec tol ps Hd ps) with (c := fst cl) (out := @nil (string * verdict)) as [l [El Hl]].
  { intros p Hin. split; auto. apply (proj1 (Forall_forall _ _) Hc p Hin). }
  exists l. rewrite El. cbn [bind fst snd app]. auto.
Qed.

Lemma Forall2_concat {A B} (P : A -> B -> Prop) l l' m m' : Forall2 P l l' -> Forall2 P m m' -> Forall2 P (l ++ m) (l' ++ m').
Proof. apply Forall2_app. Qed.

Lemma script_fold tol ms : Forall (fun ps => well_named ps /\ Forall comparable ps) ms -> forall cl,
  exists l, foldM (fun cl g => check_model tol g cl) (map gradients_of ms) cl
     = Ok (mkCounters (passed (fst cl) + count_passed l) (attempted (fst cl) + List.length (List.concat ms)), snd cl ++ l)
     /\ Forall2 (outcome tol) (List.concat ms) l.
Proof.
  induction ms as [|ps ms IH]; intros H cl.
  - exists []. cbn. unfold count_passed. cbn. rewrite !Nat.add_0_r, app_nil_r. destruct cl as [[] ?]. split; [reflexivity|constructor].
  - inversion H as [|? ? [Hw Hc] H']; subst. cbn [map foldM].
    destruct (check_model_spec tol ps cl Hw Hc) as [l [El Hl]]. rewrite El. cbn [bind].
    destruct (IH H' (mkCounters (passed (fst cl) + count_passed l) (attempted (fst cl) + List.length ps), snd cl ++ l)) as [l' [El' Hl']].
    exists (l ++ l'). rewrite El'. cbn [passed attempted fst snd List.concat]. split.
    + rewrite count_app, app_length, <- app_assoc. do 3 f_equal; lia.
    + apply Forall2_app; auto.
Qed.

Lemma count_le l : (count_passed l <= List.length l)%nat.
Proof. unfold count_passed. induction l as [|a l IH]; cbn; [lia|]. destruct (match snd a with Passed _ => true | _ => false end); cbn; lia. Qed.

Lemma count_full l : count_passed l = List.length l <-> Forall (fun nv => is_passed (snd nv)) l.
Proof.
  induction l as [|[n v] l IH].
  - split; auto. 
  - pose proof (count_le l) as Hle. unfold count_passed in *. cbn [filter snd List.length]. destruct v; cbn [List.length].
    + split; [intros H; constructor; [exact I|apply IH; lia]|]. intros H. inversion H; subst. f_equal. apply IH. auto.
    + split; [lia|]. intros H. inversion H as [|? ? Hf]; subst. destruct Hf.
    + split; [lia|]. intros H. inversion H as [|? ? Hf]; subst. destruct Hf.
Qed.

Theorem script_spec tol ms : Forall (fun ps => well_named ps /\ Forall comparable ps) ms ->
  exists out b, script tol (map gradients_of ms) = Ok (count_passed out, List.length (List.concat ms), out, b)
    /\ Forall2 (outcome tol) (List.concat ms) out
    /\ (b = true <-> Forall (fun p => close tol (by_autodiff p) (by_analytic p)) (List.concat ms)).
Proof.
  intros H. destruct (script_fold tol ms H (mkCounters 0 0, [])) as [l [El Hl]].
  unfold script. rewrite El. cbn [bind fst snd passed attempted app Nat.add]. eexists l, _. split; [reflexivity|]. split; auto.
  rewrite Nat.eqb_eq.
  assert (Hlen : List.length (List.concat ms) = List.length l) by (clear -Hl; induction Hl; cbn; auto).
  rewrite Hlen, count_full.
  assert (Hc : Forall comparable (List.concat ms)).
  { clear - H. induction H as [|ps ms [_ Hp] H IH]; cbn; [constructor|]. apply Forall_app. auto. }
  clear - Hl Hc. induction Hl as [|p [n v] lp lv [_ Hv] Hl IH]; [split; constructor|]. inversion Hc as [|? ? Hp Hc']; subst.
  split; intros Hx; inversion Hx as [|? ? Ha Hx']; subst; constructor; try (apply IH; auto).
  - eapply passed_iff; eauto.
  - eapply passed_iff; eauto.
Qed.

Theorem script_equal tol ms : 0 < tol -> Forall (fun ps => well_named ps /\ Forall comparable ps) ms ->
  Forall (fun p => by_autodiff p = by_analytic p) (List.concat ms) ->
  exists out, script tol (map gradients_of ms) = Ok (List.length (List.concat ms), List.length (List.concat ms), out, true).
Proof.
  intros Ht H He. destruct (script_spec tol ms H) as [out [b [E [Ho Hb]]]].
  assert (Hall : Forall (fun p => close tol (by_autodiff p) (by_analytic p)) (List.concat ms)).
  { eapply Forall_impl; [|exact He]. intros p Hp. rewrite Hp. apply close_refl; auto. }
  assert (b = true) by (apply Hb; auto). subst b. exists out. rewrite E. do 4 f_equal.
  assert (Hlen : List.length (List.concat ms) = List.length out) by (clear -Ho; induction Ho; cbn; auto).
  unfold script in E. destruct (foldM _ _ _) as [[c o]|]; cbn in E; [|discriminate].
  injection E as E1 E2 E3 E4. apply Nat.eqb_eq in E4. lia.
Qed.

(** ** What goes wrong *)
Lemma select_zeros n : select (map nonzero (repeat 0 n)) (repeat 0 n) = [].
Proof.
  induction n; [reflexivity|]. cbn [repeat map]. replace (nonzero 0) with false by (symmetry; apply nonzero_false; auto). exact IHn.
Qed.

Theorem zero_gradient_raises tol n : compare tol (repeat 0 n) (repeat 0 n) = Raise RuntimeError.
Proof.
  unfold compare. destruct (all_equal_spec (repeat 0 n) (repeat 0 n) eq_refl) as [r [E Hr]]. rewrite E. cbn [bind].
  assert (r = true) as ->.
  { apply Hr. clear. induction n; constructor; auto; tauto. }
  unfold relative_error. rewrite select_zeros. reflexivity.
Qed.

Theorem nothing_to_check tol : script tol [] = Ok (0%nat, 0%nat, [], true).
Proof. reflexivity. Qed.

Lemma missing_gradient tol name l l' rest :
  script tol (mkGradients ((name, None) :: l) l' :: rest) = Raise AttributeError.
Proof. reflexivity. Qed.

Lemma compare_one tol a b : a <> 0 -> b <> 0 -> compare tol [a] [b] = Ok (if Rlt_dec (Rabs (a / b - 1)) tol then Passed (Rabs (a / b - 1)) else FailedError (Rabs (a / b - 1))).
Proof.
  intros Ha Hb. apply nonzero_true in Ha, Hb. unfold compare, relative_error, select. cbn. rewrite Ha, Hb. cbn. reflexivity.
Qed.

Theorem not_symmetric : exists a b ea eb,
  compare script_tolerance [a] [b] = Ok (Passed ea) /\ compare script_tolerance [b] [a] = Ok (FailedError eb).
Proof.
  exists 1, (1005 / 1000). do 2 eexists. rewrite !compare_one by lra. unfold script_tolerance. split.
  - destruct (Rlt_dec _ _) as [L|L]; [reflexivity|]. exfalso. apply L. rewrite Rabs_left; lra.
  - destruct (Rlt_dec _ _) as [L|L]; [|reflexivity]. exfalso. rewrite Rabs_right in L; lra.
Qed.

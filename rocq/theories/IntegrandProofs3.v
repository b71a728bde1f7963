(** Proofs that states and costates evolve independently of the data. *)
From Coq Require Import List String ZArith QArith Qcanon Bool Lia.
From Verif Require Import Base BaseFacts Tensor TensorFacts ScdModel ScdSpec ScdProofs ParamFuncModel IntegrandModel
  IntegrandSpec IntegrandProofs.
Import ListNotations.
Open Scope nat_scope.

Lemma assemble_dict_elements {A} (d : sdict (tensor A)) v p :
  assemble_generic_dict d = (Some v, p) -> v = flat_map (fun kt => tdata (snd kt)) d.
Proof.
  unfold assemble_generic_dict.
  assert (G : forall d (l : list (list A)) (q : plan), exists q',
    fold_left (fun acc kt => (fst acc ++ [tflatten (snd kt)], sd_set (fst kt) (tshape (snd kt)) (snd acc))) d (l, q)
    = (l ++ map (fun kt => tflatten (snd kt)) d, q')).
  { clear. induction d as [|kt d IH]; intros l q; simpl.
    - exists q. rewrite app_nil_r. reflexivity.
    - destruct (IH (l ++ [tflatten (snd kt)]) (sd_set (fst kt) (tshape (snd kt)) q)) as [q' ->].
      exists q'. rewrite <- app_assoc. reflexivity. }
  destruct (G d [] []) as [q' ->]. simpl. destruct (0 <? _); [|discriminate].
  intro X. injection X as <- _. rewrite flat_map_concat_map. reflexivity.
Qed.

Lemma assemble_dict_none {A} (d : sdict (tensor A)) p : assemble_generic_dict d = (None, p) -> d = [].
Proof.
  unfold assemble_generic_dict.
  assert (G : forall d (l : list (list A)) (q : plan),
    List.length (fst (fold_left (fun acc kt => (fst acc ++ [tflatten (snd kt)], sd_set (fst kt) (tshape (snd kt)) (snd acc))) d (l, q)))
    = List.length l + List.length d).
  { clear. induction d as [|kt d IH]; intros l q; simpl; [lia|]. rewrite IH, app_length. simpl. lia. }
  specialize (G d [] []). destruct (fold_left _ d _) as [l q]. simpl in G.
  destruct (0 <? List.length l) eqn:L; [discriminate|]. apply Nat.ltb_ge in L. destruct d; [reflexivity|simpl in G; lia].
Qed.

Lemma assemble_dict_plan {A} (d : sdict (tensor A)) v : assemble_generic_dict d = (Some v, None) -> False.
Proof.
  unfold assemble_generic_dict. destruct (fold_left _ _ _) as [l q]. destruct (_ <? _); discriminate.
Qed.

Lemma assemble_dicts_elements {A} (d : sdict (sdict (tensor A))) v p :
  assemble_generic_dict_of_dicts d = (Some v, p) -> v = elements d.
Proof.
  unfold assemble_generic_dict_of_dicts, elements.
  assert (G : forall (d : sdict (sdict (tensor A))) acc,
    match fst (fold_left (fun acc kd =>
               match assemble_generic_dict (snd kd) with
               | (Some current_ret, Some current_plan) =>
                   (match fst acc with
                    | None => Some current_ret
                    | Some r => Some (r ++ current_ret)
                    end, pd_set (fst kd) current_plan (snd acc))
               | _ => acc
               end) d acc) with
    | Some v => v = match fst acc with Some a => a | None => [] end ++
                    flat_map (fun kd => flat_map (fun kt => tdata (snd kt)) (snd kd)) d
    | None => True
    end).
  { clear. induction d as [|[k b] d IH]; intros [o q]; simpl.
    - destruct o; [rewrite app_nil_r; reflexivity|exact I].
    - destruct (assemble_generic_dict b) as [[w|] [pl|]] eqn:AB.
      + specialize (IH (match o with Some r => Some (r ++ w) | None => Some w end, pd_set k pl q)).
        simpl in IH. destruct (fst (fold_left _ d _)); [|exact I].
        apply assemble_dict_elements in AB. subst w. rewrite IH. destruct o; [rewrite <- app_assoc|]; reflexivity.
      + exfalso. eapply assemble_dict_plan; eauto.
      + pose proof (assemble_dict_none _ _ AB). subst b. exact (IH (o, q)).
      + pose proof (assemble_dict_none _ _ AB). subst b. exact (IH (o, q)). }
  intro X. specialize (G d (None, [])). rewrite X in G. exact G.
Qed.

Lemma assemble_elements {A} (s c d : sdict (sdict (tensor A))) v ps :
  assemble_tensor s c d = Ok (v, ps) -> v = elements s ++ elements c ++ elements d.
Proof.
  unfold assemble_tensor.
  destruct (assemble_generic_dict_of_dicts s) as [[sv|] sp] eqn:S;
  destruct (assemble_generic_dict_of_dicts c) as [[cv|] cp] eqn:C;
  destruct (assemble_generic_dict_of_dicts d) as [[dv|] dp] eqn:D; try discriminate.
  apply assemble_dicts_elements in S, C, D. subst. intro X. injection X as <- _. reflexivity.
Qed.

Lemma firstn_prefix {A} (a b : list A) : firstn (List.length a) (a ++ b) = a.
Proof. rewrite firstn_app, firstn_all, Nat.sub_diag, app_nil_r. reflexivity. Qed.

(** ** Combining vectors *)
Section Columns.
Context {A : Type}.

Lemma columns_firstn N : forall n1 n2 (vs1 vs2 : list (list A)) c1 c2,
  Forall2 (fun a b => firstn N a = firstn N b) vs1 vs2 -> vs1 <> [] ->
  columns n1 vs1 = Ok c1 -> columns n2 vs2 = Ok c2 -> firstn N c1 = firstn N c2.
Proof.
  induction N as [|N IH]; intros n1 n2 vs1 vs2 c1 c2 F NE C1 C2; [reflexivity|].
  assert (HD : forall a b : list A, firstn (S N) a = firstn (S N) b ->
     match a, b with [], [] => True | x :: a', y :: b' => x = y /\ firstn N a' = firstn N b' | _, _ => False end).
  { intros [|x a] [|y b] X; try discriminate; [exact I|]. simpl in X. injection X as -> X. auto. }
  destruct n1 as [|n1], n2 as [|n2]; simpl in C1, C2.
  - destruct (forallb _ vs1); [|discriminate]. destruct (forallb _ vs2); [|discriminate]. congruence.
  - destruct (forallb _ vs1) eqn:B; [|discriminate]. exfalso.
    destruct F as [|a b vs1 vs2 Fa F]; [contradiction|]. simpl in B. destruct a; [|discriminate].
    apply HD in Fa. destruct b; [|contradiction]. discriminate.
  - destruct (forallb _ vs2) eqn:B; [|discriminate]. exfalso.
    destruct F as [|a b vs1 vs2 Fa F]; [contradiction|]. simpl in B. destruct b; [|discriminate].
    apply HD in Fa. destruct a; [|contradiction]. discriminate.
  - destruct (mapM _ vs1) as [h1|] eqn:H1; [|discriminate]. destruct (mapM _ vs2) as [h2|] eqn:H2; [|discriminate].
    cbn [bind] in C1, C2.
    destruct (columns n1 (map (@tl A) vs1)) as [r1|] eqn:R1; [|discriminate].
    destruct (columns n2 (map (@tl A) vs2)) as [r2|] eqn:R2; [|discriminate].
    injection C1 as <-. injection C2 as <-. simpl. f_equal.
    + clear - F H1 H2 HD. revert h1 h2 H1 H2. induction F as [|a b vs1 vs2 Fa F IH]; intros h1 h2 H1 H2; simpl in *.
      * congruence.
      * apply HD in Fa. destruct a, b; try discriminate. cbn [bind] in H1, H2. destruct Fa as [-> _].
        destruct (mapM _ vs1) as [g1|]; [|discriminate]. destruct (mapM _ vs2) as [g2|]; [|discriminate].
        injection H1 as <-. injection H2 as <-. f_equal. apply IH; reflexivity.
    + eapply (IH n1 n2 (map (@tl A) vs1) (map (@tl A) vs2)); eauto.
      * clear - F HD. induction F as [|a b vs1 vs2 Fa F IH]; constructor; auto.
        apply HD in Fa. destruct a, b; try contradiction; [reflexivity|apply Fa].
      * destruct vs1; [contradiction|discriminate].
Qed.

Lemma combine_firstn N f (vs1 vs2 : list (list A)) y1 y2 :
  Forall2 (fun a b => firstn N a = firstn N b) vs1 vs2 ->
  combine_vectors f vs1 = Ok y1 -> combine_vectors f vs2 = Ok y2 -> firstn N y1 = firstn N y2.
Proof.
  intros F C1 C2. unfold combine_vectors in *.
  destruct vs1 as [|v1 vs1]; [discriminate|]. destruct vs2 as [|v2 vs2]; [discriminate|].
  destruct (columns _ (v1 :: vs1)) as [c1|] eqn:D1; [|discriminate].
  destruct (columns _ (v2 :: vs2)) as [c2|] eqn:D2; [|discriminate].
  injection C1 as <-. injection C2 as <-. rewrite !firstn_map. f_equal.
  eapply columns_firstn; eauto. discriminate.
Qed.

Lemma mapM_items N (env1 env2 : list (list A)) is_ : Forall2 (fun a b => firstn N a = firstn N b) env1 env2 ->
  forall vs1 vs2, mapM (list_item env1) is_ = Ok vs1 -> mapM (list_item env2) is_ = Ok vs2 ->
  Forall2 (fun a b => firstn N a = firstn N b) vs1 vs2.
Proof.
  intro F. induction is_ as [|i is_ IH]; simpl; intros vs1 vs2 M1 M2.
  - injection M1 as <-. injection M2 as <-. constructor.
  - destruct (list_item env1 i) as [a|] eqn:I1; [|discriminate]. destruct (list_item env2 i) as [b|] eqn:I2; [|discriminate].
    cbn [bind] in *. destruct (mapM (list_item env1) is_) as [w1|]; [|discriminate].
    destruct (mapM (list_item env2) is_) as [w2|]; [|discriminate]. injection M1 as <-. injection M2 as <-.
    constructor; [|apply IH; reflexivity].
    clear - F I1 I2. unfold list_item in *. revert i I1 I2. induction F as [|x y e1 e2 Fx F IH]; intros [|i] I1 I2; simpl in *; try discriminate.
    + congruence.
    + eapply IH; eauto.
Qed.
End Columns.

(** ** Disassembling vectors that share a prefix *)
Lemma disassemble_prefix {A} (l1 l2 : list A) ps1 ps2 s1 c1 d1 s2 c2 d2 :
  plans_ok (state_plans ps1) -> plans_ok (costate_plans ps1) ->
  state_plans ps1 = state_plans ps2 -> costate_plans ps1 = costate_plans ps2 ->
  let n := plans_size (state_plans ps1) + plans_size (costate_plans ps1) in
  firstn n l1 = firstn n l2 ->
  disassemble_tensor (vec l1) (Some ps1) 0 = Ok (s1, c1, d1) ->
  disassemble_tensor (vec l2) (Some ps2) 0 = Ok (s2, c2, d2) ->
  s1 = s2 /\ c1 = c2 /\ List.length (elements s1 ++ elements c1) = n.
Proof.
  intros [W1 F1] [W2 F2] ES EC n FN. unfold disassemble_tensor. cbn [Z.eqb orb negb].
  rewrite <- ES, <- EC.
  assert (LE : forall (l : list A) ps d r,
    (bind (disassemble_dict_of_dicts (vec l) (state_plans ps1) 0 0) (fun '(s, i1) =>
     bind (disassemble_dict_of_dicts (vec l) (costate_plans ps1) 0 i1) (fun '(c, i2) =>
     bind (disassemble_dict_of_dicts (vec l) ps 0 i2) (fun '(d, _) => Ok (s, c, d)))))
    = Ok (r, d) -> n <= List.length l /\
      fst r = read_plans (state_plans ps1) l /\
      snd r = read_plans (costate_plans ps1) (skipn (plans_size (state_plans ps1)) l)).
  { clear FN. intros l ps d r X.
    destruct (Nat.le_gt_cases (plans_size (state_plans ps1)) (List.length l)) as [L|L].
    2: { rewrite disassemble_dicts_short' in X by (auto; lia). discriminate. }
    rewrite disassemble_dicts_ok in X by (auto; lia). cbn [bind] in X.
    destruct (Nat.le_gt_cases n (List.length l)) as [L2|L2].
    2: { rewrite disassemble_dicts_short' in X by (auto; unfold n in *; lia). discriminate. }
    rewrite disassemble_dicts_ok in X by (auto; unfold n in *; lia). cbn [bind] in X.
    destruct (disassemble_dict_of_dicts (vec l) ps 0 _) as [[d' ?]|]; [|discriminate]. injection X as <- <-.
    split; [exact L2|]. split; reflexivity. }
  intros X1 X2. destruct (LE _ _ _ _ X1) as (L1 & R1 & Q1). destruct (LE _ _ _ _ X2) as (L2 & R2 & Q2).
  cbn [fst snd] in *. subst.
  assert (RP : forall (ps : pdict plan) (l l' : list A), firstn (plans_size ps) l = firstn (plans_size ps) l' ->
            read_plans ps l = read_plans ps l').
  { clear. induction ps as [|[k p] ps IH]; intros l l' X; [reflexivity|]. simpl in *.
    assert (X1 : firstn (plan_size p) l = firstn (plan_size p) l').
    { apply (f_equal (firstn (plan_size p))) in X. rewrite !firstn_firstn in X.
      rewrite !Nat.min_l in X by lia. exact X. }
    assert (X2 : firstn (plans_size ps) (skipn (plan_size p) l) = firstn (plans_size ps) (skipn (plan_size p) l')).
    { apply (f_equal (skipn (plan_size p))) in X. rewrite !skipn_firstn_comm in X.
      replace (plan_size p + plans_size ps - plan_size p) with (plans_size ps) in X by lia. exact X. }
    rewrite (IH _ _ X2). f_equal. f_equal.
    clear - X1. revert l l' X1. induction p as [|[k s] p IH]; intros l l' X; [reflexivity|]. simpl in *.
    assert (Y1 : firstn (prod s) l = firstn (prod s) l').
    { apply (f_equal (firstn (prod s))) in X. rewrite !firstn_firstn in X. rewrite !Nat.min_l in X by lia. exact X. }
    rewrite Y1. f_equal. apply IH.
    apply (f_equal (skipn (prod s))) in X. rewrite !skipn_firstn_comm in X.
    replace (prod s + plan_size p - prod s) with (plan_size p) in X by lia. exact X. }
  split; [|split].
  - apply RP. apply (f_equal (firstn (plans_size (state_plans ps1)))) in FN. rewrite !firstn_firstn in FN.
    rewrite !Nat.min_l in FN by (unfold n; lia). exact FN.
  - apply RP. apply (f_equal (skipn (plans_size (state_plans ps1)))) in FN. rewrite !skipn_firstn_comm in FN.
    replace (n - plans_size (state_plans ps1)) with (plans_size (costate_plans ps1)) in FN by (unfold n; lia). exact FN.
  - rewrite app_length, !elements_read_plans by (rewrite ?skipn_length; unfold n in *; lia).
    rewrite !firstn_length, skipn_length. unfold n in *. lia.
Qed.

Section Two.
Context {A P E H C : Type}.
Notation istate := (@istate A P E H C).
Notation model := (@model A P E H C).
Notation M := (@M A P E H C).
Variable m : model.

(** Two successful runs from equivalent integrands end in equivalent integrands with related results. *)
Definition two {B D} (R : B -> D -> Prop) (x : M B) (y : M D) : Prop :=
  forall s1 s2 s1' s2' a b, same_integrand m s1 s2 -> x s1 = (s1', Ok a) -> y s2 = (s2', Ok b) ->
    R a b /\ same_integrand m s1' s2'.

Lemma two_bind {B D B' D'} (R : B -> D -> Prop) (R' : B' -> D' -> Prop) x y f g :
  two R x y -> (forall a b, R a b -> two R' (f a) (g b)) -> two R' (mbind x f) (mbind y g).
Proof.
  intros T1 T2 s1 s2 s1' s2' a b S X Y. apply mbind_ok in X, Y.
  destruct X as (u1 & x1 & X1 & X2). destruct Y as (u2 & y1 & Y1 & Y2).
  destruct (T1 _ _ _ _ _ _ S X1 Y1) as [R1 S1]. exact (T2 _ _ R1 _ _ _ _ _ _ S1 X2 Y2).
Qed.

Lemma two_lift {B} (r : result B) : two eq (lift r) (lift r).
Proof. intros s1 s2 s1' s2' a b S X Y. unfold lift in *. injection X as <- ->. injection Y as <- Y. split; [congruence|exact S]. Qed.

Lemma two_lift_any {B D} (r : result B) (r' : result D) : two (fun _ _ => True) (lift r) (lift r').
Proof. intros s1 s2 s1' s2' a b S X Y. unfold lift in *. injection X as <- ->. injection Y as <- Y. split; [exact I|exact S]. Qed.

Lemma two_read_any {B D} (r : istate -> result B) (r' : istate -> result D) :
  two (fun _ _ => True) (fun s => (s, r s)) (fun s => (s, r' s)).
Proof. intros s1 s2 s1' s2' a b S X Y. injection X as <- X. injection Y as <- Y. split; [exact I|exact S]. Qed.

Lemma two_ret {B D} (R : B -> D -> Prop) a b : R a b -> two R (ret a) (ret b).
Proof. intros Rab s1 s2 s1' s2' x y S X Y. unfold ret in *. injection X as <- <-. injection Y as <- <-. auto. Qed.

Lemma two_raise {B D} (R : B -> D -> Prop) e y : two R (raise e : M B) (y : M D).
Proof. intros s1 s2 s1' s2' a b S X. discriminate. Qed.

Ltac same := unfold same_integrand in *; simpl; intuition congruence.

Lemma two_parameters t c : two eq (current_parameters t c) (current_parameters t c).
Proof.
  intros s1 s2 s1' s2' a b S X Y. pose proof S as (R1 & R2 & R3 & R4 & R5 & R7 & R8 & R6).
  unfold current_parameters in *. rewrite <- R1, <- R2, <- R3, <- R4 in Y.
  destruct (s_rnn_mode s1); [destruct (s_external s1)|].
  - destruct (s_func s1); [|discriminate]. destruct (get_parameters_at_time _ _) as [[pp f']|]; [|discriminate].
    injection X as <- <-. injection Y as <- <-. split; [reflexivity|same].
  - destruct (s_rnn s1) eqn:N1.
    + injection X as <- <-. injection Y as <- <-. split; [reflexivity|exact S].
    + destruct c; [|discriminate]. injection X as <- <-. injection Y as <- <-. split; [reflexivity|same].
  - injection X as <- ->. injection Y as <- Y. split; [congruence|exact S].
Qed.

Lemma two_penalty t te p st co : two eq (update_penalty m t te p st co) (update_penalty m t te p st co).
Proof.
  intros s1 s2 s1' s2' [] [] S X Y. split; [reflexivity|]. pose proof S as (R1 & R2 & R3 & R4 & R5 & R7 & R8 & R6).
  unfold update_penalty in *. destruct (qeq t 0%Qc).
  - rewrite <- R2, <- R3 in Y. destruct (s_external s1).
    + destruct (s_func s1); [|discriminate]. destruct (mean_energy _ _ _); [|discriminate].
      injection X as <-. injection Y as <-. same.
    + destruct (m_kinetic _ _ _ _); [|discriminate]. injection X as <-. injection Y as <-. same.
  - injection X as <-. injection Y as <-. exact S.
Qed.

Lemma two_lagrangian t st co : two eq (lagrangian_parameters m t st co) (lagrangian_parameters m t st co).
Proof.
  intros s1 s2 s1' s2' a b S X Y. pose proof S as (R1 & R2 & R3 & R4 & R5 & R7 & R8 & R6).
  unfold lagrangian_parameters in *. rewrite <- R1, <- R2, <- R3, <- R4 in Y.
  destruct (s_rnn_mode s1); [destruct (s_external s1)|].
  - destruct (s_func s1); discriminate.
  - destruct (s_rnn s1) eqn:N1.
    + injection X as <- <-. injection Y as <- <-. split; [reflexivity|exact S].
    + destruct (m_parameters _ _ _ _); [|discriminate]. injection X as <- <-. injection Y as <- <-. split; [reflexivity|same].
  - injection X as <- X. injection Y as <- Y. split; [congruence|exact S].
Qed.

Definition agree (g1 g2 : @gradients A P) : Prop :=
  fst (fst (fst g1)) = fst (fst (fst g2)) /\ snd (fst (fst g1)) = snd (fst (fst g2)) /\ snd g1 = snd g2.

Lemma two_core t st co da1 da2 : two agree (core m t st co da1) (core m t st co da2).
Proof.
  unfold core. destruct (m_analytic m) eqn:AN.
  - unfold compute_gradients_analytic. destruct (_ || _); [apply two_raise|].
    eapply two_bind; [apply two_lift|]. intros sd ? <-.
    eapply two_bind; [apply two_lift|]. intros cd ? <-.
    eapply two_bind; [apply two_parameters|]. intros p ? <-.
    eapply two_bind; [apply two_penalty|]. intros u ? <-.
    eapply two_bind; [apply two_lift|]. intros dst ? <-.
    eapply two_bind; [apply two_read_any|]. intros dda1 dda2 _.
    eapply two_bind; [instantiate (1 := eq)|].
    + intros s1 s2 s1' s2' a b S X Y. pose proof S as (_ & _ & _ & _ & _ & _ & _ & R6). rewrite (R6 AN) in X.
      injection X as <- X. injection Y as <- Y. split; [congruence|exact S].
    + intros dco ? <-. apply two_ret. repeat split.
  - unfold compute_gradients_autodiff.
    eapply two_bind; [apply two_parameters|]. intros p ? <-.
    eapply two_bind; [apply two_penalty|]. intros u ? <-.
    eapply two_bind; [apply two_lift|]. intros dst ? <-.
    eapply two_bind; [apply two_read_any|]. intros dda1 dda2 _.
    eapply two_bind; [instantiate (1 := eq)|].
    + unfold rhs_costate_autodiff.
      eapply two_bind; [apply two_lagrangian|]. intros q ? <-.
      eapply two_bind; [apply two_lift|]. intros ? ? <-.
      eapply two_bind; [apply two_lift|]. intros ? ? <-.
      eapply two_bind; [apply two_lift|]. intros ? ? <-.
      eapply two_bind; [apply two_lift|]. intros ? ? <-. apply two_lift.
    + intros dco ? <-. apply two_ret. repeat split.
Qed.

Lemma two_gradients t st co da1 da2 :
  two agree (compute_gradients m t st co da1) (compute_gradients m t st co da2).
Proof.
  intros s1 s2 s1' s2' a b S. rewrite !compute_gradients_core.
  destruct (core m t st co da1 s1) as [u1 [[[[x1 y1] z1] p1]|]] eqn:K1; [|discriminate].
  destruct (core m t st co da2 s2) as [u2 [[[[x2 y2] z2] p2]|]] eqn:K2; [|discriminate].
  destruct (two_core t st co da1 da2 _ _ _ _ _ _ S K1 K2) as [G S'].
  pose proof (quiet_core m t st co da1 s1) as [(Q1 & _) _]. rewrite K1 in Q1. cbn [fst] in Q1.
  destruct (run_hooks m _ _ u1) as [v1 [w1|]] eqn:R1; [|discriminate].
  destruct (run_hooks m _ _ u2) as [v2 [w2|]] eqn:R2; [|discriminate].
  intros X Y. injection X as <- <-. injection Y as <- <-. split; [exact G|].
  apply run_hooks_spec in R1, R2. destruct R1 as ((A0 & _ & _ & A1 & A2 & _ & A3) & A4 & A5 & A6 & l1 & e1 & L1 & C1 & N1).
  destruct R2 as ((B0 & _ & _ & B1 & B2 & _ & B3) & B4 & B5 & B6 & l2 & e2 & L2 & C2 & N2).
  subst e1 e2. rewrite app_nil_r in L1, L2.
  unfold same_integrand in *. rewrite A0, A1, A2, A3, A4, A5, A6, B0, B1, B2, B3, B4, B5, B6.
  destruct S' as (S1 & S2 & S3 & S4 & S5 & S6 & S7 & S8). repeat (split; [assumption|]).
  split; [|exact S8]. rewrite C1, C2, !map_app, S7. f_equal. rewrite <- L1, <- L2, <- S6, !map_map.
  apply map_ext. intros [i h]. destruct G as (G1 & G2 & G3). simpl in G1, G2, G3. subst. reflexivity.
Qed.

Lemma transpose_dicts_ok (d d' : sdict (sdict (tensor A))) : transpose_dicts d = Ok d' -> d = [] /\ d' = [].
Proof. destruct d as [|[k b] d]; intro X; [injection X as <-; auto|discriminate]. Qed.

Lemma forward_ok t x s s' y : forward m t x s = (s', Ok y) ->
  exists st co da dst dco dda p, disassemble_tensor (vec x) (s_plans s) 0 = Ok (st, co, da) /\
    compute_gradients m t st co da s = (s', Ok (dst, dco, dda, p)) /\
    y = elements dst ++ elements dco ++ elements dda.
Proof.
  unfold forward. intro X. apply mbind_ok in X. destruct X as (u & [[st co] da] & D & X).
  unfold integrand_disassemble in D. injection D as <- D.
  apply mbind_ok in X. destruct X as (u1 & [[st1 co1] da1] & T & X).
  apply mbind_ok in X. destruct X as (u2 & [[[dst dco] dda] p] & G & X).
  apply mbind_ok in X. destruct X as (u3 & [[dst1 dco1] dda1] & T2 & X).
  apply mbind_ok in X. destruct X as (u4 & [o ps] & AS & X). injection AS as <- AS. injection X as <- <-.
  destruct (m_transpose m).
  - exfalso. apply mbind_ok in T2. destruct T2 as (? & d1 & T2 & T3). injection T2 as <- T2.
    apply transpose_dicts_ok in T2. destruct T2 as [-> ->].
    apply mbind_ok in T3. destruct T3 as (? & d2 & T3 & T4).
    apply mbind_ok in T4. destruct T4 as (? & d3 & T4 & T5). injection T5 as _ <- _ _. 
    unfold assemble_tensor in AS. cbn in AS. destruct (assemble_generic_dict_of_dicts dco1).
    destruct (assemble_generic_dict_of_dicts dda1). discriminate.
  - injection T as <- <- <- <-. injection T2 as <- <- <- <-. apply assemble_elements in AS.
    exists st, co, da, dst, dco, dda, p. auto.
Qed.

Section Scheme.
Variables ps1 ps2 : plans.
Hypothesis ok1 : plans_ok (state_plans ps1).
Hypothesis ok2 : plans_ok (costate_plans ps1).
Hypothesis same1 : state_plans ps1 = state_plans ps2.
Hypothesis same2 : costate_plans ps1 = costate_plans ps2.
Hypothesis SZ : sized m.
Let n := plans_size (state_plans ps1) + plans_size (costate_plans ps1).

Lemma two_forward t x1 x2 s1 s2 s1' s2' y1 y2 : firstn n x1 = firstn n x2 ->
  s_plans s1 = Some ps1 -> s_plans s2 = Some ps2 -> same_integrand m s1 s2 ->
  forward m t x1 s1 = (s1', Ok y1) -> forward m t x2 s2 = (s2', Ok y2) ->
  firstn n y1 = firstn n y2 /\ same_integrand m s1' s2'.
Proof.
  intros F P1 P2 S X1 X2. apply forward_ok in X1, X2.
  destruct X1 as (st1 & co1 & da1 & dst1 & dco1 & dda1 & p1 & D1 & G1 & ->).
  destruct X2 as (st2 & co2 & da2 & dst2 & dco2 & dda2 & p2 & D2 & G2 & ->).
  rewrite P1 in D1. rewrite P2 in D2.
  destruct (disassemble_prefix _ _ _ _ _ _ _ _ _ _ ok1 ok2 same1 same2 F D1 D2) as (<- & <- & L). fold n in L.
  destruct (two_gradients t st1 co1 da1 da2 _ _ _ _ _ _ S G1 G2) as [(A1 & A2 & A3) S']. simpl in A1, A2, A3. subst.
  split; [|exact S']. pose proof (SZ _ _ _ _ _ _ _ _ _ _ G1) as K. rewrite L in K.
  rewrite !app_assoc. rewrite <- K. rewrite !firstn_prefix. reflexivity.
Qed.

Lemma two_scheme prog : forall env1 env2 s1 s2 s1' s2' o1 o2,
  Forall2 (fun a b => firstn n a = firstn n b) env1 env2 ->
  s_plans s1 = Some ps1 -> s_plans s2 = Some ps2 -> same_integrand m s1 s2 ->
  run_scheme m prog env1 s1 = (s1', Ok o1) -> run_scheme m prog env2 s2 = (s2', Ok o2) ->
  Forall2 (fun a b => firstn n a = firstn n b) o1 o2 /\ same_integrand m s1' s2'.
Proof.
  induction prog as [|[t i|f is_] prog IH]; intros env1 env2 s1 s2 s1' s2' o1 o2 F P1 P2 S X1 X2.
  - injection X1 as <- <-. injection X2 as <- <-. auto.
  - cbn [run_scheme] in X1, X2. apply mbind_ok in X1, X2.
    destruct X1 as (u1 & x1 & I1 & X1). injection I1 as <- I1. destruct X2 as (u2 & x2 & I2 & X2). injection I2 as <- I2.
    apply mbind_ok in X1, X2. destruct X1 as (u1 & y1 & Y1 & X1). destruct X2 as (u2 & y2 & Y2 & X2).
    assert (FX : firstn n x1 = firstn n x2).
    { pose proof (mapM_items n env1 env2 [i] F [x1] [x2]) as Q. simpl in Q. rewrite I1, I2 in Q.
      specialize (Q eq_refl eq_refl). inversion Q; assumption. }
    destruct (two_forward _ _ _ _ _ _ _ _ _ FX P1 P2 S Y1 Y2) as [FY S'].
    pose proof (forward_frame m t x1 s1) as FR1. rewrite Y1 in FR1. destruct FR1 as (_ & _ & _ & _ & _ & PL1 & _).
    pose proof (forward_frame m t x2 s2) as FR2. rewrite Y2 in FR2. destruct FR2 as (_ & _ & _ & _ & _ & PL2 & _).
    cbn [fst] in *. eapply IH; [| | |exact S'|exact X1|exact X2]; try congruence.
    apply Forall2_app; [exact F|]. constructor; [exact FY|constructor].
  - cbn [run_scheme] in X1, X2. apply mbind_ok in X1, X2.
    destruct X1 as (u1 & y1 & I1 & X1). injection I1 as <- I1. destruct X2 as (u2 & y2 & I2 & X2). injection I2 as <- I2.
    destruct (mapM (list_item env1) is_) as [vs1|] eqn:M1; [|discriminate].
    destruct (mapM (list_item env2) is_) as [vs2|] eqn:M2; [|discriminate]. cbn [bind] in I1, I2.
    eapply IH; [| | |exact S|exact X1|exact X2]; try assumption.
    apply Forall2_app; [exact F|]. constructor; [|constructor].
    eapply combine_firstn; [|exact I1|exact I2]. eapply mapM_items; eauto.
Qed.
End Scheme.

Lemma assemble_plans_ok (st co da : sdict (sdict (tensor A))) x ps :
  dicts_wf st -> dicts_wf co -> ranked st -> ranked co -> assemble_tensor st co da = Ok (x, ps) ->
  plans_ok (state_plans ps) /\ plans_ok (costate_plans ps) /\
  state_plans ps = plans_of (nonempty_blocks st) /\ costate_plans ps = plans_of (nonempty_blocks co).
Proof.
  intros W1 W2 R1 R2. unfold assemble_tensor.
  rewrite !assemble_dicts_spec by (try apply dicts_wf_inner; auto; apply W1 || apply W2).
  destruct (assemble_generic_dict_of_dicts da) as [dv dp].
  destruct (opt_app None st); [|discriminate]. destruct (opt_app None co); [|discriminate]. destruct dv; [|discriminate].
  intro X. injection X as _ <-. simpl.
  split; [|split; [|split; reflexivity]]; unfold plans_ok; apply plans_of_ok;
    try apply nonempty_wf; try apply nonempty_ranked; auto.
Qed.

Lemma noninterference st co da1 da2 x1 x2 ps1 ps2 s1 s2 s1' s2' prog env1 env2 :
  sized m -> dicts_wf st -> dicts_wf co -> ranked st -> ranked co ->
  assemble_tensor st co da1 = Ok (x1, ps1) -> assemble_tensor st co da2 = Ok (x2, ps2) ->
  s_plans s1 = Some ps1 -> s_plans s2 = Some ps2 -> same_integrand m s1 s2 ->
  run_scheme m prog [x1] s1 = (s1', Ok env1) -> run_scheme m prog [x2] s2 = (s2', Ok env2) ->
  Forall2 (fun v1 v2 => forall a1 b1 d1 a2 b2 d2,
     disassemble_tensor (vec v1) (Some ps1) 0 = Ok (a1, b1, d1) ->
     disassemble_tensor (vec v2) (Some ps2) 0 = Ok (a2, b2, d2) -> a1 = a2 /\ b1 = b2) env1 env2 /\
  same_integrand m s1' s2'.
Proof.
  intros SZ W1 W2 R1 R2 AS1 AS2 P1 P2 S X1 X2.
  destruct (assemble_plans_ok _ _ _ _ _ W1 W2 R1 R2 AS1) as (O1 & O2 & E1 & E2).
  destruct (assemble_plans_ok _ _ _ _ _ W1 W2 R1 R2 AS2) as (_ & _ & E3 & E4).
  assert (S1 : state_plans ps1 = state_plans ps2) by congruence.
  assert (S2 : costate_plans ps1 = costate_plans ps2) by congruence.
  assert (L : plans_size (state_plans ps1) + plans_size (costate_plans ps1) = List.length (elements st ++ elements co)).
  { rewrite E1, E2, !plans_size_of by (apply nonempty_wf; assumption). rewrite app_length, !elements_nonempty. reflexivity. }
  destruct (two_scheme ps1 ps2 O1 O2 S1 S2 SZ prog [x1] [x2] s1 s2 s1' s2' env1 env2) as [F S']; auto.
  - constructor; [|constructor]. rewrite L. apply assemble_elements in AS1, AS2. subst.
    rewrite !app_assoc, !firstn_prefix. reflexivity.
  - split; [|exact S']. clear X1 X2. induction F as [|v1 v2 e1 e2 FV F IHF]; constructor; [|exact IHF]. intros a1 b1 d1 a2 b2 d2 D1 D2.
    destruct (disassemble_prefix _ _ _ _ _ _ _ _ _ _ O1 O2 S1 S2 FV D1 D2) as (-> & -> & _). auto.
Qed.

(** A model evaluated analytically on blocks has the sizes right if its equations have. *)
Lemma sized_analytic_blocks : m_analytic m = true -> m_concatenate m = false ->
  (forall t st p d, m_rhs_blocks m t st p = Ok d -> List.length (elements d) = List.length (elements st)) ->
  (forall t st co p d, m_costate_blocks m t st co p = Ok d -> List.length (elements d) = List.length (elements co)) ->
  sized m.
Proof.
  intros AN CC R1 R2 t st co da s s' dst dco dda p X. rewrite compute_gradients_core in X.
  destruct (core m t st co da s) as [s1 [[[[a b] c] q]|]] eqn:K; [|discriminate].
  destruct (run_hooks _ _ _ _) as [s2 [u|]]; [|discriminate]. injection X as <- <- <- <- <-.
  unfold core in K. rewrite AN in K. unfold compute_gradients_analytic in K. destruct (_ || _); [discriminate|].
  apply mbind_ok in K. destruct K as (? & ? & _ & K). apply mbind_ok in K. destruct K as (? & ? & _ & K).
  apply mbind_ok in K. destruct K as (? & p1 & _ & K). apply mbind_ok in K. destruct K as (? & ? & _ & K).
  apply mbind_ok in K. destruct K as (? & d1 & K1 & K). apply mbind_ok in K. destruct K as (? & ? & _ & K).
  apply mbind_ok in K. destruct K as (? & d2 & K2 & K). injection K as _ <- <- _ _.
  injection K1 as _ K1. injection K2 as _ K2.
  unfold rhs_state in K1. unfold rhs_costate_analytic in K2. rewrite CC in K1, K2.
  apply R1 in K1. apply R2 in K2. rewrite !app_length. congruence.
Qed.
End Two.

(** Recordings and the complexity measure. *)
From Coq Require Import List String Arith ZArith QArith Qcanon Qreals Reals Lia Lra Bool Sorting.Sorted.
From Verif Require Import Base Tensor IntegratorModel GridProofs FixedGridModel FixedGridSpec FixedGridProofs.
From Verif Require Import EnergyModel HooksModel HooksSpec HooksProofs ComplexityModel ComplexitySpec ComplexityProofs RecordModel RecordSpec RecordProofs.
Import ListNotations.
Open Scope string_scope.
Open Scope list_scope.
Open Scope nat_scope.

Section Recorded.
Context {X : Type}.
Variables nuc spec : tensor R -> R.
Variable f : Qc -> X -> X.
Variable args : Qc -> X -> hook_args.
Hypothesis usual : usual_arguments args.
Let at_call (c : Qc * X) : hook_args := args (fst c) (snd c).
Let hook (c : Qc * X) (h : hook_data) : hook_data := snd (parameter_evolution_hook nuc spec (at_call c) h).
Let good (h : hook_data) : Prop := exists d, h = HRecord d.

Lemma hook_good c h : good h -> good (hook c h).
Proof.
  intros (d & ->). unfold hook, parameter_evolution_hook.
  destruct (record_parameters (h_pars (at_call c)) (append_to d ("t", VNum (h_t (at_call c))))) as (d1, e).
  destruct (compute_parameter_norms nuc spec (h_pars (at_call c))); eexists; reflexivity.
Qed.

Lemma hooked_ok t y h : good h -> hooked nuc spec f args t y h = (Ok (f t y), hook (t, y) h) /\ good (hook (t, y) h).
Proof.
  intros G. split; [|apply hook_good, G]. unfold hooked, hook, at_call. cbn [fst snd]. destruct G as (d & ->).
  destruct (usual t y) as (_ & A & O).
  assert (R1 : fst (run_hook nuc spec [args t y] (HRecord d)) = Ok tt).
  { apply (proj2 (run_ok_iff nuc spec [args t y] (Forall_cons _ A (Forall_nil _)) d)). constructor; [exact O|constructor]. }
  cbn [run_hook] in R1. destruct (parameter_evolution_hook nuc spec (args t y) (HRecord d)) as ([u|e], d'); [reflexivity|discriminate R1].
Qed.

Lemma after_run calls : forall h, good h -> run_hook nuc spec (map at_call calls) h = (Ok tt, after hook calls h).
Proof.
  induction calls as [|c calls IH]; intros h G; [reflexivity|]. cbn [map run_hook]. unfold after. cbn [fold_left].
  destruct c as (t, y). assert (E := proj1 (hooked_ok t y h G)). assert (G' := hook_good (t, y) h G). unfold hooked in E.
  unfold at_call at 1. cbn [fst snd]. unfold hook at 2. unfold hook in G'. unfold at_call in G' |- * at 2. cbn [fst snd] in G' |- *.
  destruct (parameter_evolution_hook nuc spec (args t y) h) as ([u|e], d'); [|discriminate E]. cbn [snd] in G' |- *. apply IH, G'.
Qed.

Lemma recorded_ok calls : Forall args_ok (map at_call calls).
Proof. apply Forall_forall. intros a I. apply in_map_iff in I as (c & <- & _). apply usual. Qed.

(** The record of a list of evaluations. *)
Lemma record_series calls : exists d, after hook calls (HRecord []) = HRecord d /\
  series d "t" = map (fun c => VNum (qr (fst c))) calls /\
  series d "sum_sqr_frobenius_norm" = map (fun c => VNum (sum_of_norms sum_squares (h_pars (at_call c)))) calls /\
  series d "sum_sqr_nuclear_norm" = map (fun c => VNum (sum_of_norms (fun t => nuc t ^ 2)%R (h_pars (at_call c)))) calls /\
  series d "sum_sqr_spectral_norm" = map (fun c => VNum (sum_of_norms (fun t => spec t ^ 2)%R (h_pars (at_call c)))) calls.
Proof.
  assert (G0 : good (HRecord [])) by (eexists; reflexivity).
  assert (E := after_run calls _ G0).
  assert (G : good (after hook calls (HRecord []))).
  { apply (good_after f good hook (hooked nuc spec f args)); [|exact G0]. intros t y h. apply hooked_ok. }
  destruct G as (d & D). exists d. split; [exact D|]. rewrite D in E. assert (A := recorded_ok calls).
  rewrite (series_time nuc spec _ _ A E). destruct (series_sums nuc spec _ _ A E) as (-> & -> & ->). rewrite !map_map.
  split; [|auto]. apply map_ext. intros c. f_equal. apply usual.
Qed.
End Recorded.

Lemma numeric_get d k l : series d k = map VNum l -> l <> [] -> sd_get k (numeric d) = Some l.
Proof.
  unfold series, pd_get, numeric. intros E N. assert (M : sd_get k d = Some (map VNum l)).
  { destruct (sd_get k d) as [v|] eqn:G; [congruence|]. destruct l; [congruence|discriminate E]. }
  clear E. induction d as [|(k', v) d IH]; [discriminate M|]. cbn [map sd_get fst snd] in *.
  destruct (String.eqb k k'); [|apply IH, M]. injection M as ->. f_equal. clear. induction l as [|x l IH]; [reflexivity|]. cbn. rewrite IH. reflexivity.
Qed.

(** ** Adding up *)
Open Scope R_scope.
(** The measure of a list of recordings, each a time and a value. *)
Definition cx (l : list (R * R)) : R := complexity (map fst l) (map snd l).

Lemma cx_cons p q l : cx (p :: q :: l) = Rmax 0 (fst q - fst p) * (ln ((snd p + snd q) / 2) / ln 2) + cx (q :: l).
Proof. reflexivity. Qed.

Lemma cx_app l1 : forall p q l2, cx ((l1 ++ [p]) ++ q :: l2) = cx (l1 ++ [p]) + Rmax 0 (fst q - fst p) * (ln ((snd p + snd q) / 2) / ln 2) + cx (q :: l2).
Proof.
  induction l1 as [|r l1 IH]; intros p q l2.
  - cbn [app]. rewrite cx_cons. change (cx [p]) with 0. ring.
  - destruct l1 as [|s l1]; cbn [app] in *.
    + rewrite !cx_cons. change (cx [p]) with 0. ring.
    + rewrite !(cx_cons r s). rewrite IH. ring.
Qed.

Definition head_time (l : list (R * R)) : R := fst (hd (0, 0) l).
Definition end_time (l : list (R * R)) : R := fst (last l (0, 0)).

(** Each part starts not later than the one before ends. *)
Fixpoint linked_le (ls : list (list (R * R))) : Prop :=
  match ls with
  | l :: ((l' :: _) as r) => head_time l' <= end_time l /\ linked_le r
  | _ => True
  end.

Lemma cx_join l1 l2 : l1 <> [] -> l2 <> [] -> head_time l2 <= end_time l1 -> cx (l1 ++ l2) = cx l1 + cx l2.
Proof.
  intros N1 N2 L. destruct l2 as [|q l2]; [congruence|]. rewrite (app_removelast_last (0, 0) N1) in *.
  rewrite cx_app. unfold head_time, end_time in L. rewrite last_last in L. cbn [hd] in L. rewrite Rmax_left by lra. ring.
Qed.

Definition sum (l : list R) : R := fold_right Rplus 0 l.

Lemma head_app l1 l2 : l1 <> [] -> head_time (l1 ++ l2) = head_time l1.
Proof. destruct l1; [congruence|reflexivity]. Qed.

Lemma end_app l1 l2 : l2 <> [] -> end_time (l1 ++ l2) = end_time l2.
Proof. intros N. unfold end_time. rewrite (app_removelast_last (0, 0) N), app_assoc, !last_last. reflexivity. Qed.

Lemma concat_nonempty (l : list (R * R)) ls : l <> [] -> List.concat (l :: ls) <> [].
Proof. destruct l; [congruence|discriminate]. Qed.

Lemma cx_concat ls : Forall (fun l => l <> []) ls -> linked_le ls -> cx (List.concat ls) = sum (map cx ls).
Proof.
  induction ls as [|l ls IH]; intros N L; [reflexivity|]. inversion N as [|? ? N1 N2]; subst. cbn [List.concat map sum fold_right].
  destruct ls as [|l' ls]; [cbn; rewrite app_nil_r; ring|]. destruct L as (L1 & L2).
  inversion N2 as [|? ? N3 _]; subst.
  rewrite cx_join; [|exact N1|apply concat_nonempty, N3|].
  - rewrite IH by assumption. reflexivity.
  - cbn [List.concat]. rewrite head_app by exact N3. exact L1.
Qed.

Lemma linked_app ls1 : forall ls2, Forall (fun l => l <> []) (ls1 ++ ls2) -> linked_le ls1 -> linked_le ls2 ->
  head_time (List.concat ls2) <= end_time (List.concat ls1) \/ ls1 = [] \/ ls2 = [] -> linked_le (ls1 ++ ls2).
Proof.
  induction ls1 as [|l ls1 IH]; intros ls2 N L1 L2 J; [exact L2|].
  destruct ls1 as [|l' ls1].
  - cbn [app]. destruct ls2 as [|m ls2]; [exact I|]. destruct J as [J|[J|J]]; [|discriminate J|discriminate J]. split; [|exact L2].
    inversion N as [|? ? _ N2]; subst. inversion N2 as [|? ? N3 _]; subst.
    cbn [List.concat] in J. rewrite app_nil_r, head_app in J by exact N3. exact J.
  - change ((l :: l' :: ls1) ++ ls2) with (l :: l' :: (ls1 ++ ls2)). destruct L1 as (LA & LB).
    inversion N as [|? ? _ N2]; subst. split; [exact LA|]. apply (IH ls2 N2 LB L2).
    destruct J as [J|[J|J]]; [left|discriminate J|right; right; exact J].
    cbn [List.concat] in J |- *. rewrite end_app in J; [exact J|].
    inversion N2 as [|? ? N3 _]; subst. destruct l'; [congruence|discriminate].
Qed.

(** Constant values: the elapsed time counts. *)
Lemma cx_constant c l : Forall (fun p => snd p = c) l -> StronglySorted Rle (map fst l) -> l <> [] ->
  cx l = (end_time l - head_time l) * (ln c / ln 2).
Proof.
  induction l as [|p l IH]; intros C S N; [congruence|]. destruct l as [|q l].
  - unfold end_time, head_time. cbn. ring.
  - inversion C as [|? ? C1 C2]; subst. inversion C2 as [|? ? C3 _]; subst. rewrite cx_cons. cbn [map] in S. inversion S as [|? ? S1 F]; subst.
    inversion F as [|? ? F1 _]; subst. rewrite IH; [|exact C2|exact S1|discriminate]. rewrite Rmax_right by lra. rewrite C3.
    replace ((snd p + snd p) / 2) with (snd p) by lra. unfold end_time, head_time. cbn [hd].
    change (last (p :: q :: l) (0, 0)) with (last (q :: l) (0, 0)). ring.
Qed.

(** Cases for the tensorboard hook. *)
From Coq Require Import List String Arith ZArith QArith Qcanon Reals Bool Lia Sorting.Sorted.
From Verif Require Import Base Tensor EnergyModel IntegratorModel GridProofs FixedGridModel FixedGridSpec FixedGridProofs RecordModel RecordSpec RecordProofs RecordProofs3.
From Verif Require Import VecModel TensorboardModel TensorboardSpec TensorboardProofs TensorboardProofs2.
Import ListNotations.
Open Scope string_scope.
Open Scope list_scope.
Open Scope nat_scope.

(** Without hook data the first evaluation raises. *)
Lemma no_data_pass (X : Type) (add : X -> X -> X) (mul : Qc -> X -> X) f parameters name h x t log :
  In name ["euler"; "midpoint"; "rk4"] -> (0 < h)%Qc -> 2 <= List.length t -> StronglySorted Qclt t ->
  forward_pass add mul f parameters name h None x t log = (Raise TypeError, log).
Proof.
  intros IN Hh L S. unfold forward_pass.
  assert (exists se, method_eff add mul (with_tensorboard f parameters None) name = Some se /\ forall a dt y lg, se a dt y lg = (Raise TypeError, lg))
    as (se & -> & R).
  { destruct IN as [<-|[<-|[<-|[]]]]; eexists; split; try reflexivity. }
  destruct t as [|t0 ts]; [cbn in L; lia|].
  assert (AE : (t0 <= final_time (t0 :: ts))%Qc) by (apply sorted_last, S).
  destruct (step_grid_walk h t0 _ Hh AE) as (n & C & SG).
  destruct (walk_sorted h _ Hh n t0 C) as (SW & LW).
  assert (LI : forall l (d : Qc), l <> [] -> last_item l = Ok (last l d)).
  { intros l d N. rewrite (app_removelast_last d N) at 1. apply last_item_app. }
  assert (W : exists b g, walk h t0 (final_time (t0 :: ts)) n = b :: g).
  { destruct n as [|n]; [|cbn [walk]; destruct n; eauto].
    exfalso. apply count_0_inv in C. destruct ts as [|s ts]; [cbn in L; lia|].
    assert (B := sorted_below t0 (s :: ts) S s 0%Qc (or_introl eq_refl)). unfold final_time in C. rewrite C in B.
    inversion S as [|? ? _ F]; subst. inversion F as [|? ? F1 _]; subst. qc. }
  unfold fixed_grid_eff. rewrite (proj2 (increasing_sorted _) S). cbn [negb].
  rewrite (LI (t0 :: ts) 0%Qc) by discriminate. fold (final_time (t0 :: ts)). cbn [bind]. rewrite SG. cbn [bind].
  rewrite (LI (t0 :: walk _ _ _ _) 0%Qc) by discriminate. rewrite LW. cbn [bind].
  rewrite !(proj2 (qc_eq_bool_true _ _) eq_refl). cbn [andb]. destruct W as (b & g & ->).
  cbn [march_eff]. unfold then_. rewrite R. reflexivity.
Qed.

(** Parameters with a matrix and a bias of two numbers, depending on the state. *)
Definition ex_pars (_ : Qc) (y : Qc) : pobjs :=
  [("l1", mkPobj [("weight", mkT [1; 2] [1; Q2R (this y)]%R); ("bias", mkT [2] [0; Q2R (this y)]%R)] [])].
Definition ex_shown (k : Z) (y : Qc) : list entry :=
  [Scalar "bias0" 0%R k; Scalar "bias1" (Q2R (this y)) k; Image "weight" (mkT [1; 2] [1; Q2R (this y)]%R) k].

Lemma ex_shows k y : shows k (ex_pars 0%Qc y) (ex_shown k y).
Proof.
  exists (mkT [1; 2] [1; Q2R (this y)]%R), (mkT [2] [0; Q2R (this y)]%R), 2, [], 0%R, (Q2R (this y)), [].
  split; [eexists; split; [reflexivity|split; reflexivity]|]. do 3 (split; [reflexivity|]). split; [lia|]. split; reflexivity.
Qed.

Lemma ex_proper y : proper (ex_pars 0%Qc y).
Proof. intros w b (o & O & W & B). cbn in O. injection O as <-. cbn in B. injection B as <-. reflexivity. Qed.

(** The batches of an epoch, all of them run from time zero. *)
Definition batch (epoch b : Z) : hdata := Some [("batch", HInt b); ("epoch", HInt epoch)].

Lemma ex_twice : exists values,
  forward_passes Qcplus Qcmult (fun _ y => y) ex_pars "rk4" (Q2Qc (1 # 2))
    [(batch 20 0, 1%Qc, [0%Qc; 1%Qc]); (batch 20 1, Q2Qc 2, [0%Qc; 1%Qc]); (batch 21 0, 1%Qc, [0%Qc; 1%Qc]); (batch 30 0, 1%Qc, [1%Qc; Q2Qc 2])] []
  = (Ok values, ex_shown 20 1%Qc ++ ex_shown 20 (Q2Qc 2)).
Proof.
  assert (exists step, method Qcplus Qcmult (fun _ y : Qc => y) "rk4" = Some step) as (step & M) by (eexists; reflexivity).
  assert (K : forall e b, exists d k, batch e b = Some d /\ epoch_is d k).
  { intros e b. eexists _, e. split; [reflexivity|]. left. reflexivity. }
  assert (T1 : 2 <= List.length [0%Qc; 1%Qc] /\ StronglySorted Qclt [0%Qc; 1%Qc] /\ (0 <= first [0%Qc; 1%Qc])%Qc).
  { split; [cbn; lia|]. split; [repeat constructor|discriminate]. }
  assert (T2 : 2 <= List.length [1%Qc; Q2Qc 2] /\ StronglySorted Qclt [1%Qc; Q2Qc 2] /\ (0 <= first [1%Qc; Q2Qc 2])%Qc).
  { split; [cbn; lia|]. split; [repeat constructor|discriminate]. }
  destruct (all_passes Qcplus Qcmult (fun _ y => y) ex_pars ex_shown ex_shows ex_proper "rk4" (Q2Qc (1 # 2)) eq_refl step M
    [(batch 20 0, 1%Qc, [0%Qc; 1%Qc]); (batch 20 1, Q2Qc 2, [0%Qc; 1%Qc]); (batch 21 0, 1%Qc, [0%Qc; 1%Qc]); (batch 30 0, 1%Qc, [1%Qc; Q2Qc 2])])
    as (values & news & _ & F & R).
  { repeat (apply Forall_cons; [split; [apply K|assumption]|]). apply Forall_nil. }
  exists values. rewrite R. f_equal. cbn [app].
  inversion F as [|? n1 ? ? A1 F1]; subst. inversion F1 as [|? n2 ? ? A2 F2]; subst.
  inversion F2 as [|? n3 ? ? A3 F3]; subst. inversion F3 as [|? n4 ? ? A4 F4]; subst. inversion F4; subst.
  specialize (A1 _ 20%Z eq_refl (or_introl eq_refl)). specialize (A2 _ 20%Z eq_refl (or_introl eq_refl)).
  specialize (A3 _ 21%Z eq_refl (or_introl eq_refl)). specialize (A4 _ 30%Z eq_refl (or_introl eq_refl)).
  cbn [fst snd first hd] in A1, A2, A3, A4. subst n1 n2 n3 n4. cbn [List.concat]. rewrite app_nil_r.
  change (Qc_eq_bool 0%Qc 0%Qc) with true. change (Qc_eq_bool 1%Qc 0%Qc) with false.
  change (20 mod 10 =? 0)%Z with true. change (21 mod 10 =? 0)%Z with false. cbn [andb app]. reflexivity.
Qed.

(** A particle with two features: the analytic parameters cannot be shown. *)
Definition ex_state : states := [("q1", mkT3 1 1 2 (fun _ _ k => INR k)); ("q2", mkT3 1 1 2 (fun _ _ _ => 1%R))].
Definition ex_costate : states := [("p_q1", mkT3 1 1 2 (fun _ _ k => INR k)); ("p_q2", mkT3 1 1 2 (fun _ _ _ => 1%R))].
Definition ex_inits : inits := fun _ => (fun _ _ => 0%R, fun _ => 0%R).

Lemma ex_analytic : exists p, updown_parameters (fun x => x) ex_inits 2 1 None ex_state ex_costate = Ok p /\
  forall log, exists e new, linear_transform_hook 0%Qc (objects_of true p) (Some []) log = (Raise e, log ++ new).
Proof.
  eexists. split; [reflexivity|]. intros log. eexists _, []. rewrite app_nil_r. reflexivity.
Qed.

(** With vectors as biases they can. *)
Lemma ex_default : exists l c, sd_get "l1" (updown_objects ex_inits 2 1 None) = Some l /\ lin_bias l = Some c /\ m0 c = 1 /\ 2 <= m1 c.
Proof. eexists _, _. split; [reflexivity|]. split; [reflexivity|]. split; [reflexivity|cbn; lia]. Qed.

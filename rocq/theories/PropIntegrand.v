(** Properties C29-C34, C37: evaluating the right-hand side. *)
From Coq Require Import List String ZArith QArith Qcanon Bool Lia Sorting.Sorted.
From Verif Require Import Base Tensor ScdModel ScdSpec ParamFuncModel IntegrandModel IntegrandSpec
  IntegrandProofs IntegrandProofs2 IntegrandProofs3.
Import ListNotations.
Open Scope string_scope.
Open Scope list_scope.
Open Scope nat_scope.

(** A small model for the examples: parameter = sum of costates, equations q' = a q, p' = -a p,
    energy a^2, hooks never raise. *)
Definition scale (z : Z) (d : sdict (sdict (tensor Z))) : sdict (sdict (tensor Z)) :=
  map (fun kd => (fst kd, map (fun kt => (fst kt, mkT (tshape (snd kt)) (map (Z.mul z) (tdata (snd kt))))) (snd kd))) d.
Definition total (d : sdict (tensor Z)) : Z := fold_right Z.add 0%Z (flat_map (fun kt => tdata (snd kt)) d).
Definition ex_model (transpose analytic : bool) : @model Z Z Z nat nat := {|
  m_concatenate := false; m_concat_dim := 0; m_transpose := transpose; m_analytic := analytic;
  m_rhs := fun _ d _ => Ok d;
  m_rhs_blocks := fun _ d p => Ok (scale p d);
  m_parameters := fun _ _ co => b <- sd_peek0 co ;; Ok (total b);
  m_parameters_analytic := fun _ _ co => Ok (total co);
  m_costate := fun _ _ d _ => Ok d;
  m_costate_blocks := fun _ _ d p => Ok (scale (- p) d);
  m_kinetic := fun _ p _ => Ok (p * p)%Z;
  m_pair := fun _ _ => Ok 0%Z;
  m_grad := fun _ st co p => Ok [mkT [2] [1%Z; 1%Z]];
  m_zero := 0%Z; m_add := Z.add; m_div := fun z n => (z / Z.of_nat n)%Z;
  m_hook := fun _ _ => Ok tt |}.
Definition ex_st : sdict (sdict (tensor Z)) := [("b", [("q", mkT [2] [1%Z; 2%Z])])].
Definition ex_co (z : Z) : sdict (sdict (tensor Z)) := [("b", [("p_q", mkT [2] [z; 1%Z])])].
Definition ex_da (l : list Z) : sdict (sdict (tensor Z)) := [("b", [("q", mkT [List.length l] l)])].
Definition half : Qc := Q2Qc (1 # 2).

(** ** C29: after any history an evaluation calls the hooks registered and not removed since, in
    registration order, each once, with the values of the evaluation; if it raises before the hooks
    none is called, and if a hook raises, the hooks up to that one were called.  A hook's handle is
    its registration number, so removing one does not affect the others. *)
Theorem C29_hooks_in_registration_order :
  forall (A P E H C : Type) (m : @model A P E H C) os rnn dim t st co da s s' r,
  s = fst (run_iops m os (new_integrand rnn dim)) ->
  compute_gradients m t st co da s = (s', r) ->
  exists l, live_list os l /\
    match r with
    | Ok (dst, dco, dda, p) =>
        s_calls s' = s_calls s ++
          map (fun ih => (snd ih, mkHargs t st co da dst dco dda p (last_custom os None))) l
    | Raise e =>
        s_calls s' = s_calls s \/
        exists dst dco dda p pre ih rest,
          let a := mkHargs t st co da dst dco dda p (last_custom os None) in
          l = pre ++ ih :: rest /\ m_hook m (snd ih) a = Raise e /\
          Forall (fun ih => m_hook m (snd ih) a = Ok tt) pre /\
          s_calls s' = s_calls s ++ map (fun ih => (snd ih, a)) (pre ++ [ih])
    end.
Proof. exact @hooks_run. Qed.
Print Assumptions C29_hooks_in_registration_order.

Theorem C29_handle_is_registration_number :
  forall (A P E H C : Type) (m : @model A P E H C) os rnn dim h,
  snd (run_iop m (IRegister h) (fst (run_iops m os (new_integrand rnn dim)))) = OHandle (registrations os).
Proof. exact @handle_number. Qed.
Print Assumptions C29_handle_is_registration_number.

(** Hooks 7, 8, 9; the second is removed between two evaluations. *)
Example C29_case :
  map fst (s_calls (fst (run_iops (ex_model false true)
    [IRegister 7; IRegister 8; IRegister 9; IEval half ex_st (ex_co 3) (ex_da [5%Z]); IRemove 1;
     IEval half ex_st (ex_co 3) (ex_da [5%Z])] (new_integrand false 0)))) = [7; 8; 9; 7; 9].
Proof. vm_compute. reflexivity. Qed.

(** ** C30: an integration starts with a reset.  As long as no evaluation was at time zero there is no
    penalty; afterwards it is the energy of the parameters of the last such evaluation of this
    integration (for externally managed parameters: the mean energy of all of them). *)
Theorem C30_no_penalty_before_time_zero :
  forall (A P E H C : Type) (m : @model A P E H C) s os,
  Forall within os -> Forall (fun o => ~ at_zero o) os ->
  let r := run_iops m os (fst (reset s)) in
  Forall succeeded (snd r) -> s_penalty (fst r) = None.
Proof. exact @penalty_none. Qed.
Print Assumptions C30_no_penalty_before_time_zero.

Theorem C30_penalty_is_energy_at_time_zero :
  forall (A P E H C : Type) (m : @model A P E H C) s pre st co da post,
  let os := pre ++ IEval 0%Qc st co da :: post in
  Forall within os -> Forall (fun o => ~ at_zero o) post ->
  let r := run_iops m os (fst (reset s)) in
  Forall succeeded (snd r) ->
  exists p x e, nth_error (snd r) (List.length pre) = Some x /\ used x p /\
    s_penalty (fst r) = Some e /\
    if s_external s then
      mean_of m (match s_func s with Some f => pf_params f | None => [] end) e
    else m_kinetic m 0%Qc p (Some (st, co)) = Ok e.
Proof. exact @penalty_some. Qed.
Print Assumptions C30_penalty_is_energy_at_time_zero.

(** The penalty 49 of an earlier integration is gone after the reset and is replaced by (3+1)^2. *)
Example C30_case :
  let m := ex_model false true in
  let s := fst (run_iops m [IEval 0%Qc ex_st (ex_co 6) (ex_da [5%Z])] (new_integrand false 0)) in
  let os := [IEval half ex_st (ex_co 2) (ex_da [5%Z])] in
  let os' := os ++ IEval 0%Qc ex_st (ex_co 3) (ex_da [5%Z]) :: os in
  s_penalty s = Some 49%Z /\
  s_penalty (fst (run_iops m os (fst (reset s)))) = None /\
  Forall succeeded (snd (run_iops m os' (fst (reset s)))) /\
  s_penalty (fst (run_iops m os' (fst (reset s)))) = Some 16%Z.
Proof. vm_compute. repeat split; repeat constructor. Qed.

(** Externally managed: the mean of 1, 9 and 25 (integer division). *)
Example C30_managed_case :
  let m := ex_model false true in
  let f := mkPF 0%Qc 1%Qc [0%Qc; half; 1%Qc] [1%Z; 3%Z; 5%Z] 0%Z 0%Qc in
  s_penalty (fst (run_iops m [ISetManaged f; IReset; IEval 0%Qc ex_st (ex_co 6) (ex_da [5%Z])]
    (new_integrand false 0))) = Some 11%Z.
Proof. vm_compute. reflexivity. Qed.

(** ** C31: in RNN mode, the first evaluation after a reset computes the parameters from its own state,
    and every evaluation of the integration returns these; without RNN mode every evaluation
    computes its own. *)
Theorem C31_parameters_frozen_per_integration :
  forall (A P E H C : Type) (m : @model A P E H C) s pre t st co da post,
  let os := pre ++ IEval t st co da :: post in
  Forall within os -> Forall (fun o => ~ evaluates o) pre ->
  s_rnn_mode s = true -> s_external s = false ->
  let r := run_iops m os (fst (reset s)) in
  forall x p, nth_error (snd r) (List.length pre) = Some x -> used x p ->
    computed m t st co p /\ Forall (fun y => forall q, used y q -> q = p) (snd r).
Proof. exact @rnn_frozen. Qed.
Print Assumptions C31_parameters_frozen_per_integration.

Theorem C31_parameters_fresh_without_rnn_mode :
  forall (A P E H C : Type) (m : @model A P E H C) t st co da s s' dst dco dda p,
  s_rnn_mode s = false -> compute_gradients m t st co da s = (s', Ok (dst, dco, dda, p)) ->
  computed m t st co p.
Proof. exact @fresh_parameters. Qed.
Print Assumptions C31_parameters_fresh_without_rnn_mode.

(** An earlier integration used 7; this one computes 3+1 and keeps it although the costates change. *)
Example C31_case :
  let params x := match x with OGradients (Ok (_, _, _, p)) => Some p | _ => None end in
  let m := ex_model false true in
  let s := fst (run_iops m [IEval 0%Qc ex_st (ex_co 6) (ex_da [5%Z])] (new_integrand true 0)) in
  s_rnn s = Some 7%Z /\
  map params (snd (run_iops m [IEval half ex_st (ex_co 3) (ex_da [5%Z]); IEval 0%Qc ex_st (ex_co 2) (ex_da [5%Z])]
    (fst (reset s)))) = [Some 4%Z; Some 4%Z].
Proof. vm_compute. split; reflexivity. Qed.

(** ** C32 is false: explicit plans, even valid ones for which there is no cached replacement or
    which equal the cached ones, always raise ValueError. *)
Theorem C32_explicit_plans_refuted :
  exists (s : @istate Z Z Z nat nat) input ps dim v,
    s_plans s = Some ps /\ disassemble_tensor input (Some ps) dim = Ok v /\
    snd (integrand_disassemble input (Some ps) dim s) = Raise ValueError.
Proof.
  exists (set_plans (Some (mkPlans [("b", [("q", [1])])] [("b", [("p", [1])])] [("b", [("q", [1])])]))
           (new_integrand false 0)).
  exists (vec [1%Z; 2%Z; 3%Z]). eexists. exists 0%Z. eexists. split; [reflexivity|]. split; reflexivity.
Qed.
Print Assumptions C32_explicit_plans_refuted.

Theorem C32_explicit_plans_always_rejected_partial :
  forall (A P E H C : Type) (s : @istate A P E H C) input ps dim,
  snd (integrand_disassemble input (Some ps) dim s) = Raise ValueError.
Proof. exact @plans_explicit. Qed.
Print Assumptions C32_explicit_plans_always_rejected_partial.

(** What holds: without explicit plans the cached ones are used. *)
Theorem C32_cached_plans_partial :
  forall (A P E H C : Type) (s : @istate A P E H C) input dim,
  snd (integrand_disassemble input None dim s) = disassemble_tensor input (s_plans s) dim.
Proof. exact @plans_cached. Qed.
Print Assumptions C32_cached_plans_partial.

Example C32_case :
  snd (integrand_disassemble (vec [1%Z; 2%Z; 3%Z]) None 0
    (set_plans (Some (mkPlans [("b", [("q", [1])])] [("b", [("p", [1])])] [("b", [("q", [1])])]))
      (new_integrand false 0 : @istate Z Z Z nat nat)))
  = Ok ([("b", [("q", mkT [1] [1%Z])])], [("b", [("p", mkT [1] [2%Z])])], [("b", [("q", mkT [1] [3%Z])])]) /\
  snd (integrand_disassemble (vec [1%Z; 2%Z; 3%Z]) None 0 (new_integrand false 0 : @istate Z Z Z nat nat))
  = Raise ValueError.
Proof. split; reflexivity. Qed.

(** ** C33 is false: with transposition enabled the evaluation of any state with at least one block
    raises KeyError ([transpose_state_dict_of_dicts] reads from the dictionary it is filling). *)
Theorem C33_transposed_evaluation_refuted :
  exists (s : @istate Z Z Z nat nat) t x y,
    snd (forward (ex_model false true) t x s) = Ok y /\
    snd (forward (ex_model true true) t x s) = Raise KeyError.
Proof.
  exists (set_plans (Some (mkPlans [("b", [("q", [1; 2; 1])])] [("b", [("p", [1; 2; 1])])] [("b", [("q", [1; 1; 1])])]))
           (new_integrand false 0)).
  exists half, [1%Z; 2%Z; 3%Z; 4%Z; 5%Z]. eexists. split; reflexivity.
Qed.
Print Assumptions C33_transposed_evaluation_refuted.

Theorem C33_transposition_always_fails_partial :
  forall (A P E H C : Type) (m : @model A P E H C) t x s st co da,
  m_transpose m = true -> disassemble_tensor (vec x) (s_plans s) 0 = Ok (st, co, da) -> st <> [] ->
  snd (forward m t x s) = Raise KeyError.
Proof. exact @transposed_fails. Qed.
Print Assumptions C33_transposition_always_fails_partial.

(** What holds: without transposition [forward] takes the vector apart, evaluates, and assembles the
    derivatives. *)
Theorem C33_untransposed_partial :
  forall (A P E H C : Type) (m : @model A P E H C) t x s st co da,
  m_transpose m = false -> disassemble_tensor (vec x) (s_plans s) 0 = Ok (st, co, da) ->
  forward m t x s =
  match compute_gradients m t st co da s with
  | (s', Ok (dst, dco, dda, _)) => (s', ov <- assemble_tensor dst dco dda ;; Ok (fst ov))
  | (s', Raise e) => (s', Raise e)
  end.
Proof. exact @untransposed. Qed.
Print Assumptions C33_untransposed_partial.

Example C33_case :
  snd (forward (ex_model false true) half [1%Z; 2%Z; 3%Z]
    (set_plans (Some (mkPlans [("b", [("q", [1])])] [("b", [("p", [1])])] [("b", [("q", [1])])]))
      (new_integrand false 0))) = Ok [2%Z; (-4)%Z; 6%Z].
Proof. reflexivity. Qed.

(** ** C34 is false: with externally managed parameters and costates evolved by automatic
    differentiation no evaluation succeeds, although the analytic one does. *)
Theorem C34_autodiff_refuted :
  exists (s : @istate Z Z Z nat nat) t st co da g,
    snd (compute_gradients (ex_model false true) t st co da s) = Ok g /\
    snd (compute_gradients (ex_model false false) t st co da s) = Raise TypeError.
Proof.
  exists (set_managed (mkPF 0%Qc 1%Qc [0%Qc; half; 1%Qc] [1%Z; 3%Z; 5%Z] 0%Z 0%Qc) (new_integrand false 0)).
  exists half, ex_st, (ex_co 3), (ex_da [5%Z]). eexists. split; vm_compute; reflexivity.
Qed.
Print Assumptions C34_autodiff_refuted.

Theorem C34_autodiff_always_fails_partial :
  forall (A P E H C : Type) (m : @model A P E H C) t st co da s,
  m_analytic m = false -> s_rnn_mode s = true -> s_external s = true ->
  forall g, snd (compute_gradients m t st co da s) <> Ok g.
Proof. exact @managed_autodiff_fails. Qed.
Print Assumptions C34_autodiff_always_fails_partial.

(** What holds: with analytic costate evolution it returns the managed parameters of the time,
    whenever the parameters have an energy on their own, the equations can be evaluated and the
    hooks do not raise. *)
Theorem C34_analytic_partial :
  forall (A P E H C : Type) (m : @model A P E H C) t n1 sd n2 cd da s f p f' dst dda dco,
  m_analytic m = true -> s_rnn_mode s = true -> s_external s = true -> s_func s = Some f ->
  get_parameters_at_time f t = Ok (p, f') ->
  (forall q, In q (pf_params f) -> exists e, m_kinetic m t q None = Ok e) ->
  rhs_state m t [(n1, sd)] p (m_concat_dim m) = Ok dst -> rhs_state m t da p (s_data_dim s) = Ok dda ->
  rhs_costate_analytic m t [(n1, sd)] [(n2, cd)] p (s_data_dim s) = Ok dco ->
  (forall h a, m_hook m h a = Ok tt) ->
  snd (compute_gradients m t [(n1, sd)] [(n2, cd)] da s) = Ok (dst, dco, dda, p).
Proof. exact @managed_analytic_works. Qed.
Print Assumptions C34_analytic_partial.

Example C34_case :
  let s := set_managed (mkPF 0%Qc 1%Qc [0%Qc; half; 1%Qc] [1%Z; 3%Z; 5%Z] 0%Z 0%Qc) (new_integrand false 0) in
  snd (compute_gradients (ex_model false true) half ex_st (ex_co 3) (ex_da [5%Z]) s)
  = Ok (scale 3 ex_st, scale (-3) (ex_co 3), scale 3 (ex_da [5%Z]), 3%Z).
Proof. vm_compute. reflexivity. Qed.

(** ** C37: two integrations of the same states and costates with different data, by the same explicit
    scheme: every vector computed holds the same states and costates in both, and afterwards
    parameters, norm penalty and hook calls (apart from data) are the same. *)
Theorem C37_particles_not_influenced_by_data :
  forall (A P E H C : Type) (m : @model A P E H C) st co da1 da2 x1 x2 ps1 ps2 s1 s2 s1' s2' prog env1 env2,
  sized m -> dicts_wf st -> dicts_wf co -> ranked st -> ranked co ->
  assemble_tensor st co da1 = Ok (x1, ps1) -> assemble_tensor st co da2 = Ok (x2, ps2) ->
  s_plans s1 = Some ps1 -> s_plans s2 = Some ps2 -> same_integrand m s1 s2 ->
  run_scheme m prog [x1] s1 = (s1', Ok env1) -> run_scheme m prog [x2] s2 = (s2', Ok env2) ->
  Forall2 (fun v1 v2 => forall a1 b1 d1 a2 b2 d2,
     disassemble_tensor (vec v1) (Some ps1) 0 = Ok (a1, b1, d1) ->
     disassemble_tensor (vec v2) (Some ps2) 0 = Ok (a2, b2, d2) -> a1 = a2 /\ b1 = b2) env1 env2 /\
  same_integrand m s1' s2'.
Proof. exact @noninterference. Qed.
Print Assumptions C37_particles_not_influenced_by_data.

(** Two Euler steps of size 1, with one and with three data entries. *)
Definition euler : list (@instr Z) :=
  let add l := fold_right Z.add 0%Z l in
  [Rhs 0%Qc 0; Combine add [0; 1]; Rhs 1%Qc 2; Combine add [2; 3]].

Example C37_case :
  let m := ex_model false true in
  let run da := match assemble_tensor ex_st (ex_co 3) da with
                | Ok (x, ps) => run_scheme m euler [x]
                    (set_plans (Some ps) (fst (register_hook 7 (new_integrand true 0))))
                | Raise e => (new_integrand true 0, Raise e)
                end in
  sized m /\ dicts_wf ex_st /\ dicts_wf (ex_co 3) /\ ranked ex_st /\ ranked (ex_co 3) /\
  snd (run (ex_da [5%Z]))
  = Ok [[1; 2; 3; 1; 5]; [4; 8; -12; -4; 20]; [5; 10; -9; -3; 25]; [20; 40; 36; 12; 100]; [25; 50; 27; 9; 125]]%Z /\
  snd (run (ex_da [6; 7; 8]%Z))
  = Ok [[1; 2; 3; 1; 6; 7; 8]; [4; 8; -12; -4; 24; 28; 32]; [5; 10; -9; -3; 30; 35; 40];
        [20; 40; 36; 12; 120; 140; 160]; [25; 50; 27; 9; 150; 175; 200]]%Z /\
  List.length (s_calls (fst (run (ex_da [5%Z])))) = 2.
Proof.
  cbv zeta. split; [|split; [|split; [|split; [|split; [|split; [|split]]]]]];
    try (vm_compute; reflexivity).
  - assert (L : forall z d, List.length (elements (scale z d)) = List.length (elements d)).
    { intros z d. unfold elements, scale. induction d as [|[k b] d IH]; [reflexivity|]. simpl.
      rewrite !app_length, IH. f_equal. induction b as [|[j t] b IHb]; [reflexivity|]. simpl.
      rewrite !app_length, map_length, IHb. reflexivity. }
    apply sized_analytic_blocks; try reflexivity; intros; simpl in *;
      match goal with X : Ok _ = Ok _ |- _ => injection X as <- end; apply L.
  - split; [repeat constructor|]. repeat constructor.
  - split; [repeat constructor|]. repeat constructor.
  - repeat (constructor; simpl; try discriminate).
  - repeat (constructor; simpl; try discriminate).
Qed.

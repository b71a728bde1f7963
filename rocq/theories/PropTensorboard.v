(** C128: showing the parameters of the first layer with the tensorboard hook. *)
From Coq Require Import List String ZArith QArith Qcanon Reals Bool Sorting.Sorted.
From Verif Require Import Base Tensor EnergyModel FixedGridModel RecordModel RecordSpec VecModel TensorboardModel TensorboardSpec.
From Verif Require Import TensorboardProofs TensorboardProofs2 TensorboardExamples.
Import ListNotations.
Open Scope string_scope.
Open Scope list_scope.
Open Scope nat_scope.

(** The hook cannot be used with analytic solutions: the up-down model with one particle of two features. *)
Theorem C128_analytic_refuted :
  exists p, updown_parameters (fun x => x) ex_inits 2 1 None ex_state ex_costate = Ok p /\
  forall log, exists e new, linear_transform_hook 0%Qc (objects_of true p) (Some []) log = (Raise e, log ++ new).
Proof. exact ex_analytic. Qed.
Print Assumptions C128_analytic_refuted.

(** Nor without hook data, the default: no pass through a block ends. *)
Theorem C128_default_data_refuted :
  forall (X : Type) (add : X -> X -> X) (mul : Qc -> X -> X) f parameters name h x t log,
  In name ["euler"; "midpoint"; "rk4"] -> (0 < h)%Qc -> 2 <= List.length t -> StronglySorted Qclt t ->
  forward_pass add mul f parameters name h None x t log = (Raise TypeError, log).
Proof. exact no_data_pass. Qed.
Print Assumptions C128_default_data_refuted.

Example C128_default_data_case :
  (0 < Q2Qc (1 # 2))%Qc /\ StronglySorted Qclt [0%Qc; 1%Qc] /\
  forward_pass Qcplus Qcmult (fun _ y => y) ex_pars "rk4" (Q2Qc (1 # 2)) None 1%Qc [0%Qc; 1%Qc] [] = (Raise TypeError, []).
Proof. split; [reflexivity|]. split; [repeat constructor|]. apply no_data_pass; cbn; auto; repeat constructor. Qed.

(** Every batch of a tenth epoch is shown under the same step, not only the first; epochs run from another time are not
    shown at all. *)
Theorem C128_once_refuted :
  exists values,
  forward_passes Qcplus Qcmult (fun _ y => y) ex_pars "rk4" (Q2Qc (1 # 2))
    [(batch 20 0, 1%Qc, [0%Qc; 1%Qc]); (batch 20 1, Q2Qc 2, [0%Qc; 1%Qc]); (batch 21 0, 1%Qc, [0%Qc; 1%Qc]);
     (batch 30 0, 1%Qc, [1%Qc; Q2Qc 2])] []
  = (Ok values, ex_shown 20 1%Qc ++ ex_shown 20 (Q2Qc 2)).
Proof. exact ex_twice. Qed.
Print Assumptions C128_once_refuted.

(** What a call does.  Missing: epochs which are no integers. *)
Theorem C128_every_call_partial :
  forall t os data log, proper os ->
  match data with
  | None => linear_transform_hook t os data log = (Raise TypeError, log)
  | Some d =>
      (t <> 0%Qc -> linear_transform_hook t os data log = (Ok tt, log)) /\
      forall k, epoch_is d k ->
        ((k mod 10 <> 0)%Z -> linear_transform_hook t os data log = (Ok tt, log)) /\
        (t = 0%Qc -> (k mod 10 = 0)%Z ->
          (forall es, shows k os es -> linear_transform_hook t os data log = (Ok tt, log ++ es)) /\
          ((forall es, ~ shows k os es) ->
            exists e new, linear_transform_hook t os data log = (Raise e, log ++ new) /\ List.length new <= 2))
  end.
Proof. exact every_call. Qed.
Print Assumptions C128_every_call_partial.

Example C128_every_call_case : proper (ex_pars 0%Qc 1%Qc) /\ shows 20 (ex_pars 0%Qc 1%Qc) (ex_shown 20 1%Qc) /\
  linear_transform_hook 0%Qc (ex_pars 0%Qc 1%Qc) (batch 20 3) [] = (Ok tt, ex_shown 20 1%Qc) /\
  linear_transform_hook 0%Qc (ex_pars 0%Qc 1%Qc) (batch 21 3) [] = (Ok tt, []) /\
  linear_transform_hook 1%Qc (ex_pars 0%Qc 1%Qc) (batch 20 3) [] = (Ok tt, []).
Proof. split; [apply ex_proper|]. split; [apply ex_shows|]. repeat split. Qed.

(** With analytic solutions it depends on the shape of the first costate, the average of which is the bias: at least two
    dimensions, and one feature.  With one dimension, as in all demos, it always raises. *)
Theorem C128_analytic_partial :
  forall nl init d f np W ow s c p p1 data k log, sd_get "p_q1" c = Some p1 ->
  In (Ok p) [updown_parameters nl init d f W s c; universal_parameters nl init d f W ow s c; simple_parameters nl init d W np s c;
    debug_parameters nl init d W np s c; symmetrized_parameters nl init d f W s c; periodic_parameters nl init d f W s c] ->
  epoch_is data k -> (k mod 10 = 0)%Z ->
  fst (linear_transform_hook 0%Qc (objects_of true p) (Some data) log) = Ok tt <-> 2 <= n1 p1 /\ n2 p1 = 1.
Proof. exact analytic. Qed.
Print Assumptions C128_analytic_partial.

Example C128_analytic_case : exists p p1, updown_parameters (fun x => x) ex_inits 2 1 None ex_state ex_costate = Ok p /\
  sd_get "p_q1" ex_costate = Some p1 /\ n1 p1 = 1 /\ n2 p1 = 2 /\ epoch_is [] 0.
Proof. eexists _, _. split; [reflexivity|]. split; [reflexivity|]. split; [reflexivity|]. split; [reflexivity|]. right. split; reflexivity. Qed.

(** The general up-down model has no layer of this name. *)
Theorem C128_general_partial :
  forall nl init d f W s c p data k log, general_parameters nl init d f W s c = Ok p ->
  epoch_is data k -> (k mod 10 = 0)%Z ->
  linear_transform_hook 0%Qc (objects_of true p) (Some data) log = (Raise KeyError, log).
Proof. exact general_missing. Qed.
Print Assumptions C128_general_partial.

Example C128_general_case : exists p, general_parameters (fun x => x) ex_inits 2 1 None ex_state ex_costate = Ok p.
Proof. eexists. reflexivity. Qed.

(** Otherwise biases are vectors, and two features are needed. *)
Theorem C128_vector_partial :
  forall p l c data k log, sd_get "l1" p = Some l -> lin_bias l = Some c -> m0 c = 1 ->
  epoch_is data k -> (k mod 10 = 0)%Z ->
  fst (linear_transform_hook 0%Qc (objects_of false p) (Some data) log) = Ok tt <-> 2 <= m1 c.
Proof. exact default_bias. Qed.
Print Assumptions C128_vector_partial.

Example C128_vector_case : exists l c, sd_get "l1" (updown_objects ex_inits 2 1 None) = Some l /\ lin_bias l = Some c /\ m0 c = 1 /\ 2 <= m1 c.
Proof. exact ex_default. Qed.

(** Passes through a block, integrated with fixed steps over times from zero on: the hook changes no value, and every
    pass which starts at zero in a tenth epoch shows the parameters of its initial state once.  Missing: other
    methods, decreasing or negative times. *)
Theorem C128_passes_partial :
  forall (X : Type) (add : X -> X -> X) (mul : Qc -> X -> X) f parameters (shown : Z -> X -> list entry),
  (forall k x, shows k (parameters 0%Qc x) (shown k x)) -> (forall x, proper (parameters 0%Qc x)) ->
  forall name h, (0 < h)%Qc -> forall step, method add mul f name = Some step ->
  forall ps : list (hdata * X * list Qc), Forall (fun p => let '(data, _, t) := p in
    (exists d k, data = Some d /\ epoch_is d k) /\ 2 <= List.length t /\ StronglySorted Qclt t /\ (0 <= first t)%Qc) ps ->
  exists values news,
    Forall2 (fun p v => fixed_grid add mul step (Some h) (snd (fst p)) (snd p) = Ok v) ps values /\
    Forall2 (fun p new => forall d k, fst (fst p) = Some d -> epoch_is d k ->
      new = if Qc_eq_bool (first (snd p)) 0%Qc && (k mod 10 =? 0)%Z then shown k (snd (fst p)) else []) ps news /\
    forall log, forward_passes add mul f parameters name h ps log = (Ok values, log ++ List.concat news).
Proof. exact @all_passes. Qed.
Print Assumptions C128_passes_partial.

Example C128_passes_case : (forall k x, shows k (ex_pars 0%Qc x) (ex_shown k x)) /\ (forall x, proper (ex_pars 0%Qc x)) /\
  (exists step, method Qcplus Qcmult (fun _ y : Qc => y) "rk4" = Some step) /\
  (exists d k, batch 20 0 = Some d /\ epoch_is d k) /\ StronglySorted Qclt [0%Qc; 1%Qc] /\ (0 <= first [0%Qc; 1%Qc])%Qc.
Proof.
  split; [exact ex_shows|]. split; [exact ex_proper|]. split; [eexists; reflexivity|]. split; [|split; [repeat constructor|discriminate]].
  eexists _, 20%Z. split; [reflexivity|]. left. reflexivity.
Qed.

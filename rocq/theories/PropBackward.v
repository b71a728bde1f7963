(** C126: decreasing times. *)
From Coq Require Import List String Arith ZArith QArith Qcanon Lia Sorting.Sorted.
From Verif Require Import Base IntegratorModel FixedGridModel FixedGridSpec FixedGridProofs4 PropFixedGrid.
Import ListNotations.
Open Scope string_scope.
Open Scope list_scope.
Open Scope nat_scope.

(** ** C126.  False with checkpoints: from 1 to 0 with one checkpoint, nothing is integrated and None is returned. *)
Theorem C126_checkpoints_refuted :
  exists x t v, StronglySorted (fun a b => (b < a)%Qc) t /\
    growth "rk4" None None (Q2Qc (1 # 2)) x t = Ok (Some [x; v]) /\ growth "rk4" (Some 1%Z) None (Q2Qc (1 # 2)) x t = Ok None.
Proof.
  exists 1%Qc, [1%Qc; 0%Qc]. eexists. split; [repeat constructor|]. split; [vm_compute; reflexivity|]. vm_compute. reflexivity.
Qed.
Print Assumptions C126_checkpoints_refuted.

(** This is so for any two decreasing times and any number of checkpoints; given an interval between checkpoints, all
    decreasing times are refused. *)
Theorem C126_checkpoints_partial : forall (X : Type) odeint odesolver hp i (x : X) t0 t1 ts,
  StronglySorted (fun a b => (b < a)%Qc) (t0 :: t1 :: ts) ->
  (forall n, i_nr_of_checkpoints i = Some (Z.of_nat (S n)) -> i_checkpointing_time_interval i = None -> ts = [] ->
    integrate odeint odesolver hp i x (t0 :: t1 :: ts) = (hp, Ok None)) /\
  (forall d, i_nr_of_checkpoints i = None -> i_checkpointing_time_interval i = Some d -> (0 < d)%Qc ->
    integrate odeint odesolver hp i x (t0 :: t1 :: ts) = (hp, Raise RuntimeError)).
Proof. exact @decreasing_checkpoints. Qed.
Print Assumptions C126_checkpoints_partial.

Example C126_checkpoints_case :
  growth "midpoint" (Some 3%Z) None (Q2Qc (1 # 2)) 1%Qc [1%Qc; Q2Qc (1 # 3)] = Ok None /\
  growth "midpoint" None (Some (Q2Qc (1 # 4))) (Q2Qc (1 # 2)) 1%Qc [1%Qc; Q2Qc (1 # 3); 0%Qc] = Raise RuntimeError.
Proof. split; vm_compute; reflexivity. Qed.

(** What holds without checkpoints, for euler, midpoint and rk4: at the requested times which are a whole number of
    steps before the first one, the value is that of steps of length -h with the same right-hand side, no matter
    whether the step size is given as a float or an integer. *)
Theorem C126_backward_partial :
  forall (X : Type) (add : X -> X -> X) (mul : Qc -> X -> X), linear_laws add mul ->
  forall f other odesolver hp i step h x t0 ts,
  method add mul f (i_name i) = Some step -> step_option (heap_get hp (i_options i)) h -> (0 < h)%Qc ->
  i_library i = "odeint" -> i_nr_of_checkpoints i = None -> i_checkpointing_time_interval i = None ->
  StronglySorted (fun a b => (b < a)%Qc) (t0 :: ts) ->
  exists values, integrate (fixed_odeint add mul f other) odesolver hp i x (t0 :: ts) = (hp, Ok (Some values)) /\
    List.length values = S (List.length ts) /\
    forall j k, nth_error (t0 :: ts) j = Some (t0 - times k h)%Qc ->
      nth_error values j = Some (whole_steps (fun t dt y => add y (step t dt y)) (- h)%Qc t0 k x).
Proof. exact @backward. Qed.
Print Assumptions C126_backward_partial.

(** The same for increasing times. *)
Theorem C126_forward_partial :
  forall (X : Type) (add : X -> X -> X) (mul : Qc -> X -> X),
  forall f other odesolver hp i step h x t0 t1 ts,
  method add mul f (i_name i) = Some step -> step_option (heap_get hp (i_options i)) h -> (0 < h)%Qc ->
  i_library i = "odeint" -> i_nr_of_checkpoints i = None -> i_checkpointing_time_interval i = None ->
  StronglySorted Qclt (t0 :: t1 :: ts) ->
  exists values, integrate (fixed_odeint add mul f other) odesolver hp i x (t0 :: t1 :: ts) = (hp, Ok (Some values)) /\
    List.length values = S (S (List.length ts)) /\
    forall j k, nth_error (t0 :: t1 :: ts) j = Some (t0 + times k h)%Qc ->
      nth_error values j = Some (whole_steps (fun t dt y => add y (step t dt y)) h t0 k x).
Proof. exact @forward. Qed.
Print Assumptions C126_forward_partial.

(** x' = t x from 2 to 0 by Euler's method, the step size being the integer 1: 1 - 2 = -1, then -1 + 1 = 0; and rk4
    forth and back. *)
Example C126_case :
  let i := mkIntegrator "odeint" "euler" false 0 None None None in
  let hp := [[("step_size", OInt 1)]] in
  linear_laws Qcplus Qcmult /\ step_option (heap_get hp (i_options i)) 1%Qc /\
  integrate (fixed_odeint Qcplus Qcmult (fun t y => t * y)%Qc (fun _ _ _ _ _ => Raise ValueError)) (fun _ x => Ok x) hp i
    1%Qc [Q2Qc 2; 1%Qc; 0%Qc] = (hp, Ok (Some [1%Qc; Q2Qc (-1); 0%Qc])) /\
  exists a b, growth "rk4" None None 1%Qc 1%Qc [0%Qc; 1%Qc] = Ok (Some [1%Qc; a]) /\
    growth "rk4" None None 1%Qc a [1%Qc; 0%Qc] = Ok (Some [a; b]) /\ a = Q2Qc (65 # 24) /\ b = Q2Qc (65 * 9 # 24 * 24).
Proof.
  cbv zeta. split; [split; intros; ring|]. split; [right; exists 1%Z; split; reflexivity|]. split.
  - vm_compute. reflexivity.
  - do 2 eexists. split; [vm_compute; reflexivity|]. split; [vm_compute; reflexivity|]. split; apply Qc_is_canon; reflexivity.
Qed.

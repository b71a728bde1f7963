(** C119, C120: the default solver with checkpoints and time vectors. *)
From Coq Require Import List String Arith ZArith QArith Qcanon Lia Sorting.Sorted.
From Verif Require Import Base IntegratorModel FixedGridModel FixedGridSpec FixedGridProofs FixedGridProofs2 FixedGridProofs3.
Import ListNotations.
Open Scope string_scope.
Open Scope list_scope.
Open Scope nat_scope.

(** x' = x on numbers. *)
Definition growth (name : string) (nr : option Z) (dt : option Qc) (step_size : Qc) (x : Qc) (t : list Qc) : result (option (list Qc)) :=
  match new_integrator [] (Some "odeint") (Some name) false None (Some step_size) nr dt with
  | (h, Ok i) => snd (integrate (fixed_odeint Qcplus Qcmult (fun _ y => y) (fun _ _ _ _ _ => Raise ValueError)) (fun _ x => Ok x) h i x t)
  | (_, Raise e) => Raise e
  end.

(** ** C119.  False: a checkpoint which is not a multiple of the step size away from the first time adds a
    step.  One checkpoint after 3/4, and two checkpoints, with the default step size 1/2. *)
Theorem C119_checkpoints_refuted :
  exists x t direct interval number,
    StronglySorted Qclt t /\
    growth "rk4" None None (Q2Qc (1 # 2)) x t = Ok (Some direct) /\
    growth "rk4" None (Some (Q2Qc (3 # 4))) (Q2Qc (1 # 2)) x t = Ok (Some interval) /\
    growth "rk4" (Some 2%Z) None (Q2Qc (1 # 2)) x t = Ok (Some number) /\
    direct <> interval /\ direct <> number /\ interval <> number.
Proof.
  exists 1%Qc, [0%Qc; 1%Qc]. do 3 eexists. split; [repeat constructor|].
  split; [vm_compute; reflexivity|]. split; [vm_compute; reflexivity|]. split; [vm_compute; reflexivity|].
  split; [intros E; discriminate E|]. split; intros E; discriminate E.
Qed.
Print Assumptions C119_checkpoints_refuted.

(** What holds: if all checkpoints are whole numbers of steps away from the first time, the checkpointed
    integration returns exactly the values of the integration in one piece, at all requested times, whether on
    the grid or not.  Missing: other checkpoints. *)
Theorem C119_aligned_checkpoints_partial :
  forall (X : Type) (add : X -> X -> X) (mul : Qc -> X -> X) f other odesolver hp i j x0 h t0 ts tl,
  In (i_name i) ["euler"; "midpoint"; "rk4"] -> option_step_size (heap_get hp (i_options i)) = Some h -> (0 < h)%Qc ->
  i_library i = "odeint" -> i_library j = "odeint" ->
  i_adjoint j = i_adjoint i -> i_name j = i_name i -> i_options j = i_options i ->
  i_nr_of_checkpoints i = None -> i_checkpointing_time_interval i = None ->
  aligned h t0 tl (i_nr_of_checkpoints j) (i_checkpointing_time_interval j) ->
  StronglySorted Qclt (t0 :: ts ++ [tl]) ->
  integrate (fixed_odeint add mul f other) odesolver hp j x0 (t0 :: ts ++ [tl])
  = integrate (fixed_odeint add mul f other) odesolver hp i x0 (t0 :: ts ++ [tl]) /\
  exists values, integrate (fixed_odeint add mul f other) odesolver hp i x0 (t0 :: ts ++ [tl]) = (hp, Ok (Some values)).
Proof. exact @fixed_checkpoints. Qed.
Print Assumptions C119_aligned_checkpoints_partial.

(** Steps of 1/2, a checkpoint after every unit, on [0, 5/2]; requested times off the grid. *)
Example C119_case :
  let t := [0%Qc; Q2Qc (1 # 3); Q2Qc (6 # 5); Q2Qc (5 # 2)] in
  aligned (Q2Qc (1 # 2)) 0%Qc (Q2Qc (5 # 2)) None (Some 1%Qc) /\
  aligned (Q2Qc (1 # 2)) 0%Qc (Q2Qc (5 # 2)) (Some 4%Z) None /\
  StronglySorted Qclt t /\
  growth "rk4" None (Some 1%Qc) (Q2Qc (1 # 2)) 1%Qc t = growth "rk4" None None (Q2Qc (1 # 2)) 1%Qc t /\
  growth "rk4" (Some 4%Z) None (Q2Qc (1 # 2)) 1%Qc t = growth "rk4" None None (Q2Qc (1 # 2)) 1%Qc t /\
  exists v1 v2 v3, growth "rk4" None (Some 1%Qc) (Q2Qc (1 # 2)) 1%Qc t = Ok (Some [1%Qc; v1; v2; v3]).
Proof.
  cbv zeta. split; [split; [reflexivity|exists 2; apply Qc_is_canon; reflexivity]|].
  split; [split; [lia|exists 1; apply Qc_is_canon; reflexivity]|].
  split; [repeat constructor|]. split; [vm_compute; reflexivity|]. split; [vm_compute; reflexivity|].
  do 3 eexists. vm_compute. reflexivity.
Qed.

(** ** C120.  False: a requested time inside a step gets the straight line between the two ends of the step;
    if it is the final time, the step is shortened instead. *)
Theorem C120_single_times_refuted :
  exists x t0 s t1 v w z,
    (t0 < s)%Qc /\ (s < t1)%Qc /\
    growth "rk4" None None (Q2Qc (1 # 2)) x [t0; s; t1] = Ok (Some [x; v; z]) /\
    growth "rk4" None None (Q2Qc (1 # 2)) x [t0; s] = Ok (Some [x; w]) /\ v <> w.
Proof.
  exists 1%Qc, 0%Qc, (Q2Qc (1 # 4)), 1%Qc. do 3 eexists. split; [reflexivity|]. split; [reflexivity|].
  split; [vm_compute; reflexivity|]. split; [vm_compute; reflexivity|]. intros E. discriminate E.
Qed.
Print Assumptions C120_single_times_refuted.

(** What holds for euler, midpoint and rk4: at the requested times which are whole numbers of steps away from the
    first time, the value is the one of integrating to this time only.  Missing: other times. *)
Theorem C120_grid_times_partial :
  forall (X : Type) (add : X -> X -> X) (mul : Qc -> X -> X) f other odesolver hp i h x t0 t1 ts,
  In (i_name i) ["euler"; "midpoint"; "rk4"] -> option_step_size (heap_get hp (i_options i)) = Some h -> (0 < h)%Qc ->
  i_library i = "odeint" -> i_nr_of_checkpoints i = None -> i_checkpointing_time_interval i = None ->
  StronglySorted Qclt (t0 :: t1 :: ts) ->
  let run t := snd (integrate (fixed_odeint add mul f other) odesolver hp i x t) in
  exists values, run (t0 :: t1 :: ts) = Ok (Some values) /\ List.length values = S (S (List.length ts)) /\
    nth_error values 0 = Some x /\
    forall k s, nth_error (t1 :: ts) k = Some s -> on_grid h t0 s -> exists v,
      nth_error values (S k) = Some v /\ run [t0; s] = Ok (Some [x; v]).
Proof. exact @fixed_times. Qed.
Print Assumptions C120_grid_times_partial.

(** The values themselves, without the integrator: whole steps of the method. *)
Theorem C120_grid_values_partial :
  forall (X : Type) (add : X -> X -> X) (mul : Qc -> X -> X) step h t0 ts x,
  (0 < h)%Qc -> StronglySorted Qclt (t0 :: ts) ->
  exists values, fixed_grid add mul step (Some h) x (t0 :: ts) = Ok values /\ List.length values = S (List.length ts) /\
    forall i k, nth_error (t0 :: ts) i = Some (t0 + times k h)%Qc ->
      nth_error values i = Some (whole_steps (fun t dt y => add y (step t dt y)) h t0 k x) /\
      (0 < k -> fixed_grid add mul step (Some h) x [t0; (t0 + times k h)%Qc]
                = Ok [x; whole_steps (fun t dt y => add y (step t dt y)) h t0 k x]).
Proof. exact @values_on_grid. Qed.
Print Assumptions C120_grid_values_partial.

(** With Euler's method the full statement holds, for exact numbers. *)
Theorem C120_euler_times_partial :
  forall (X : Type) (add : X -> X -> X) (mul : Qc -> X -> X) f other odesolver hp i h x t0 t1 ts,
  vector_laws add mul ->
  i_name i = "euler" -> option_step_size (heap_get hp (i_options i)) = Some h -> (0 < h)%Qc ->
  i_library i = "odeint" -> i_nr_of_checkpoints i = None -> i_checkpointing_time_interval i = None ->
  StronglySorted Qclt (t0 :: t1 :: ts) ->
  let run t := snd (integrate (fixed_odeint add mul f other) odesolver hp i x t) in
  exists values, run (t0 :: t1 :: ts) = Ok (Some values) /\ List.length values = S (S (List.length ts)) /\
    nth_error values 0 = Some x /\
    forall k s, nth_error (t1 :: ts) k = Some s -> exists v,
      nth_error values (S k) = Some v /\ run [t0; s] = Ok (Some [x; v]).
Proof. exact @euler_times. Qed.
Print Assumptions C120_euler_times_partial.

(** The script integration_time_test.py:101-115 with 4 instead of 16 times: steps of 1/10, times on the grid;
    and Euler's method off the grid. *)
Example C120_case :
  let t := [0%Qc; Q2Qc (1 # 10); Q2Qc (2 # 10); Q2Qc (3 # 10)] in
  on_grid (Q2Qc (1 # 10)) 0%Qc (Q2Qc (2 # 10)) /\
  vector_laws Qcplus Qcmult /\
  (exists a b c, growth "rk4" None None (Q2Qc (1 # 10)) 1%Qc t = Ok (Some [1%Qc; a; b; c]) /\
    growth "rk4" None None (Q2Qc (1 # 10)) 1%Qc [0%Qc; Q2Qc (2 # 10)] = Ok (Some [1%Qc; b]) /\
    growth "rk4" None None (Q2Qc (1 # 10)) 1%Qc [0%Qc; Q2Qc (3 # 10)] = Ok (Some [1%Qc; c])) /\
  exists a b, growth "euler" None None (Q2Qc (1 # 2)) 1%Qc [0%Qc; Q2Qc (3 # 4); Q2Qc 2] = Ok (Some [1%Qc; a; b]) /\
    growth "euler" None None (Q2Qc (1 # 2)) 1%Qc [0%Qc; Q2Qc (3 # 4)] = Ok (Some [1%Qc; a]) /\ a = Q2Qc (15 # 8).
Proof.
  cbv zeta. split; [exists 2; apply Qc_is_canon; reflexivity|]. split.
  { split; [intros; change (Q2Qc (-1)) with (- (1))%Qc; ring|]. split; intros; ring. }
  split.
  - do 3 eexists. split; [vm_compute; reflexivity|]. split; vm_compute; reflexivity.
  - do 2 eexists. split; [vm_compute; reflexivity|]. split; [vm_compute; reflexivity|]. apply Qc_is_canon. reflexivity.
Qed.

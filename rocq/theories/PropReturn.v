(** C157: integrating to the last time and back. *)
From Coq Require Import List String Arith ZArith QArith Qcanon Lia Sorting.Sorted.
From Verif Require Import Base IntegratorModel FixedGridModel FixedGridSpec PropFixedGrid ReturnSpec ReturnProofs.
Import ListNotations.
Open Scope string_scope.
Open Scope list_scope.
Open Scope nat_scope.

(** ** C157.  False: x' = x from 1 by a step of Euler's method to 2, and back to 0; the other methods do not return to
    the start either. *)
Theorem C157_return_refuted :
  exists x t0 t1 step, (t0 < t1)%Qc /\
  (growth "euler" None None step x [t0; t1] = Ok (Some [x; Q2Qc 2]) /\
   growth "euler" None None step (Q2Qc 2) [t1; t0] = Ok (Some [Q2Qc 2; 0%Qc])) /\
  Forall (fun name => exists v w, growth name None None step x [t0; t1] = Ok (Some [x; v]) /\
    growth name None None step v [t1; t0] = Ok (Some [v; w]) /\ w <> x) ["midpoint"; "rk4"].
Proof.
  exists 1%Qc, 0%Qc, 1%Qc, 1%Qc. split; [reflexivity|]. split; [split; vm_compute; reflexivity|].
  repeat constructor; (do 2 eexists; split; [vm_compute; reflexivity|]; split; [vm_compute; reflexivity|]; intro H;
    apply (f_equal this) in H; vm_compute in H; discriminate H).
Qed.
Print Assumptions C157_return_refuted.

(** How far from the start one ends up with x' = a x and Euler's method: every step forth and back multiplies by
    1 - (a h)^2, so that only a = 0 leads back to every start. *)
Theorem C157_linear_partial :
  forall a other odesolver hp i h x t0 k,
  i_name i = "euler" -> step_option (heap_get hp (i_options i)) h -> (0 < h)%Qc ->
  i_library i = "odeint" -> i_nr_of_checkpoints i = None -> i_checkpointing_time_interval i = None ->
  let solver := fixed_odeint Qcplus Qcmult (fun _ y => a * y)%Qc other in
  let t1 := (t0 + times (S k) h)%Qc in
  exists v, integrate solver odesolver hp i x [t0; t1] = (hp, Ok (Some [x; v])) /\
    integrate solver odesolver hp i v [t1; t0] = (hp, Ok (Some [v; x * (1 - (a * h) * (a * h)) ^ S k]))%Qc.
Proof. exact linear_forth_and_back. Qed.
Print Assumptions C157_linear_partial.

Example C157_linear_case :
  let i := mkIntegrator "odeint" "euler" false 0 None None None in
  let hp := [[("step_size", ONum (Q2Qc (1 # 2)))]] in
  step_option (heap_get hp (i_options i)) (Q2Qc (1 # 2)) /\ (0 < Q2Qc (1 # 2))%Qc /\
  map this [(0 + times 2 (Q2Qc (1 # 2)))%Qc; (1 - (1 * Q2Qc (1 # 2)) * (1 * Q2Qc (1 # 2)))%Qc] = [1; 3 # 4]%Q /\
  exists v w, growth "euler" None None (Q2Qc (1 # 2)) 1%Qc [0; 1]%Qc = Ok (Some [1%Qc; v]) /\
    growth "euler" None None (Q2Qc (1 # 2)) v [1; 0]%Qc = Ok (Some [v; w]) /\ map this [v; w] = [9 # 4; 9 # 16]%Q.
Proof.
  cbv zeta. split; [left; reflexivity|]. split; [reflexivity|]. split; [vm_compute; reflexivity|].
  do 2 eexists. split; [vm_compute; reflexivity|]. split; vm_compute; reflexivity.
Qed.

(** True: velocities which do not depend on the place (for Euler's method neither on the time).  Through requested
    times which are whole numbers of steps apart, the way back passes the values of the way forth in reverse order. *)
Theorem C157_return_partial :
  forall (X : Type) (add : X -> X -> X) (mul : Qc -> X -> X), space_laws add mul ->
  forall f other odesolver hp i step h x t0 t1 ts,
  same_everywhere (i_name i) f ->
  method add mul f (i_name i) = Some step -> step_option (heap_get hp (i_options i)) h -> (0 < h)%Qc ->
  i_library i = "odeint" -> i_nr_of_checkpoints i = None -> i_checkpointing_time_interval i = None ->
  StronglySorted Qclt (t0 :: t1 :: ts) -> Forall (on_grid h t0) (t1 :: ts) ->
  exists values v, integrate (fixed_odeint add mul f other) odesolver hp i x (t0 :: t1 :: ts)
    = (hp, Ok (Some (values ++ [v]))) /\
    integrate (fixed_odeint add mul f other) odesolver hp i v (rev (t0 :: t1 :: ts))
    = (hp, Ok (Some (rev (values ++ [v])))).
Proof. exact @forth_and_back. Qed.
Print Assumptions C157_return_partial.

(** x' = t by the midpoint method: 1, 3/2 and 3 at the times 0, 1 and 2, and back; Euler's method does not return. *)
Example C157_return_case :
  let run name x t := match snd (integrate (fixed_odeint Qcplus Qcmult (fun t _ => t) (fun _ _ _ _ _ => Raise ValueError))
    (fun _ x => Ok x) [[("step_size", OInt 1)]] (mkIntegrator "odeint" name false 0 None None None) x t) with
    Ok (Some l) => map this l | _ => [] end in
  space_laws Qcplus Qcmult /\ same_everywhere "midpoint" (fun t _ : Qc => t) /\
  StronglySorted Qclt [0; 1; Q2Qc 2]%Qc /\ Forall (on_grid 1 0) [1; Q2Qc 2]%Qc /\
  run "midpoint" 1%Qc [0; 1; Q2Qc 2]%Qc = [1; 3 # 2; 3]%Q /\
  run "midpoint" (Q2Qc 3) [Q2Qc 2; 1; 0]%Qc = [3; 3 # 2; 1]%Q /\
  run "euler" 1%Qc [0; 1; Q2Qc 2]%Qc = [1; 1; 2]%Q /\
  run "euler" (Q2Qc 2) [Q2Qc 2; 1; 0]%Qc = [2; 0; -1]%Q.
Proof.
  cbv zeta. split; [repeat split; intros; ring|]. split; [split; [reflexivity|intro H; discriminate H]|].
  split; [repeat constructor|]. split.
  { constructor; [exists 1|constructor; [exists 2|constructor]]; apply Qc_is_canon; vm_compute; reflexivity. }
  repeat split; vm_compute; reflexivity.
Qed.

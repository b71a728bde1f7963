(** C141: results at single times and in vectors of times. *)
From Coq Require Import List String Arith ZArith QArith Qcanon Lia Sorting.Sorted.
From Verif Require Import Base Tensor ScdModel ScdSpec BlockModel BlockSpec IntegratorModel FixedGridModel FixedGridSpec
  BlockSolverModel BlockSolverSpec BlockSolverProofs.
Import ListNotations.
Open Scope string_scope.
Open Scope list_scope.
Open Scope nat_scope.

(** ** A block of two particles, x' = x on numbers, the integrator with steps of length 1/2 *)
Definition ex_ig : @integrand Qc := mkIntegrand false 2 true true true (fun x => Ok [("q", x)]) "q".
Definition ex_attr (_ : string) := false.
Definition ex_block : result (@block Qc) :=
  new_block ex_attr "b2" (Some [("q", mkT [2; 1; 1] [Q2Qc 1; Q2Qc 2])]) (Some [("p_q", mkT [2; 1; 1] [Q2Qc 3; Q2Qc 4])])
    true false false false [] ["w"] None 2.
Definition ex_b : @block Qc :=
  match ex_block with Ok b => b | Raise _ => mkBlock "" None None false false true None None [] [] None None None 0 end.
Definition sum_of (u v : list Qc) : list Qc := map (fun c => (fst c + snd c)%Qc) (combine u v).
Definition scaled (a : Qc) (u : list Qc) : list Qc := map (Qcmult a) u.
Definition growing (_ : option plans) (_ : Qc) (y : list Qc) : list Qc := y.
Definition ex_hp : heap := [[("step_size", ONum (Q2Qc (1 # 2)))]].
Definition ex_i (dt : option Qc) : integrator := mkIntegrator "odeint" "rk4" false 0 None None dt.
Definition ex_forward (dt : option Qc) :=
  BlockModel.forward (Q2Qc 0) ex_ig ex_attr (fun _ _ => Q2Qc 0)
    (integrator_solve sum_of scaled growing (fun _ _ _ _ _ => Raise ValueError) (fun _ x => Ok x) ex_hp (ex_i dt))
    (Some (mkT [1; 1; 1] [Q2Qc 7])) None None None.

(** False: a vector of times which does not start with 0 is integrated from its first time on, a single time
    always from 0.  The vector [1, 2] and the time 2. *)
Theorem C141_start_refuted :
  exists (b : @block Qc) t0 s o st co da o1 st1 co1 da1,
    ex_block = Ok b /\ (0 < t0)%Qc /\ (t0 < s)%Qc /\
    snd (ex_forward None (set_times None (Some [t0; s]) b)) = Ok (RTensor o, st, co, da) /\
    snd (ex_forward None (set_times (Some s) None b)) = Ok (RTensor o1, st1, co1, da1) /\
    tselect 1 o <> Ok o1.
Proof.
  exists ex_b, (Q2Qc 1), (Q2Qc 2). do 8 eexists. split; [reflexivity|]. split; [reflexivity|]. split; [reflexivity|].
  split; [vm_compute; reflexivity|]. split; [vm_compute; reflexivity|]. intros E. vm_compute in E. discriminate E.
Qed.
Print Assumptions C141_start_refuted.

(** False as well: a time between two steps is interpolated in a vector, and reached with a shorter step alone.
    The vector [0, 1/4, 1] and the time 1/4. *)
Theorem C141_between_refuted :
  exists (b : @block Qc) s t o st co da o1 st1 co1 da1,
    ex_block = Ok b /\ (0 < s)%Qc /\ (s < t)%Qc /\
    snd (ex_forward None (set_times None (Some [0%Qc; s; t]) b)) = Ok (RTensor o, st, co, da) /\
    snd (ex_forward None (set_times (Some s) None b)) = Ok (RTensor o1, st1, co1, da1) /\
    tselect 1 o <> Ok o1.
Proof.
  exists ex_b, (Q2Qc (1 # 4)), (Q2Qc 1). do 8 eexists. split; [reflexivity|]. split; [reflexivity|]. split; [reflexivity|].
  split; [vm_compute; reflexivity|]. split; [vm_compute; reflexivity|]. intros E. vm_compute in E. discriminate E.
Qed.
Print Assumptions C141_between_refuted.

(** True: with a vector that starts with 0, the results at a time which is a whole number of steps away are those
    of the single time.  Missing: times between steps; several concatenated blocks (C63). *)
Theorem C141_grid_times_partial :
  forall (A : Type) (zero : A) ig has_attr rnd add mul rhs other odesolver h hp i x st co data (b b' : @block A)
    t1 ts k s o s' c d,
  steps_of h hp i -> StronglySorted Qclt (0%Qc :: t1 :: ts) ->
  b_time_vec b = Some (0%Qc :: t1 :: ts) -> b_time b = None ->
  nth_error (t1 :: ts) k = Some s -> on_grid h 0%Qc s ->
  ig_concatenate ig = false \/ (st = None /\ data = None) ->
  let fwd := BlockModel.forward zero ig has_attr rnd (integrator_solve add mul rhs other odesolver hp i) in
  fwd x st co data b = (b', Ok (o, s', c, d)) ->
  exists o1 s1 c1 d1,
    snd (fwd x st co data (set_times (Some s) None b)) = Ok (o1, s1, c1, d1) /\
    output_at (S k) o o1 /\ at_time (S k) s' s1 /\ at_time (S k) c c1 /\ at_time (S k) d d1.
Proof. exact @block_times. Qed.
Print Assumptions C141_grid_times_partial.

(** With any other first time the results are those of the time that has passed since, if the right-hand side does
    not depend on the time. *)
Theorem C141_elapsed_times_partial :
  forall (A : Type) (zero : A) ig has_attr rnd add mul rhs other odesolver h hp i x st co data (b b' : @block A)
    t0 t1 ts k s o s' c d,
  autonomous rhs ->
  steps_of h hp i -> StronglySorted Qclt (t0 :: t1 :: ts) ->
  b_time_vec b = Some (t0 :: t1 :: ts) -> b_time b = None ->
  nth_error (t1 :: ts) k = Some s -> on_grid h t0 s ->
  ig_concatenate ig = false \/ (st = None /\ data = None) ->
  let fwd := BlockModel.forward zero ig has_attr rnd (integrator_solve add mul rhs other odesolver hp i) in
  fwd x st co data b = (b', Ok (o, s', c, d)) ->
  exists o1 s1 c1 d1,
    snd (fwd x st co data (set_times (Some (s - t0)%Qc) None b)) = Ok (o1, s1, c1, d1) /\
    output_at (S k) o o1 /\ at_time (S k) s' s1 /\ at_time (S k) c c1 /\ at_time (S k) d d1.
Proof. exact @block_shifted. Qed.
Print Assumptions C141_elapsed_times_partial.

(** The first time has no single counterpart: a block never succeeds with the time 0 alone. *)
Theorem C141_time_zero_partial :
  forall (A : Type) (zero : A) ig has_attr rnd add mul rhs other odesolver h hp i x st co data (b : @block A) r,
  steps_of h hp i -> i_checkpointing_time_interval i = None ->
  snd (BlockModel.forward zero ig has_attr rnd (integrator_solve add mul rhs other odesolver hp i) x st co data
         (set_times (Some 0%Qc) None b)) <> Ok r.
Proof. exact @block_zero. Qed.
Print Assumptions C141_time_zero_partial.

(** The times 0, 1/4, 1, 3/2 with a checkpoint after every unit: the result at index 2 is that of the time 1.
    The times 1, 5/2: that of the time 3/2.  The time 0: refused. *)
Example C141_example :
  steps_of (Q2Qc (1 # 2)) ex_hp (ex_i (Some 1%Qc)) /\ autonomous growing /\
  on_grid (Q2Qc (1 # 2)) 0%Qc 1%Qc /\ on_grid (Q2Qc (1 # 2)) 1%Qc (Q2Qc (5 # 2)) /\
  StronglySorted Qclt [0%Qc; Q2Qc (1 # 4); 1%Qc; Q2Qc (3 # 2)] /\
  (exists o st co da st1 co1 da1 o1 v,
    snd (ex_forward (Some 1%Qc) (set_times None (Some [0%Qc; Q2Qc (1 # 4); 1%Qc; Q2Qc (3 # 2)]) ex_b)) = Ok (RTensor o, st, co, da) /\
    snd (ex_forward (Some 1%Qc) (set_times (Some 1%Qc) None ex_b)) = Ok (RTensor o1, st1, co1, da1) /\
    tselect 2 o = Ok o1 /\ o1 = mkT [1; 1; 1] [v] /\ v <> Q2Qc 7) /\
  (exists o st co da st1 co1 da1 o1,
    snd (ex_forward None (set_times None (Some [1%Qc; Q2Qc (5 # 2)]) ex_b)) = Ok (RTensor o, st, co, da) /\
    snd (ex_forward None (set_times (Some (Q2Qc (3 # 2))) None ex_b)) = Ok (RTensor o1, st1, co1, da1) /\
    tselect 1 o = Ok o1) /\
  snd (ex_forward None (set_times (Some 0%Qc) None ex_b)) = Raise AssertionError.
Proof.
  split; [repeat split; [cbn; tauto|left; reflexivity|exists 2; apply Qc_is_canon; reflexivity]|].
  split; [intros p t t' y; reflexivity|].
  split; [exists 2; apply Qc_is_canon; reflexivity|]. split; [exists 3; apply Qc_is_canon; reflexivity|].
  split; [repeat constructor|].
  split.
  { do 9 eexists. split; [vm_compute; reflexivity|]. split; [vm_compute; reflexivity|]. split; [vm_compute; reflexivity|].
    split; [reflexivity|]. intros E. discriminate E. }
  split; [|vm_compute; reflexivity].
  do 8 eexists. split; [vm_compute; reflexivity|]. split; [vm_compute; reflexivity|]. vm_compute; reflexivity.
Qed.

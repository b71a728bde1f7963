(** C145: trajectories of the model of cc.py.  C146: freezing in cc.py. *)
From Coq Require Import List String Arith ZArith QArith Qcanon Lia Sorting.Sorted.
From Verif Require Import Base Tensor ScdModel ScdSpec BlockModel BlockSpec IntegratorModel FixedGridModel FixedGridSpec
  BlockSolverModel BlockSolverSpec UtilsModel UtilsSpec TrajectoryModel TrajectorySpec TrajectoryProofs.
Import ListNotations.
Open Scope string_scope.
Open Scope list_scope.
Open Scope nat_scope.

(** ** A block of two particles which takes data with one feature, x' = x on numbers, steps of length 1/2 *)
Definition tr_ig : @integrand Qc :=
  mkIntegrand false 2 true true true
    (fun x => match tshape x with [_; _; 1] => Ok [("q1", x)] | _ => Raise RuntimeError end) "q1".
Definition tr_attr (_ : string) := false.
Definition tr_block (until : option Qc) : result (@block Qc) :=
  new_block tr_attr "simple" (Some [("q1", mkT [2; 1; 1] [Q2Qc 1; Q2Qc 2])]) (Some [("p_q1", mkT [2; 1; 1] [Q2Qc 3; Q2Qc 4])])
    true false false false [] [] until 2.
Definition tr_b (until : option Qc) : @block Qc :=
  match tr_block until with Ok b => b | Raise _ => mkBlock "" None None false false true None None [] [] None None None 0 end.
Definition tr_sum (u v : list Qc) : list Qc := map (fun c => (fst c + snd c)%Qc) (combine u v).
Definition tr_hp : heap := [[("step_size", ONum (Q2Qc (1 # 2)))]].
Definition tr_i : integrator := mkIntegrator "odeint" "rk4" false 0 None None None.
Definition tr_solve := integrator_solve tr_sum (fun a => map (Qcmult a)) (fun _ _ y => y) (fun _ _ _ _ _ => Raise ValueError)
  (fun _ x => Ok x) tr_hp tr_i.
Definition tr_apply := apply_block (Q2Qc 0) tr_ig tr_attr (fun _ _ => Q2Qc 0) tr_solve.
Definition tr_trajectory := trajectory (Q2Qc 0) tr_ig tr_attr (fun _ _ => Q2Qc 0) tr_solve.

(** False: after a trajectory which failed (data of the wrong size) the model returns whole trajectories. *)
Theorem C145_after_failure_refuted :
  exists (b b' : @block Qc) good bad e z st co da z' st' co' da',
    tr_block None = Ok b /\
    snd (tr_apply good b) = Ok (RTensor z, st, co, da) /\
    tr_trajectory bad 3 b = (b', Raise e) /\
    snd (tr_apply good b') = Ok (RTensor z', st', co', da') /\ tshape z' = 3 :: tshape z.
Proof.
  exists (tr_b None). eexists. exists (mkT [1; 1; 1] [Q2Qc 7]), (mkT [1; 1; 2] [Q2Qc 7; Q2Qc 8]). do 9 eexists.
  split; [reflexivity|]. split; [vm_compute; reflexivity|]. split; [vm_compute; reflexivity|].
  split; [vm_compute; reflexivity|reflexivity].
Qed.
Print Assumptions C145_after_failure_refuted.

(** False as well: a block which integrates up to another time than 1 integrates up to 1 afterwards. *)
Theorem C145_other_time_refuted :
  exists (b b' : @block Qc) x out r r',
    tr_block (Some (Q2Qc 2)) = Ok b /\
    snd (tr_apply x b) = Ok r /\ tr_trajectory x 3 b = (b', Ok out) /\
    snd (tr_apply x b') = Ok r' /\ r <> r'.
Proof.
  exists (tr_b (Some (Q2Qc 2))). eexists. exists (mkT [1; 1; 1] [Q2Qc 7]). do 3 eexists.
  split; [reflexivity|]. split; [vm_compute; reflexivity|]. split; [vm_compute; reflexivity|].
  split; [vm_compute; reflexivity|]. intros E. discriminate E.
Qed.
Print Assumptions C145_other_time_refuted.

(** True: the last entry of a successful trajectory is what the model computes from the same data, and afterwards
    the block is as after that computation. *)
Theorem C145_end_partial :
  forall (A : Type) (zero : A) ig has_attr rnd add mul rhs other odesolver h hp i x N (b b' : @block A) o s c d,
  steps_of h hp i -> (2 <= N)%Z -> on_grid h 0%Qc 1%Qc -> b_time b = Some 1%Qc -> b_time_vec b = None ->
  trajectory zero ig has_attr rnd (integrator_solve add mul rhs other odesolver hp i) x N b = (b', Ok (o, s, c, d)) ->
  exists o1 s1 c1 d1,
    apply_block zero ig has_attr rnd (integrator_solve add mul rhs other odesolver hp i) x b = (b', Ok (o1, s1, c1, d1)) /\
    let k := Z.to_nat (N - 1) in output_at k o o1 /\ at_time k s s1 /\ at_time k c c1 /\ at_time k d d1.
Proof. exact @trajectory_end. Qed.
Print Assumptions C145_end_partial.

(** The entry with number k is what the model computes when it integrates up to the time k / (N-1).
    Missing: times between the steps of the solver (C141_between_refuted). *)
Theorem C145_entries_partial :
  forall (A : Type) (zero : A) ig has_attr rnd add mul rhs other odesolver h hp i x N (b b' : @block A) k o s c d,
  steps_of h hp i -> 0 < k -> (Z.of_nat k < N)%Z -> on_grid h 0%Qc (moment N k) ->
  trajectory zero ig has_attr rnd (integrator_solve add mul rhs other odesolver hp i) x N b = (b', Ok (o, s, c, d)) ->
  exists o1 s1 c1 d1,
    snd (apply_block zero ig has_attr rnd (integrator_solve add mul rhs other odesolver hp i) x
           (set_times (Some (moment N k)) None b)) = Ok (o1, s1, c1, d1) /\
    output_at k o o1 /\ at_time k s s1 /\ at_time k c c1 /\ at_time k d d1.
Proof. exact @trajectory_rows. Qed.
Print Assumptions C145_entries_partial.

(** The first entry: the data, and the particles, as they are. *)
Theorem C145_start_partial :
  forall (A : Type) (zero : A) ig has_attr rnd add mul rhs other odesolver h hp i x N (b b' : @block A) o s c d s0 c0 d0 q,
  steps_of h hp i -> (2 <= N)%Z ->
  b_state b = Some s0 -> good_dict s0 -> b_costate b = Some c0 -> good_dict c0 ->
  ig_initial_data ig x = Ok d0 -> good_dict d0 -> sd_get (ig_output_key ig) d0 = Some q ->
  trajectory zero ig has_attr rnd (integrator_solve add mul rhs other odesolver hp i) x N b = (b', Ok (o, s, c, d)) ->
  output_at 0 o (RTensor q) /\ at_time 0 s [(b_name b, s0)] /\ at_time 0 c [(b_name b, c0)] /\
  at_time 0 d [(b_name b, d0)].
Proof. exact @trajectory_start. Qed.
Print Assumptions C145_start_partial.

(** Whatever the solver: after a successful trajectory the block is as after applying the model. *)
Theorem C145_kept_partial :
  forall (A : Type) (zero : A) ig has_attr rnd solve x N (b b' : @block A) out b1 out1,
  b_time b = Some 1%Qc -> b_time_vec b = None ->
  trajectory zero ig has_attr rnd solve x N b = (b', Ok out) ->
  apply_block zero ig has_attr rnd solve x b = (b1, Ok out1) -> b' = b1.
Proof. exact @trajectory_leaves. Qed.
Print Assumptions C145_kept_partial.

(** Three points: 7, the value at 1/2, the value at 1, which is the one of the model. *)
Example C145_example :
  steps_of (Q2Qc (1 # 2)) tr_hp tr_i /\ on_grid (Q2Qc (1 # 2)) 0%Qc 1%Qc /\ on_grid (Q2Qc (1 # 2)) 0%Qc (moment 3 1) /\
  b_time (tr_b None) = Some 1%Qc /\ b_time_vec (tr_b None) = None /\
  exists b' v w st co da st1 co1 da1,
    tr_trajectory (mkT [1; 1; 1] [Q2Qc 7]) 3 (tr_b None) = (b', Ok (RTensor (mkT [3; 1; 1; 1] [Q2Qc 7; v; w]), st, co, da)) /\
    tr_apply (mkT [1; 1; 1] [Q2Qc 7]) (tr_b None) = (b', Ok (RTensor (mkT [1; 1; 1] [w]), st1, co1, da1)) /\
    v <> w /\ w <> Q2Qc 7.
Proof.
  split; [repeat split; [cbn; tauto|left; reflexivity]|].
  split; [exists 2; apply Qc_is_canon; reflexivity|]. split; [exists 1; apply Qc_is_canon; reflexivity|].
  split; [reflexivity|]. split; [reflexivity|].
  do 9 eexists. split; [vm_compute; reflexivity|]. split; [vm_compute; reflexivity|]. split; intros E; discriminate E.
Qed.

(** ** C146 *)

(** False: with known names the named parameters still require gradients afterwards, unlike with the function of the
    same name in utils.py. *)
Theorem C146_freezes_refuted :
  exists names model, (forall n, In n names -> In n (map fst model)) /\
    UtilsModel.freeze_parameters names model = (Ok tt, switched false names model) /\
    cc_freeze_parameters names model = (Ok tt, model) /\ model <> switched false names model.
Proof.
  exists ["q1"], [("q1", mkPar [2; 1; 3] true); ("p_q1", mkPar [2; 1; 3] true)].
  split; [intros n [<-|[]]; left; reflexivity|]. split; [reflexivity|]. split; [reflexivity|]. intros E. discriminate E.
Qed.
Print Assumptions C146_freezes_refuted.

(** True: nothing changes; unknown names are refused. *)
Theorem C146_nothing_partial : forall names model,
  cc_freeze_parameters names model =
  (if forallb (fun n => existsb (String.eqb n) (map fst model)) names then Ok tt else Raise KeyError, model).
Proof. exact cc_freeze. Qed.
Print Assumptions C146_nothing_partial.

Example C146_example :
  cc_freeze_parameters ["q1"; "q2"] [("q1", mkPar [2; 1; 3] true)] = (Raise KeyError, [("q1", mkPar [2; 1; 3] true)]).
Proof. reflexivity. Qed.

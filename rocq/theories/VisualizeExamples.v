(** A block for the examples of PropVisualize: one particle, data with two features, x' = x on numbers, Euler steps of
    length 1. *)
From Coq Require Import List String Arith ZArith QArith Qcanon.
From Verif Require Import Base Tensor ScdModel BlockModel IntegratorModel FixedGridModel BlockSolverModel TrajectoryModel VisualizeModel.
Import ListNotations.
Open Scope string_scope.
Open Scope list_scope.
Open Scope nat_scope.

Definition vi_ig : @integrand Qc :=
  mkIntegrand false 2 true true true
    (fun x => match tshape x with [_; _; 2] => Ok [("q1", x)] | _ => Raise RuntimeError end) "q1".
Definition vi_attr (_ : string) := false.
Definition vi_block : result (@block Qc) :=
  new_block vi_attr "simple" (Some [("q1", mkT [1; 1; 2] [Q2Qc 1; Q2Qc 2])]) (Some [("p_q1", mkT [1; 1; 2] [Q2Qc 3; Q2Qc 4])])
    true false false false [] [] None 2.
Definition vi_b : @block Qc :=
  match vi_block with Ok b => b | Raise _ => mkBlock "" None None false false true None None [] [] None None None 0 end.
Definition vi_sum (u v : list Qc) : list Qc := map (fun c => (fst c + snd c)%Qc) (combine u v).
Definition vi_hp : heap := [[("step_size", ONum 1%Qc)]].
Definition vi_i : integrator := mkIntegrator "odeint" "euler" false 0 None None None.
Definition vi_solve := integrator_solve vi_sum (fun a => map (Qcmult a)) (fun _ _ y => y) (fun _ _ _ _ _ => Raise ValueError)
  (fun _ x => Ok x) vi_hp vi_i.
Definition vi_apply := apply_block (Q2Qc 0) vi_ig vi_attr (fun _ _ => Q2Qc 0) vi_solve.
Definition vi_times : list Qc := [0%Qc; 1%Qc; Q2Qc 2].

(** The block applied to the places; only the extents and the entry of the last place at the last time. *)
Definition vi_seen (r : result (@outputs Qc)) : option (list nat * nat * option Qc) :=
  match r with
  | Ok (RTensor t, _, _, _) => Some (tshape t, List.length (tdata t), tget t [2; 440; 0; 0])
  | _ => None
  end.

Lemma vi_computed : vi_seen (snd (apply_block (Q2Qc 0) vi_ig vi_attr (fun _ _ => Q2Qc 0) vi_solve (samples Q2Qc)
    (set_times None (Some (firstn 5 vi_times)) vi_b)))
  = Some ([3; 441; 1; 2], 2646, Some (Q2Qc 8)).
Proof. vm_compute. reflexivity. Qed.

Lemma vi_run : exists b' out s c d,
  apply_block (Q2Qc 0) vi_ig vi_attr (fun _ _ => Q2Qc 0) vi_solve (samples Q2Qc) (set_times None (Some (firstn 5 vi_times)) vi_b)
    = (b', Ok (RTensor out, s, c, d)) /\ twf out /\
  tshape out = [3; 21 * 21; 1; 2].
Proof.
  pose proof vi_computed as E.
  destruct (apply_block (Q2Qc 0) vi_ig vi_attr (fun _ _ => Q2Qc 0) vi_solve (samples Q2Qc)
    (set_times None (Some (firstn 5 vi_times)) vi_b)) as [b' r].
  destruct r as [[[[o s] c] d]|]; [|discriminate E]. destruct o as [out| |]; [|discriminate E|discriminate E].
  change (Some (tshape out, List.length (tdata out), tget out [2; 440; 0; 0]) = Some ([3; 441; 1; 2], 2646, Some (Q2Qc 8))) in E.
  exists b', out, s, c, d. split; [reflexivity|].
  assert (S1 : tshape out = [3; 441; 1; 2] /\ List.length (tdata out) = 2646) by (split; congruence).
  destruct S1 as (S1 & S2). split; [|exact S1]. unfold twf. rewrite S1, S2. reflexivity.
Qed.

(** C155: only the differences of the times matter. *)
From Coq Require Import List String Reals ZArith QArith Qcanon.
From Verif Require Import Base IntegratorModel FixedGridModel VecModel ParticlesModel OffsetSpec OffsetProofs.
Import ListNotations.
Open Scope string_scope.
Open Scope list_scope.

(** Times later by [c], with a right-hand side which takes place later by [c]: the same results or the same exception, with
    or without checkpoints, for increasing and decreasing times. *)
Theorem C155_runs :
  forall (X : Type) (add : X -> X -> X) mul c f f' other odesolver h i y t,
  delayed c f f' -> i_library i = "odeint" -> In (i_name i) ["euler"; "midpoint"; "rk4"] ->
  integrate (fixed_odeint add mul f' other) odesolver h i y (later c t)
  = integrate (fixed_odeint add mul f other) odesolver h i y t.
Proof. exact @whole_later. Qed.
Print Assumptions C155_runs.

(** The shooting equations do not mention the time. *)
Theorem C155_particles :
  forall m c other odesolver h i y t,
  i_library i = "odeint" -> In (i_name i) ["euler"; "midpoint"; "rk4"] ->
  integrate (fixed_odeint plus_system times_system (system_field m) other) odesolver h i y (later c t)
  = integrate (fixed_odeint plus_system times_system (system_field m) other) odesolver h i y t.
Proof. exact (fun m c o s h i y t => whole_later plus_system times_system c (system_field m) (system_field m) o s h i y t (fun _ _ => eq_refl)). Qed.
Print Assumptions C155_particles.

(** The other library does not see the times; it only checks that they are one apart. *)
Theorem C155_anode :
  forall (X : Type) (od : bool -> string -> opts -> X -> list Qc -> result (list X)) odesolver c h i y t,
  i_library i = "anode" -> i_nr_of_checkpoints i = None -> i_checkpointing_time_interval i = None -> List.length t <> 1%nat ->
  integrate od odesolver h i y (later c t) = integrate od odesolver h i y t.
Proof. exact @anode_later. Qed.
Print Assumptions C155_anode.

(** A single time is taken for the length of the integration by the other library, and its results change. *)
Theorem C155_anode_refuted :
  exists (od : bool -> string -> opts -> Qc -> list Qc -> result (list Qc)) odesolver c h i y t,
  i_library i = "anode" /\ integrate od odesolver h i y (later c t) <> integrate od odesolver h i y t.
Proof.
  exists (fun _ _ _ _ _ => Ok []), (fun _ y => Ok y), 1%Qc, [[]], (mkIntegrator "anode" "rk4" false 0 None None None), 1%Qc, [1%Qc].
  split; [reflexivity|]. vm_compute. discriminate.
Qed.
Print Assumptions C155_anode_refuted.

(** The equation y' = y with one checkpoint and steps of 1/2, from time 0 and from time 5. *)
Example C155_example :
  let i := mkIntegrator "odeint" "euler" false 0 None (Some 1%Z) None in
  let h := [[("step_size", ONum (Q2Qc (1 # 2)))]] in
  let run := integrate (fixed_odeint Qcplus Qcmult (fun _ y => y) (fun _ _ _ _ _ => Raise ValueError)) (fun _ _ => Raise ValueError) h i 1%Qc in
  map this (later (Q2Qc 5) [0%Qc; 1%Qc; Q2Qc 2]) = [5; 6; 7]%Q /\
  exists ys, run [0%Qc; 1%Qc; Q2Qc 2] = (h, Ok (Some ys)) /\ map this ys = [1; 9 # 4; 81 # 16]%Q.
Proof. split; [vm_compute; reflexivity|]. eexists. split; [vm_compute; reflexivity|]. vm_compute. reflexivity. Qed.

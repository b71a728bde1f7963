(** What a run of demos/neurips20/cc.py is expected to do, without its functions. *)
From Coq Require Import List String ZArith QArith Reals.
From Verif Require Import Base VecModel VecFlow VecSpec ArgparseModel CirclesModel.
Import ListNotations.
Open Scope string_scope.
Open Scope list_scope.
Open Scope nat_scope.

(** Every instruction uses vectors which have been computed before; [n] is the number of vectors so far. *)
Fixpoint well_formed (n : nat) (prog : list instr) : Prop :=
  match prog with
  | [] => True
  | Rhs _ j :: prog => j < n /\ well_formed (S n) prog
  | Combine first others :: prog => snd first < n /\ Forall (fun ak => snd ak < n) others /\ well_formed (S n) prog
  end.

(** An integrator first evaluates the right-hand side at the initial vector. *)
Definition solver (prog : list instr) : Prop := well_formed 1 prog /\ exists t rest, prog = Rhs t 0 :: rest.

(** The times of the evaluations. *)
Definition evaluation_times (prog : list instr) : list R :=
  flat_map (fun i => match i with Rhs t _ => [t] | Combine _ _ => [] end) prog.

(** The list under a name, empty if there is none. *)
Definition series (name : string) (d : notes) : list noted := match sd_get name d with Some l => l | None => [] end.

(** [l] holds [n] matrices of the given sizes. *)
Definition matrices (n a b : nat) (l : list noted) : Prop :=
  exists ws, l = map NPar ws /\ List.length ws = n /\ Forall (fun w => m0 w = a /\ m1 w = b) ws.

(** A complete recording of a pass with evaluations at [times]: all six lists have one entry for each evaluation. *)
Definition recording (N e : nat) (times : list R) (d : notes) : Prop :=
  series "t" d = map NTime times /\
  (exists qs, series "q1" d = map NState qs /\ List.length qs = List.length times /\ Forall (of_shape N 1 2) qs) /\
  matrices (List.length times) 2 e (series "l1_weight" d) /\ matrices (List.length times) 1 2 (series "l1_bias" d) /\
  matrices (List.length times) e 2 (series "l2_weight" d) /\ matrices (List.length times) 1 e (series "l2_bias" d).

(** The value of an option after parsing. *)
Definition option_is (ns : pdict argval) (name : string) (v : argval) : Prop := pd_get name ns = Some v.

(** Sizes of at least 1, a weight other than 0, and a seed which numpy accepts. *)
Definition usual (ns : pdict argval) (d N f : Z) : Prop :=
  option_is ns "shooting_dim" (AInt d) /\ option_is ns "nr_of_particles" (AInt N) /\ option_is ns "inflation_factor" (AInt f) /\
  (1 <= d)%Z /\ (1 <= N)%Z /\ (1 <= f)%Z /\
  (forall q, option_is ns "pw" (ANum q) -> ~ (q == 0)%Q) /\
  (forall z, option_is ns "seed" (AInt z) -> z = (-1)%Z \/ (0 <= z < 2 ^ 32)%Z).

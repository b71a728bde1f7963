(** C142: only the distribution of the particles matters. *)
From Coq Require Import List String Reals Arith QArith Qcanon Qreals Lia Lra.
From Verif Require Import Base RealSum IntegratorModel FixedGridModel VecModel ParticlesModel ParticlesSpec ParticlesProofs
  ParticlesProofs2 ParticlesExamples.
Import ListNotations.
Open Scope string_scope.
Open Scope list_scope.
Open Scope nat_scope.

(** The parameters computed from the particles are those computed from particles chosen evenly. *)
Theorem C142_parameters :
  forall g N N', evenly g N N' ->
  forall nl dnl init d e W ow m m',
  In (m, m') (combine (vector_equations nl dnl init d e W ow N) (vector_equations nl dnl init d e W ow N')) ->
  forall s s' c c' th, all_chosen g N N' s s' -> all_chosen g N N' c c' ->
  eq_parameters m s c = Ok th -> eq_parameters m' s' c' = Ok th.
Proof. exact (fun g N N' EV nl dnl init d e W ow m m' I s s' c c' th => parameters_same g N N' EV nl dnl init d e W ow m m' s s' c c' th I). Qed.
Print Assumptions C142_parameters.

(** The derivatives of chosen particles are chosen among the derivatives, those of the data are the same. *)
Theorem C142_derivatives :
  forall g N N', evenly g N N' ->
  forall nl dnl init d e W ow m m',
  In (m, m') (combine (vector_equations nl dnl init d e W ow N) (vector_equations nl dnl init d e W ow N')) ->
  forall y y' r, chosen_system g N N' y y' -> system_rhs m y = Ok r ->
  exists r', system_rhs m' y' = Ok r' /\ chosen_system g N N' r r'.
Proof. exact (fun g N N' EV nl dnl init d e W ow m m' I y y' r => system_follows g N N' EV nl dnl init d e W ow m m' y y' r I). Qed.
Print Assumptions C142_derivatives.

(** So are whole runs of the solvers with fixed steps, for all options and all times. *)
Theorem C142_runs :
  forall g N N', evenly g N N' ->
  forall nl dnl init d e W ow m m',
  In (m, m') (combine (vector_equations nl dnl init d e W ow N) (vector_equations nl dnl init d e W ow N')) ->
  forall other adjoint name o y y' t ys, chosen_system g N N' y y' -> In name ["euler"; "midpoint"; "rk4"] ->
  fixed_odeint plus_system times_system (system_field m) other adjoint name o (Ok y) t = Ok (map Ok ys) ->
  exists ys', fixed_odeint plus_system times_system (system_field m') other adjoint name o (Ok y') t = Ok (map Ok ys')
    /\ Forall2 (chosen_system g N N') ys ys'.
Proof.
  exact (fun g N N' EV nl dnl init d e W ow m m' I other adj name o y y' t ys =>
           run_same g N N' EV nl dnl init d e W ow m m' other adj name o y y' t ys I).
Qed.
Print Assumptions C142_runs.

(** Two particles at 0 and 1 with costates 1, each taken twice: a run with one step exists. *)
Example C142_example :
  evenly (fun n => n mod 2) 2 4 /\
  chosen_system (fun n => n mod 2) 2 4 (two_positions, two_costates, some_data) (four_positions, four_costates, some_data) /\
  (forall init, exists ys, List.length ys = 2 /\
     fixed_odeint plus_system times_system
       (system_field (mkEquations (simple_rhs (fun x => x)) (simple_costate (fun x => x) (fun _ => 1%R) 2)
                                  (simple_parameters (fun x => x) init 1 None 2)))
       (fun _ _ _ _ _ => Raise ValueError) false "euler" [] (Ok (two_positions, two_costates, some_data)) [0%Qc; 1%Qc]
     = Ok (map Ok ys)).
Proof.
  split; [|split].
  - split; [intros n _; apply Nat.mod_upper_bound; lia|]. exists 2. split; [lia|]. intros [|[|j]] J; [reflexivity..|lia].
  - repeat split; repeat constructor.
  - intros init. eexists [_; _]. split; [reflexivity|]. lazy -[Rplus Rmult Ropp Rinv Rdiv IZR INR Q2R rsum]. reflexivity.
Qed.

(** Taking one of the particles twice and the other once does change the parameters. *)
Example C142_unevenly :
  forall init,
  let par n s := match simple_parameters (fun x => x) init 1 None n s [("p_q1", mkT3 n 1 1 (fun _ _ _ => 1%R))] with
                 | Ok [(_, l)] => v2 (lin_weight l) 0 0 | _ => 0%R end in
  par 2 two_positions = (1 / 2)%R /\ par 3 [("q1", mkT3 3 1 1 (fun n _ _ => INR (min n 1)))] = (2 / 3)%R.
Proof. intros init. cbn. split; field. Qed.

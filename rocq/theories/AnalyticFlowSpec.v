(** Specification: switching [use_analytic_solution] changes nothing that can be observed. *)
From Coq Require Import List String Bool Reals Arith.
From Verif Require Import Base Tensor RealSum VecModel VecSpec VecFlow.
Import ListNotations.
Open Scope string_scope.
Open Scope list_scope.
Open Scope R_scope.

(** The same entries in the particles, the costates and the data. *)
Definition same_system (x y : system) : Prop :=
  same_entries (sys_state x) (sys_state y) /\ same_entries (sys_costate x) (sys_costate y)
  /\ same_entries (sys_data x) (sys_data y).

(** Particles, costates and data of the sizes of the model: [N] particles of dimension [D], [B] samples
    of dimension [E]. *)
Definition has_system (names : list (string * nat)) (N D B E : nat) (x : system) : Prop :=
  has_states names "" N D (sys_state x) /\ has_states names "p_" N D (sys_costate x)
  /\ has_states names "" B E (sys_data x).

(** [parameters] and [costate] are computed by differentiation (si.py:684-739, 834-855, 873-897):
    for all particles of the sizes of the model they return what [autodiff_parameters] and
    [autodiff_costates] say. *)
Definition differentiates_model (rhs : states -> pars -> result states) (os : pars) (names : list (string * nat)) (N D : nat)
    (parameters : R -> states -> states -> result pars) (costate : R -> states -> states -> pars -> result states) : Prop :=
  (forall t s c, has_states names "" N D s -> has_states names "p_" N D c ->
     exists th, parameters t s c = Ok th /\ autodiff_parameters rhs os s c th) /\
  (forall t s c th, has_states names "" N D s -> has_states names "p_" N D c -> autodiff_parameters rhs os s c th ->
     exists dp, costate t s c th = Ok dp /\ autodiff_costates rhs os N s c dp).

(** An integrator that chooses its next instruction from all vectors computed so far, for example with
    step size control; the choice depends on nothing but the entries. *)
Definition integrator := list system -> option instr.
Definition looks_at_entries (next : integrator) : Prop :=
  forall e e', Forall2 same_system e e' -> next e = next e'.

(** At most [n] instructions of the integrator. *)
Fixpoint integrate (rhs : states -> pars -> result states) (parameters : R -> states -> states -> result pars)
    (costate : R -> states -> states -> pars -> result states) (next : integrator) (n : nat) (env : list system) : result (list system) :=
  match n with
  | O => Ok env
  | S n => match next env with
           | None => Ok env
           | Some i => env' <- step rhs parameters costate env i ;; integrate rhs parameters costate next n env'
           end
  end.

(** The mean of the squares of the first data state (autograd_gradient_test.py:126). *)
Definition mean_square (x : t3) : R :=
  rsum (n0 x) (fun n => rsum (n1 x) (fun i => rsum (n2 x) (fun k => v3 x n i k ^ 2))) / INR (n0 x * n1 x * n2 x).

(** The loss of autograd_gradient_test.py:123-126: mean square of the prediction, which is the first data
    state of the vector number [j], plus the norm penalty, which is the kinetic energy of the parameters
    at time zero (si.py:672, 726). *)
Definition script_loss (rhs : states -> pars -> result states) (parameters : R -> states -> states -> result pars)
    (costate : R -> states -> states -> pars -> result states) (next : integrator) (n j : nat) (start : system) : result R :=
  env <- integrate rhs parameters costate next n [start] ;;
  y <- fetch env j ;;
  th <- parameters 0 (sys_state start) (sys_costate start) ;;
  match sys_data y with
  | [] => Raise IndexError
  | (_, q) :: _ => Ok (mean_square q + kinetic_energy th)
  end.

(** Everything the two settings compute agrees: all vectors for fixed programs and for integrators that
    choose, the norm penalty, the loss, and the derivative of the loss by any entry of any particle or
    costate. *)
Definition switch_changes_nothing (D : nat) (rhs : states -> pars -> result states) (os : pars)
    (costate : nat -> states -> states -> pars -> result states)
    (parameters : nat -> states -> states -> result pars) (names : list (string * nat)) : Prop :=
  forall N B E parA cosA, (0 < N)%nat -> differentiates_model rhs os names N D parA cosA ->
    let par := fun _ : R => parameters N in let cos := fun _ : R => costate N in
    (forall prog start, has_system names N D B E start ->
       both (Forall2 same_system) (run rhs par cos prog start) (run rhs parA cosA prog start)) /\
    (forall next n start, looks_at_entries next -> has_system names N D B E start ->
       both (Forall2 same_system) (integrate rhs par cos next n [start]) (integrate rhs parA cosA next n [start])) /\
    (forall t s c, has_states names "" N D s -> has_states names "p_" N D c ->
       exists th th', par t s c = Ok th /\ parA t s c = Ok th' /\ kinetic_energy th = kinetic_energy th') /\
    (forall next n j start, looks_at_entries next -> has_system names N D B E start ->
       script_loss rhs par cos next n j start = script_loss rhs parA cosA next n j start) /\
    (forall next n j s c d a q x u v w z, looks_at_entries next -> has_system names N D B E (mkSystem s c d) ->
       nth_error s a = Some (q, x) ->
       has_derivative (fun y => script_loss rhs par cos next n j (mkSystem (set_nth a (q, upd3 x u v w y) s) c d)) (v3 x u v w) z <->
       has_derivative (fun y => script_loss rhs parA cosA next n j (mkSystem (set_nth a (q, upd3 x u v w y) s) c d)) (v3 x u v w) z) /\
    (forall next n j s c d a q x u v w z, looks_at_entries next -> has_system names N D B E (mkSystem s c d) ->
       nth_error c a = Some (q, x) ->
       has_derivative (fun y => script_loss rhs par cos next n j (mkSystem s (set_nth a (q, upd3 x u v w y) c) d)) (v3 x u v w) z <->
       has_derivative (fun y => script_loss rhs parA cosA next n j (mkSystem s (set_nth a (q, upd3 x u v w y) c) d)) (v3 x u v w) z).

(** A run that refers only to vectors computed before. *)
Definition instr_in (m : nat) (i : instr) : Prop :=
  match i with Rhs _ j => (j < m)%nat | Combine (_, j) l => (j < m)%nat /\ Forall (fun bk => (snd bk < m)%nat) l end.
Fixpoint refers_back (m : nat) (prog : list instr) : Prop :=
  match prog with [] => True | i :: l => instr_in m i /\ refers_back (S m) l end.

(** Such runs of the hand-written equations never fail and keep the sizes. *)
Definition runs_succeed (D : nat) (rhs : states -> pars -> result states)
    (costate : nat -> states -> states -> pars -> result states)
    (parameters : nat -> states -> states -> result pars) (names : list (string * nat)) : Prop :=
  forall N B E prog start, (0 < N)%nat -> has_system names N D B E start -> refers_back 1 prog ->
    exists env, run rhs (fun _ => parameters N) (fun _ => costate N) prog start = Ok env
                /\ List.length env = S (List.length prog) /\ Forall (has_system names N D B E) env.

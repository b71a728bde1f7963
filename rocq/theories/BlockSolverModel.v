(** A shooting block with the solver it is given by default: the solver which is left open in BlockModel
    (shooting_blocks.py:695, 699) is the integrator of generic_integrator.py (IntegratorModel) with a solver of
    fixed step size (FixedGridModel).  The integrated vector is the list of its entries.

    Simplified: the right-hand side depends on the time, the vector and the assembly plans that were stored in
    the integrand (shooting_blocks.py:688), and does not raise. *)
From Coq Require Import List String Arith ZArith QArith Qcanon Bool.
From Verif Require Import Base Tensor ScdModel BlockModel IntegratorModel FixedGridModel.
Import ListNotations.
Open Scope string_scope.
Open Scope list_scope.
Open Scope nat_scope.

(** The solution as odeint returns it: [torch.stack] of the values (generic_integrator.py:106-114); vectors of
    different length are refused. *)
Definition stack_rows {A} (vs : list (list A)) : result (tensor A) :=
  match vs with
  | [] => Raise RuntimeError
  | v :: _ =>
      if forallb (fun w => List.length w =? List.length v) vs
      then Ok (mkT [List.length vs; List.length v] (List.concat vs)) else Raise RuntimeError
  end.

Section Solver.
Context {A : Type}.
Variable add : list A -> list A -> list A.
Variable mul : Qc -> list A -> list A.
Variable rhs : option plans -> Qc -> list A -> list A.
Variable other : bool -> string -> opts -> list A -> list Qc -> result (list (list A)).
Variable odesolver : opts -> list A -> result (list A).
Variable hp : heap.
Variable i : integrator.

(** [self.integrator.integrate(func=self.shooting_integrand, x0=..., t=...)] (shooting_blocks.py:695, 699;
    generic_integrator.py:257-263).  Without values [None] is returned, which cannot be disassembled. *)
Definition integrator_solve (b : block (A := A)) (x0 : list A) (ts : list Qc) : result (tensor A) :=
  vs <- snd (integrate (fixed_odeint add mul (rhs (b_plans b)) other) odesolver hp i x0 ts) ;;
  match vs with
  | Some vs => stack_rows vs
  | None => Raise TypeError
  end.
End Solver.

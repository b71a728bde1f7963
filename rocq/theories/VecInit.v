(** Model of the initial states and initial data of the vector models (neuro_shooting/shooting_models.py,
    cited as sm.py).  Conventions as in VecModel.v. *)
From Coq Require Import List String Bool Reals Arith.
From Verif Require Import Base RealSum VecModel.
Import ListNotations.
Open Scope string_scope.
Open Scope R_scope.

Section Init.
(** Entries chosen by the state initializer (external): random, zero or constant
    (parameter_initialization.py:77-138). *)
Variable ini : string -> nat -> nat -> nat -> R.
Variable nr_of_particles particle_dimension particle_size inflation_factor : nat.
Let N := nr_of_particles.
Let D := particle_dimension.
Let z := particle_size.
Let f := inflation_factor.

(** parameter_initialization.py:77-138 *)
Definition create_parameters (nm : string) (a b c : nat) : string * t3 := (nm, mkT3 a b c (ini nm)).

(** sm.py:239-254 (also 463-478, 688-703, 1499-1514, 1884-1899) *)
Definition updown_initial : states := [create_parameters "q1" N D z; create_parameters "q2" N D (z * f)].
(** sm.py:145-159 (also 943-957, 1433-1445) *)
Definition second_order_initial : states := [create_parameters "q1" N D z; create_parameters "q2" N D z].
(** sm.py:1143-1152 *)
Definition simple_initial : states := [create_parameters "q1" N D z].
(** sm.py:1669-1687 *)
Definition symmetrized_initial : states :=
  [create_parameters "q1" N D z; create_parameters "q2" N D (z * f); create_parameters "q3" N D z].
(** sm.py:33-58; keys sorted *)
Definition dampened_initial : states :=
  [create_parameters "c1" N 1 1; create_parameters "c2" N 1 1; create_parameters "q1" N D z; create_parameters "q2" N D (z * f)].
End Init.

Section Data.
Variable nl : R -> R.
Variable in_features inflation_factor : nat.

(** [z.repeat([1,1,f])] (external) *)
Definition repeat_features (x : t3) : t3 :=
  mkT3 (n0 x) (n1 x) (n2 x * inflation_factor) (fun n i k => v3 x n i (Nat.modulo k (n2 x))).

(** The options of sm.py:219-236: [data_q20], [simple_init], or the two layers of the small network. *)
Inductive data_mode : Type :=
  | ZeroData
  | Direct (data_q20 : t2)
  | LinearInit (simple_init : lin)
  | MiniNN (init_l1 init_l2 : lin).

(** sm.py:288-295: [expand] repeats [data_q20] for every sample. *)
Definition expand_direct (q20 : t2) (x : t3) : t3 := mkT3 (n0 x) (m0 q20) (m1 q20) (fun _ => v2 q20).

(** sm.py:280-312 (also 508-540, 744-776, 1928-1961; only the zero mode in 1540-1552) *)
Definition updown_data (mode : data_mode) (x : t3) : result states :=
  q2 <- match mode with
        | ZeroData => Ok (repeat_features (zeros_like x))
        | Direct q20 => Ok (expand_direct q20 x)
        | LinearInit l => forward l x
        | MiniNN l1 l2 => h <- forward l1 x ;; forward l2 (map3 nl h)
        end ;;
  Ok [("q1", x); ("q2", q2)].

(** sm.py:185-191 (also 1113-1119, 1468-1473) *)
Definition second_order_data (x : t3) : states := [("q1", x); ("q2", zeros_like x)].
(** sm.py:1256-1261 *)
Definition simple_data (x : t3) : states := [("q1", x)].
(** sm.py:1714-1726 *)
Definition symmetrized_data (x : t3) : states := [("q1", x); ("q2", repeat_features x); ("q3", x)].
(** sm.py:107-123 *)
Definition dampened_data (x : t3) : states :=
  [("c1", mkT3 (n0 x) 1 1 (fun _ _ _ => 0)); ("c2", mkT3 (n0 x) 1 1 (fun _ _ _ => 0));
   ("q1", x); ("q2", repeat_features (zeros_like x))].
End Data.

(** The layers of sm.py:223-233 for the given sizes ([nn.Linear], entries random). *)
Definition mode_of_sizes (D d e : nat) (mode : data_mode) : Prop :=
  match mode with
  | ZeroData => True
  | Direct q20 => m0 q20 = D /\ m1 q20 = e
  | LinearInit l => m0 (lin_weight l) = e /\ m1 (lin_weight l) = d
                    /\ exists b, lin_bias l = Some b /\ m0 b = 1%nat /\ m1 b = e
  | MiniNN l1 l2 =>
      (m0 (lin_weight l1) = 10%nat /\ m1 (lin_weight l1) = d /\ exists b, lin_bias l1 = Some b /\ m0 b = 1%nat /\ m1 b = 10%nat)
      /\ (m0 (lin_weight l2) = e /\ m1 (lin_weight l2) = 10%nat /\ exists b, lin_bias l2 = Some b /\ m0 b = 1%nat /\ m1 b = e)
  end.

(** Model of the hand-made equations of tests/autograd_versus_manualgrad.py (cited as mg.py), which the
    script compares with those the package finds for AutoShootingIntegrandModelSimple.

    Numbers are reals; tensors and torch operations are those of VecModel.  [qi] and [pi] are the states and
    costates of the block (mg.py:126-131), taken out of the assembled vector; that taking apart undoes
    putting together is property C01. *)
From Coq Require Import List String Bool Reals Arith.
From Verif Require Import Base RealSum VecModel StandaloneModel.
Import ListNotations.
Open Scope R_scope.

Section Manual.
  Variables (nl dnl : R -> R) (in_features nr_of_particles : nat).

(** mg.py:71 *)
Definition nr_of_particle_parameters : nat := (in_features * nr_of_particles)%nat.

(** mg.py:134-137 *)
Definition manual_weight (qi pi : t3) : result t2 :=
  At <- foldM (fun At i => p <- row pi i ;; q <- row qi i ;; m <- zip2 Rmult (tr p) (map2 nl q) ;; zip2 Rplus At (tr m))
          (seq 0 nr_of_particles) (mkT2 in_features in_features (fun _ _ => 0)) ;;
  if Nat.eqb nr_of_particle_parameters 0 then Raise ZeroDivisionError
  else Ok (map2 (Rmult (1 / INR nr_of_particle_parameters)) At).

(** mg.py:138 *)
Definition manual_bias (pi : t3) : t2 := map2 (Rmult (1 / INR nr_of_particle_parameters)) (sum0 pi).

(** mg.py:141 *)
Definition manual_dot_q (qi : t3) (At bt : t2) : result t3 := y <- matmul32 (map3 nl qi) At ;; add32 y bt.

(** mg.py:144-146; the loop is that of sm.py:1209-1211 *)
Definition manual_dot_p (qi pi : t3) (At : t2) : result t3 := costate_loop dnl nr_of_particles qi pi (tr At).

(** mg.py:134-146 *)
Definition manual (qi pi : t3) : result (t2 * t2 * t3 * t3) :=
  At <- manual_weight qi pi ;; let bt := manual_bias pi in
  dot_qt <- manual_dot_q qi At bt ;; dot_pt <- manual_dot_p qi pi At ;;
  Ok (At, bt, dot_qt, dot_pt).
End Manual.

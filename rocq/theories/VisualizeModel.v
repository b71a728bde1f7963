(** Model of [visualize] of neuro_shooting/vector_visualization.py (vv.py), on top of BlockModel.  Modelled are the
    exceptions, what is drawn in the third of the three plots (the learned vector field), whether the particles are
    drawn, and the block afterwards.

    [num] turns numbers into tensor entries, [val] tensor entries into numbers (vv.py converts between float32 and
    float64).  Simplified: numpy's square root and division are exact; 0/0 is None; tensors of trajectories which do not
    have four axes raise (more than four axes are drawn as several lines by matplotlib or refused, depending on the
    extents). *)
From Coq Require Import Reals List String Arith ZArith QArith Qcanon Qreals Bool.
From Verif Require Import Base Tensor ScdModel BlockModel TrajectoryModel.
Import ListNotations.
Open Scope string_scope.
Open Scope list_scope.
Open Scope nat_scope.

(** What is seen of the figure: the particles in the second and third plot, and in the third plot 21 rows of 21 places
    with the vector which [streamplot] is given for each (vv.py:363), as points and as vectors. *)
Record figure := mkFigure { fig_particles : bool; fig_field : list (list ((Q * Q) * option (R * R))) }.

(** vv.py:299, 301, 302 [y.numpy()[:, n, 0, c]] for [c] = 0, 1 and matplotlib's [plot] of it over [len] times (vv.py:299-303):
    lists of different lengths are a ValueError. *)
Definition curve (len : nat) (shape : list nat) (n : nat) : result unit :=
  match shape with
  | [t; m; k; c] =>
      if (n <? m) && (0 <? k) && (1 <? c) then (if t =? len then Ok tt else Raise ValueError) else Raise IndexError
  | _ => Raise IndexError
  end.

(** vv.py:298-303: line 299 calls [true_y.numpy()] without [detach()], an error for tensors which require gradients. *)
Definition curves (len : nat) (true_shape pred_shape : list nat) (requires_grad : bool) : result unit :=
  m <- list_item true_shape 1 ;;
  foldM (fun _ n =>
    _ <- curve len true_shape n ;;
    _ <- (if requires_grad then Raise RuntimeError else Ok tt) ;;
    curve len pred_shape n) (seq 0 m) tt.

(** vv.py:339: the 21 numbers from -2 to 2. *)
Definition coordinate (k : nat) : Q := (- (2) + inject_Z (Z.of_nat k) * (1 # 5))%Q.

(** vv.py:339-341: [y] varies along the first axis, [x] along the second; [x] comes first in the stack. *)
Definition places : list (Q * Q) :=
  flat_map (fun i => map (fun j => (coordinate j, coordinate i)) (seq 0 21)) (seq 0 21).

(** vv.py:341-345: the places as a tensor of samples. *)
Definition samples {A} (num : Q -> A) : tensor A :=
  mkT [List.length places; 1; 2] (flat_map (fun p => [num (fst p); num (snd p)]) places).

(** vv.py:359-360: the displacement divided by its length; None is NaN. *)
Definition direction (u v : R) : option (R * R) :=
  let mag := sqrt (u * u + v * v) in
  if Req_EM_T mag 0 then None else Some (u / mag, v / mag)%R.

(** [dydt[:, c]] of a tensor with two axes (vv.py:359): an IndexError without that column. *)
Definition column {A} (t : tensor A) (c : nat) : result (list A) :=
  match tshape t with
  | [n; k] => if c <? k then Ok (flat_map (fun i => opt_list (tget t [i; c])) (seq 0 n)) else Raise IndexError
  | _ => Raise IndexError
  end.

(** vv.py:354-355: displacement between the first and the last time, without the second axis. *)
Definition displacement {A} (val : A -> R) (out : tensor A) : result (tensor R) :=
  n <- list_item (tshape out) 0 ;;
  if n =? 0 then Raise IndexError else
  last <- tselect (n - 1) out ;;
  first <- tselect 0 out ;;
  match tshape last with
  | m :: k :: s =>
      if k =? 0 then Raise IndexError
      else Ok (tgather (m :: s) (fun idx =>
        match idx with
        | i :: r => match tget last (i :: 0 :: r), tget first (i :: 0 :: r) with
                    | Some a, Some b => Some (val a - val b)%R
                    | _, _ => None
                    end
        | [] => None
        end))
  | _ => Raise IndexError
  end.

(** vv.py:357: [dydt_pred_y[-1, 0, ...]]. *)
Definition last_sample {A} (val : A -> R) (out : tensor A) : result (tensor R) :=
  n <- list_item (tshape out) 0 ;;
  if n =? 0 then Raise IndexError else
  last <- tselect (n - 1) out ;;
  one <- tselect 0 last ;;
  Ok (tmap val one).

(** [reshape(21, 21, 2)] of [n] vectors, row by row (vv.py:361). *)
Fixpoint rows {B} (n m : nat) (l : list B) : list (list B) :=
  match n with
  | O => []
  | S n => firstn m l :: rows n m (skipn m l)
  end.

(** vv.py:353-363.  A number of entries which does not fit the shape of line 361 is a ValueError (numpy) or a RuntimeError
    (torch).  Simplified: so are other extents than one vector for every place (e.g. 294 rows of three columns, whose
    entries would fit; predictions have as many samples as the data). *)
Definition field {A} (val : A -> R) (is_higher_order_model : bool) (out : tensor A)
  : result (list (list ((Q * Q) * option (R * R)))) :=
  dydt <- (if is_higher_order_model then displacement val out else last_sample val out) ;;
  us <- column dydt 0 ;;
  vs <- column dydt 1 ;;
  if eqb_list (tshape dydt) [List.length places; 2] then
    Ok (rows 21 21 (combine places (map (fun uv => direction (fst uv) (snd uv)) (combine us vs))))
  else Raise (if is_higher_order_model then ValueError else RuntimeError).

Section Visualize.
Context {A : Type}.
Variable zero : A.
Variable ig : @integrand A.
Variable has_attr : string -> bool.
Variable rnd : nat -> nat -> A.
Variable solve : @block A -> list A -> list Qc -> result (tensor A).
Variable num : Q -> A.
Variable val : A -> R.

Notation "x <-- m ;;; k" := (mbind m (fun x => k))
  (at level 61, m at next level, right associativity).

(** vv.py:319-320: attributes of the block, own ones and registered parameters (torch). *)
Definition attribute (name : string) (b : @block A) : bool :=
  has_attr name || existsb (String.eqb name) (map fst (b_registry b)).

(** vv.py:284-376 [visualize].  The particles (vv.py:318-328, 365-369) are drawn if the block has attributes [q_params]
    and [p_params] (of a suitable shape, not modelled); every exception there is swallowed, and without them [q_np] is
    not assigned, whose NameError is swallowed as well.  [min] of no times raises (vv.py:305).  Something else than a
    tensor as first result has no [[-1, ...]] (vv.py:354, 357), a TypeError. *)
Definition visualize (true_shape pred_shape : list nat) (requires_grad : bool) (sim_time : list Qc)
    (is_higher_order_model : bool) : @M A figure :=
  _ <-- BlockModel.lift (curves (List.length sim_time) true_shape pred_shape requires_grad) ;;;
  _ <-- BlockModel.lift (match sim_time with [] => Raise RuntimeError | _ => Ok tt end) ;;;
  _ <-- set_integration_time_vector (firstn 5 sim_time) ;;;
  r <-- apply_block zero ig has_attr rnd solve (samples num) ;;;
  f <-- BlockModel.lift (match fst (fst (fst r)) with
                         | RTensor t => field val is_higher_order_model t
                         | _ => Raise TypeError
                         end) ;;;
  fun b => (b, Ok (mkFigure (attribute "q_params" b && attribute "p_params" b) f)).
End Visualize.

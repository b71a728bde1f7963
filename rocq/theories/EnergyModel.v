(** Model of the energies and parameter computations of
    neuro_shooting/shooting_integrands.py (cited as si.py).

    Numbers are reals.  Parameter objects are what their two dictionaries hold
    ([get_parameter_dict], [get_parameter_weight_dict] of overwrite_classes.py); weights are numbers or
    None.  The state and costate are fixed, so the potential energy (si.py:278-301) is a
    function of the parameter objects.  [autograd.grad] (external) is a function [grad] of the
    differentiated energy and the objects whose parameters it is taken at.  Broadcasting in the
    addition of si.py:569 is not modelled: shapes must agree. *)
From Coq Require Import List String Bool Reals Arith.
From Verif Require Import Base Tensor ScdModel.
Import ListNotations.
Open Scope R_scope.

(** A parameter object: the dictionaries of oc.py:19-20. *)
Record pobj := mkPobj { po_pars : sdict (tensor R); po_weights : sdict (option R) }.
Notation pobjs := (sdict pobj).

(** [torch.sum] (external). *)
Definition total (l : list R) : R := fold_left Rplus l 0.

(** [cpar ** 2] summed (si.py:331). *)
Definition sum_squares (t : tensor R) : R := total (map (fun x => x ^ 2) (tdata t)).

(** si.py:329-336 *)
Definition par_penalty (ws : sdict (option R)) (k : string) (cpar : tensor R) : R :=
  match sd_get k ws with
  | None => sum_squares cpar
  | Some None => sum_squares cpar
  | Some (Some w) => w * sum_squares cpar
  end.

(** si.py:303-342 [compute_kinetic_energy]. *)
Definition kinetic_energy (os : pobjs) : R :=
  1 / 2 *
  fold_left (fun e op =>
     fold_left (fun e kt => e + par_penalty (po_weights (snd op)) (fst kt) (snd kt))
       (po_pars (snd op)) e) os 0.

(** [current_pars_from[f] / w] *)
Definition tdivide (t : tensor R) (w : R) : tensor R := mkT (tshape t) (map (fun x => x / w) (tdata t)).

(** [multiplier * current_from_pars[p_from]] *)
Definition tscale (c : R) (t : tensor R) : tensor R := mkT (tshape t) (map (fun x => c * x) (tdata t)).

(** Tensor addition without broadcasting. *)
Definition taddition (a b : tensor R) : result (tensor R) :=
  if eqb_list (tshape a) (tshape b)
  then Ok (mkT (tshape a) (map (fun xy => fst xy + snd xy) (combine (tdata a) (tdata b))))
  else Raise RuntimeError.

(** si.py:561-569, one parameter; [zip] pairs the two dictionaries by position. *)
Definition add_par (multiplier : R) (pars : sdict (tensor R)) (pf : string * tensor R) : result (sdict (tensor R)) :=
  cur <- sd_item (fst pf) pars ;;
  s <- taddition cur (tscale multiplier (snd pf)) ;;
  Ok (sd_set (fst pf) s pars).

(** si.py:559-569 [add_multiple_to_parameter_objects]; the exceptions built at 563 are not raised,
    a missing object is the KeyError of 566. *)
Definition add_multiple_to_parameter_objects (os : pobjs) (pd_from : sdict (sdict (tensor R)))
    (multiplier : R) : result pobjs :=
  mapM (fun op =>
    from <- sd_item (fst op) pd_from ;;
    pars <- foldM (add_par multiplier) (combine (keys (po_pars (snd op))) (map snd from)) (po_pars (snd op)) ;;
    Ok (fst op, mkPobj pars (po_weights (snd op)))) os.

(** si.py:582-589, one parameter. *)
Definition store_par (ws : sdict (option R)) (pars : sdict (tensor R)) (kf : string * tensor R) : sdict (tensor R) :=
  match sd_get (fst kf) ws with
  | None => sd_set (fst kf) (snd kf) pars
  | Some None => sd_set (fst kf) (snd kf) pars
  | Some (Some w) => sd_set (fst kf) (tdivide (snd kf) w) pars
  end.

(** si.py:572-591 [divide_and_store_in_parameter_objects]. *)
Definition divide_and_store_in_parameter_objects (os : pobjs) (generic_dict : sdict (sdict (tensor R)))
  : result pobjs :=
  mapM (fun op =>
    from <- sd_item (fst op) generic_dict ;;
    Ok (fst op, mkPobj (fold_left (store_par (po_weights (snd op)))
                          (combine (keys (po_pars (snd op))) (map snd from)) (po_pars (snd op)))
                       (po_weights (snd op)))) os.

(** The parameters of the objects as scd.py:254-323 reads them; none is None (oc.py:29-34). *)
Definition parameter_dicts (os : pobjs) : sdict (sdict (option (tensor R))) :=
  map (fun op => (fst op, map (fun kt => (fst kt, Some (snd kt))) (po_pars (snd op)))) os.

Section Computation.
(** [autograd.grad] (si.py:883-889, 932-938, 1157-1163). *)
Variable grad : (pobjs -> R) -> pobjs -> list (tensor R).
(** [create_default_parameter_objects_on_consistent_device] (si.py:876, 921, 1146). *)
Variable default_objects : pobjs.
(** [compute_potential_energy] at the given time, state and costate (si.py:278-301). *)
Variable potential : pobjs -> R.

(** si.py:397-423 [compute_lagrangian]; the first component of the triple. *)
Definition compute_lagrangian (os : pobjs) : R := kinetic_energy os - potential os.

(** si.py:883-893 (932-942, 1157-1167): the gradient as a dictionary. *)
Definition gradient_dict (energy : pobjs -> R) (os : pobjs) : result (sdict (sdict (tensor R))) :=
  extract_dict_from_tuple_parameter_objects (grad energy os) (parameter_dicts os) "grad_".

(** si.py:873-897 [compute_parameters_directly]. *)
Definition compute_parameters_directly : result pobjs :=
  d <- gradient_dict potential default_objects ;;
  divide_and_store_in_parameter_objects default_objects d.

(** si.py:926-945, the loop body with energy and learning rate as arguments. *)
Definition gradient_step (energy : pobjs -> R) (learning_rate : R) (os : pobjs) : result pobjs :=
  d <- gradient_dict energy os ;;
  add_multiple_to_parameter_objects os d (- learning_rate).

(** si.py:926-945, [n] passes of the loop. *)
Fixpoint gradient_steps (energy : pobjs -> R) (learning_rate : R) (n : nat) (os : pobjs) : result pobjs :=
  match n with
  | O => Ok os
  | S m => os' <- gradient_step energy learning_rate os ;; gradient_steps energy learning_rate m os'
  end.

(** si.py:919-947 [compute_parameters_iteratively]. *)
Definition compute_parameters_iteratively : result pobjs :=
  gradient_steps compute_lagrangian (1 / 2) 5 default_objects.

(** ** Optimal transport: the kinetic energy is that of the right-hand sides. *)

(** [rhs_advect_state_dict_of_dicts] as a function of the parameters (si.py:1131-1133), its values
    in iteration order. *)
Variable rhs_values : pobjs -> list (tensor R).

(** si.py:1116-1142; a weight of None cannot be multiplied (TypeError). *)
Definition ot_kinetic_energy (parameter_weight : option R) : result (pobjs -> R) :=
  match parameter_weight with
  | None => Raise TypeError
  | Some w => Ok (fun os => 1 / 2 * w * total (map sum_squares (rhs_values os)))
  end.

(** si.py:1174-1203 *)
Definition ot_lagrangian (parameter_weight : option R) : result (pobjs -> R) :=
  k <- ot_kinetic_energy parameter_weight ;;
  Ok (fun os => k os - potential os).

(** si.py:1144-1172 *)
Definition ot_compute_parameters_iteratively (parameter_weight : option R) : result pobjs :=
  l <- ot_lagrangian parameter_weight ;;
  gradient_steps l (1 / 2) 10 default_objects.
End Computation.

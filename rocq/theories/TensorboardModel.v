(** Model of neuro_shooting/tensorboard_shooting_hooks.py (cited as tb.py), si.py = shooting_integrands.py.  What the
    writer has been given is a list of entries.  Hook data are a dictionary (or None, the default, si.py:64); its
    values are integers or something which cannot be reduced modulo 10.  Times and step sizes are exact. *)
From Coq Require Import List String ZArith QArith Qcanon Reals Bool.
From Verif Require Import Base Tensor EnergyModel FixedGridModel RecordModel VecModel.
Import ListNotations.
Open Scope string_scope.
Open Scope list_scope.
Open Scope nat_scope.

(** [writer.add_scalar] and [writer.add_image] (tb.py:34-37; the writer is external). *)
Inductive entry : Type :=
  | Scalar (tag : string) (value : R) (global_step : Z)
  | Image (tag : string) (image : tensor R) (global_step : Z).

(** Values of the hook data (tb.py:12-20). *)
Inductive hval : Type := HInt (z : Z) | HNone.
(** The hook data (si.py:64). *)
Definition hdata : Type := option (sdict hval).

(** [t[i]] (tb.py:34-35; torch, external). *)
Definition index_first (t : tensor R) (i : nat) : result (tensor R) :=
  match tshape t with
  | [] => Raise IndexError
  | n :: s => if i <? n then Ok (mkT s (firstn (prod s) (skipn (i * prod s) (tdata t)))) else Raise IndexError
  end.

(** [t.item()] (tb.py:34-35; torch, external). *)
Definition item (t : tensor R) : result R :=
  match tdata t with [x] => Ok x | _ => Raise ValueError end.

(** A result which depends on no entry. *)
Definition pure_ {A} (r : result A) : eff (H := list entry) A := fun log => (r, log).
(** The writer stores an entry (tb.py:34-37). *)
Definition put (e : entry) : eff (H := list entry) unit := fun log => (Ok tt, log ++ [e]).

(** [writer.add_image(..., dataformats='HW')] (tb.py:37): the number of axes is asserted. *)
Definition add_image (tag : string) (w : tensor R) (step : Z) : eff (H := list entry) unit :=
  if Nat.eqb (List.length (tshape w)) 2 then put (Image tag w step) else pure_ (Raise AssertionError).

(** tb.py:12-15 *)
Definition epoch_of (custom_hook_data : hdata) : result hval :=
  match custom_hook_data with
  | None => Raise TypeError
  | Some d => match sd_get "epoch" d with Some v => Ok v | None => Ok (HInt 0) end
  end.

(** tb.py:9-37 [linear_transform_hook]; the batch (17-20) is read but not used. *)
Definition linear_transform_hook (t : Qc) (parameter_objects : pobjs) (custom_hook_data : hdata)
  : eff (H := list entry) unit :=
  then_ (pure_ (epoch_of custom_hook_data)) (fun epoch =>
  if Qc_eq_bool t 0%Qc then
    match epoch with
    | HNone => pure_ (Raise TypeError)
    | HInt epoch =>
        if Z.eqb (epoch mod 10) 0 then
          then_ (pure_ (o <- sd_item "l1" parameter_objects ;; Ok (po_pars o))) (fun pars =>
          then_ (pure_ (sd_item "weight" pars)) (fun weight =>
          then_ (pure_ (sd_item "bias" pars)) (fun bias =>
          then_ (pure_ (b <- index_first bias 0 ;; item b)) (fun b0 =>
          then_ (put (Scalar "bias0" b0 epoch)) (fun _ =>
          then_ (pure_ (b <- index_first bias 1 ;; item b)) (fun b1 =>
          then_ (put (Scalar "bias1" b1 epoch)) (fun _ =>
          add_image "weight" weight epoch)))))))
        else give tt
    end
  else give tt).

(** si.py:758-764: the hook is called after the derivative has been computed; the parameters belong to time and
    state. *)
Definition with_tensorboard {X} (f : Qc -> X -> X) (parameters : Qc -> X -> pobjs) (data : hdata) (t : Qc) (y : X)
  : eff (H := list entry) X :=
  then_ (linear_transform_hook t (parameters t y) data) (fun _ => give (f t y)).

Section Passes.
Context {X : Type}.
Variable add : X -> X -> X.
Variable mul : Qc -> X -> X.
Variable f : Qc -> X -> X.
Variable parameters : Qc -> X -> pobjs.

(** One pass through a block: the integration (generic_integrator.py:103-114) with the method [name]. *)
Definition forward_pass (name : string) (h : Qc) (data : hdata) (x : X) (t : list Qc) : eff (H := list entry) (list X) :=
  match method_eff add mul (with_tensorboard f parameters data) name with
  | Some se => fixed_grid_eff add mul se (Some h) x t
  | None => pure_ (Raise ValueError)
  end.

(** Passes one after the other, before each of them the hook data are set (si.py:131-139, 156-159). *)
Fixpoint forward_passes (name : string) (h : Qc) (ps : list (hdata * X * list Qc)) : eff (H := list entry) (list (list X)) :=
  match ps with
  | [] => give []
  | (data, x, t) :: ps =>
      then_ (forward_pass name h data x t) (fun v => then_ (forward_passes name h ps) (fun vs => give (v :: vs)))
  end.
End Passes.

(** A matrix as a tensor. *)
Definition t2_data (x : t2) : list R := flat_map (fun i => map (v2 x i) (seq 0 (m1 x))) (seq 0 (m0 x)).
(** A matrix as a tensor. *)
Definition matrix (x : t2) : tensor R := mkT [m0 x; m1 x] (t2_data x).

(** The parameter objects which the hook is given, from those of [VecModel]: biases of the analytic solutions are
    averages over the particles, and keep the axis of the dimension (shooting_models.py:400, 632, 1252); otherwise
    they are vectors as created (overwrite_classes.py:89-93). *)
Definition objects_of (analytic : bool) (p : VecModel.pars) : pobjs :=
  map (fun kl => (fst kl, mkPobj
    (("weight", matrix (lin_weight (snd kl))) ::
     match lin_bias (snd kl) with
     | Some b => [("bias", if analytic then matrix b else mkT [m1 b] (t2_data b))]
     | None => []
     end) [])) p.

(** Model of neuro_shooting/utils.py (cited as utils.py): parameter counts and
    freezing. *)
From Coq Require Import List String Arith Bool.
From Verif Require Import Base.
Import ListNotations.

(** A parameter as reported by [named_parameters()]: its size and
    [requires_grad].  Values play no role.  [named_parameters()] reports
    every parameter tensor once, under one name (PyTorch). *)
Record par := mkPar { p_size : list nat; p_grad : bool }.
(** [model.named_parameters()] (utils.py:49, 76). *)
Definition params : Type := pdict par.

(** utils.py:52 [np.prod(list(pv.size()))] *)
Definition numel (p : par) : nat := fold_left Nat.mul (p_size p) 1.

(** utils.py:43-69 [compute_number_of_parameters]: (fixed, optimized, overall);
    printing is left out. *)
Definition compute_number_of_parameters (model : params) : nat * nat * nat :=
  let '(fixed, optimized) :=
    fold_left (fun s kv => let '(f, o) := s in
                 if p_grad (snd kv) then (f, o + numel (snd kv)) else (f + numel (snd kv), o))
              model (0, 0) in
  (fixed, optimized, fixed + optimized).

(** utils.py:88: assigning [requires_grad] of the parameter called [pn]; it is the
    parameter object itself that changes. *)
Definition set_grad (v : bool) (pn : string) (model : params) : params :=
  map (fun kv => if String.eqb (fst kv) pn then (fst kv, mkPar (p_size (snd kv)) v) else kv) model.

(** utils.py:83-88: the loop over the requested names.  Together with the outcome the
    parameters after the call are returned, as an exception does not undo
    assignments. *)
Fixpoint freeze_loop (v : bool) (names : list string) (model : params) : result unit * params :=
  match names with
  | [] => (Ok tt, model)
  | pn :: rest =>
      match pd_get pn model with
      | None => (Raise KeyError, model)
      | Some _ => freeze_loop v rest (set_grad v pn model)
      end
  end.

(** utils.py:72-88 [_freeze_or_unfreeze_parameters]; the dictionary of lines 76-81
    refers to the parameter objects, it is looked up by name here. *)
Definition freeze_or_unfreeze (v : bool) (names : list string) (model : params) :=
  freeze_loop v names model.

(** utils.py:91-92 *)
Definition unfreeze_parameters := freeze_or_unfreeze true.
(** utils.py:94-95 *)
Definition freeze_parameters := freeze_or_unfreeze false.

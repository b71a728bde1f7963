(** Model of neuro_shooting/shooting_hooks.py (cited as hooks.py).  Numbers are
    reals; recorded arrays are the tensors they were copied from. *)
From Coq Require Import List String Bool Reals Arith.
From Verif Require Import Base Tensor EnergyModel.
Import ListNotations.
Open Scope R_scope.
Open Scope string_scope.
Open Scope list_scope.

(** What is recorded: numbers and arrays. *)
Inductive val : Type := VNum (x : R) | VTen (t : tensor R).

(** A [defaultdict(list)]. *)
Notation record := (pdict (list val)).

(** The [custom_hook_data] object: a [defaultdict] (assumed to be a
    [defaultdict(list)]), or anything else. *)
Inductive hook_data : Type := HRecord (d : record) | HOther.

(** [custom_hook_data[k].append(v)]: a missing key starts as the empty list. *)
Definition append_to (d : record) (kv : string * val) : record :=
  pd_set (fst kv)
    (match pd_get (fst kv) d with Some l => l ++ [snd kv] | None => [snd kv] end) d.

(** hooks.py:4-9 [record_generic_dict_of_dicts] *)
Definition record_generic_dict_of_dicts (d_name : string) (dd : sdict (sdict (tensor R)))
  (custom_hook_data : record) : record :=
  fold_left (fun data block =>
    fold_left (fun data var =>
      append_to data (fst block ++ "." ++ d_name ++ "." ++ fst var, VTen (snd var))%string)
      (snd block) data) dd custom_hook_data.

Section Norms.
(** [torch.norm(m, p='nuc')] and the first singular value [m.svd()[1][0]] of a
    matrix (external). *)
Variables nuclear_norm spectral_norm : tensor R -> R.

(** hooks.py:28-43 for one parameter, with the dictionary and the three sums so
    far.  [torch.norm(.., p='nuc')] raises RuntimeError unless the tensor has two
    axes; a matrix without entries has no first singular value (IndexError).
    [torch.norm(t, p='fro')**2] is the sum of squares. *)
Definition norms_of (k : string) (s : pdict R * (R * R * R)) (pt : string * tensor R)
  : result (pdict R * (R * R * R)) :=
  let '(parameter_norms, (fro, nuc, spec)) := s in
  let '(p, t) := pt in
  if String.eqb p "bias" then Ok s
  else
    let d1 := pd_set ("sqr_frobenius_norm_" ++ k ++ "." ++ p)%string (sum_squares t) parameter_norms in
    let fro := fro + sum_squares t in
    if negb (Nat.eqb (List.length (tshape t)) 2) then Raise RuntimeError
    else
      let d2 := pd_set ("sqr_nuclear_norm_" ++ k ++ "." ++ p)%string (nuclear_norm t ^ 2) d1 in
      let nuc := nuc + nuclear_norm t ^ 2 in
      if Nat.eqb (prod (tshape t)) 0 then Raise IndexError
      else
        let d3 := pd_set ("sqr_spectral_norm_" ++ k ++ "." ++ p)%string (spectral_norm t ^ 2) d2 in
        let spec := spec + spectral_norm t ^ 2 in
        Ok (d3, (fro, nuc, spec)).

(** hooks.py:11-49 [compute_parameter_norms] *)
Definition compute_parameter_norms (parameter_objects : pobjs) : result (pdict R) :=
  s <- foldM (fun s op => foldM (norms_of (fst op)) (po_pars (snd op)) s)
         parameter_objects ([], (0, 0, 0)) ;;
  let '(d, (fro, nuc, spec)) := s in
  Ok (pd_set "sum_sqr_spectral_norm" spec
       (pd_set "sum_sqr_nuclear_norm" nuc
         (pd_set "sum_sqr_frobenius_norm" fro d))).

(** The arguments of a hook call which the hook uses (hooks.py:51-53). *)
Record hook_args : Type := mkArgs {
  h_t : R;
  h_state : sdict (sdict (tensor R));
  h_costate : sdict (sdict (tensor R));
  h_data : sdict (sdict (tensor R));
  h_dot_state : sdict (sdict (tensor R));
  h_dot_costate : sdict (sdict (tensor R));
  h_dot_data : sdict (sdict (tensor R));
  h_pars : pobjs }.

(** hooks.py:63-71: record all parameters, adding up the energy. *)
Definition record_parameters (parameter_objects : pobjs) (data : record) : record * R :=
  fold_left (fun s op =>
    fold_left (fun s pt => let '(data, e) := s in
      (append_to data (fst op ++ "." ++ fst pt, VTen (snd pt))%string,
       e + 1 / 2 * sum_squares (snd pt)))
      (po_pars (snd op)) s) parameter_objects (data, 0).

(** hooks.py:51-93 [parameter_evolution_hook].  The record after the call is
    returned together with the outcome, as an exception does not undo what has
    been appended. *)
Definition parameter_evolution_hook (a : hook_args) (custom_hook_data : hook_data)
  : result unit * hook_data :=
  match custom_hook_data with
  | HOther => (Raise ValueError, HOther)
  | HRecord data =>
      let data := append_to data ("t", VNum (h_t a)) in
      let '(data, current_energy) := record_parameters (h_pars a) data in
      let data := append_to data ("energy", VNum current_energy) in
      let data := record_generic_dict_of_dicts "state" (h_state a) data in
      let data := record_generic_dict_of_dicts "costate" (h_costate a) data in
      let data := record_generic_dict_of_dicts "data" (h_data a) data in
      let data := record_generic_dict_of_dicts "dot_state" (h_dot_state a) data in
      let data := record_generic_dict_of_dicts "dot_costate" (h_dot_costate a) data in
      let data := record_generic_dict_of_dicts "dot_data" (h_dot_data a) data in
      match compute_parameter_norms (h_pars a) with
      | Raise e => (Raise e, HRecord data)
      | Ok current_norms =>
          (Ok tt, HRecord (fold_left (fun data kv => append_to data (fst kv, VNum (snd kv)))
                             current_norms data))
      end
  end.

(** The hook called at one evaluation after the other, until it raises
    (shooting_integrands.py:758-762 call it in every evaluation). *)
Fixpoint run_hook (calls : list hook_args) (data : hook_data) : result unit * hook_data :=
  match calls with
  | [] => (Ok tt, data)
  | a :: rest =>
      match parameter_evolution_hook a data with
      | (Ok _, data) => run_hook rest data
      | (Raise e, data) => (Raise e, data)
      end
  end.
End Norms.

(** Model of neuro_shooting/state_costate_and_data_dictionary_utils.py
    (below "scd.py").  One definition per function, same branches.  Devices and
    dtypes are not modelled; dictionaries are SortedDicts by type, so the
    run-time type check of scd.py:19-20 cannot fail here. *)
From Coq Require Import List String Arith ZArith Bool.
From Verif Require Import Base Tensor.
Import ListNotations.

(** An assembly plan: variable name to shape (scd.py:23,26). *)
Notation plan := (list (string * list nat)).

Section Scd.
Context {A : Type}.
(** The element torch.zeros fills with. *)
Variable zero : A.

Notation tdict := (sdict (tensor A)).
Notation tdicts := (sdict (sdict (tensor A))).

(** The dictionary of assembly plans (scd.py:75-78); the inner level is a plain
    dict (scd.py:47). *)
Record plans := mkPlans {
  state_plans : pdict plan;
  costate_plans : pdict plan;
  data_plans : pdict plan }.

(** scd.py:8-35 [_assemble_generic_dict]: flatten all entries in key order;
    (None, None) for an empty dictionary. *)
Definition assemble_generic_dict (d : tdict) : option (list A) * option plan :=
  let '(d_list, assembly_plan) :=
    fold_left (fun acc kt =>
                 (fst acc ++ [tflatten (snd kt)],
                  sd_set (fst kt) (tshape (snd kt)) (snd acc)))
              d ([], []) in
  if 0 <? List.length d_list then (Some (List.concat d_list), Some assembly_plan)
  else (None, None).

(** scd.py:38-57 [_assemble_generic_dict_of_dicts]: empty blocks are skipped. *)
Definition assemble_generic_dict_of_dicts (d : tdicts) : option (list A) * pdict plan :=
  fold_left (fun acc kd =>
               match assemble_generic_dict (snd kd) with
               | (Some current_ret, Some current_plan) =>
                   (match fst acc with
                    | None => Some current_ret
                    | Some r => Some (r ++ current_ret)
                    end, pd_set (fst kd) current_plan (snd acc))
               | _ => acc
               end)
            d (None, []).

(** scd.py:60-80 [assemble_tensor]: torch.cat of a tuple containing None is a
    TypeError. *)
Definition assemble_tensor (state_dicts costate_dicts data_dicts : tdicts)
  : result (list A * plans) :=
  let '(sv, sp) := assemble_generic_dict_of_dicts state_dicts in
  let '(cv, cp) := assemble_generic_dict_of_dicts costate_dicts in
  let '(dv, dp) := assemble_generic_dict_of_dicts data_dicts in
  match sv, cv, dv with
  | Some s, Some c, Some d => Ok (s ++ c ++ d, mkPlans sp cp dp)
  | _, _, _ => Raise TypeError
  end.

(** scd.py:98 [torch.prod(torch.tensor(current_shape)).item()]: for the empty
    shape torch.tensor gives a float tensor, so the product is the float 1.0 and
    the slice bounds of scd.py:101,105 are a TypeError. *)
Definition len_shape (s : list nat) : result nat :=
  match s with [] => Raise TypeError | _ => Ok (prod s) end.

(** scd.py:97-109: the loop body of [_disassemble_dict].  [dim] is a Python int. *)
Definition disassemble_step (input : tensor A) (dim : Z) (acc : tdict * nat)
    (ks : string * list nat) : result (tdict * nat) :=
  let '(ret, incr) := acc in
  let '(k, current_shape) := ks in
  if Z.eqb dim 0 then
    len <- len_shape current_shape ;;
    sl <- tslice 0 incr (incr + len) input ;;
    v <- tview (tdata sl) current_shape ;;
    Ok (sd_set k v ret, incr + len)
  else if Z.eqb dim 1 then
    first_dim <- list_item (tshape input) 0 ;;
    len <- len_shape current_shape ;;
    sl <- tslice 1 incr (incr + len) input ;;
    v <- tview (tdata sl) (first_dim :: current_shape) ;;
    Ok (sd_set k v ret, incr + len)
  else Raise ValueError.

(** scd.py:82-111 [_disassemble_dict]. *)
Definition disassemble_dict (input : tensor A) (assembly_plan : plan) (dim : Z) (incr : nat)
  : result (tdict * nat) :=
  foldM (disassemble_step input dim) assembly_plan ([], incr).

(** scd.py:128-129: the loop body of [_disassemble_dict_of_dicts]. *)
Definition disassemble_block_step (input : tensor A) (dim : Z) (acc : tdicts * nat)
    (cp : string * plan) : result (tdicts * nat) :=
  '(d, incr') <- disassemble_dict input (snd cp) dim (snd acc) ;;
  Ok (sd_set (fst cp) d (fst acc), incr').

(** scd.py:114-131 [_disassemble_dict_of_dicts]. *)
Definition disassemble_dict_of_dicts (input : tensor A) (aps : pdict plan) (dim : Z) (incr : nat)
  : result (tdicts * nat) :=
  foldM (disassemble_block_step input dim) aps ([], incr).

(** scd.py:134-170 [disassemble_tensor]. *)
Definition disassemble_tensor (input : tensor A) (assembly_plans : option plans) (dim : Z)
  : result (tdicts * tdicts * tdicts) :=
  if negb (Z.eqb dim 0 || Z.eqb dim 1) then Raise ValueError
  else match assembly_plans with
       | None => Raise ValueError
       | Some ps =>
           '(s, i1) <- disassemble_dict_of_dicts input (state_plans ps) dim 0 ;;
           '(c, i2) <- disassemble_dict_of_dicts input (costate_plans ps) dim i1 ;;
           '(d, _) <- disassemble_dict_of_dicts input (data_plans ps) dim i2 ;;
           Ok (s, c, d)
       end.

(** A 1-D tensor from a vector. *)
Definition vec (l : list A) : tensor A := mkT [List.length l] l.

(** scd.py:173-207 [_merge_state_costate_or_data_dict_with_generic_dict_of_dicts]. *)
Definition merge_dict {V} (generic_dict : option (sdict V))
    (generic_dict_of_dicts : option (sdict (sdict V))) (name : string)
  : result (sdict (sdict V)) :=
  let taken := match generic_dict_of_dicts with
               | Some d => sd_mem name d
               | None => false
               end in
  if taken then Raise ValueError
  else
    let ret := match generic_dict with
               | Some g => sd_set name g []
               | None => []
               end in
    match generic_dict_of_dicts with
    | None => Ok ret
    | Some d =>
        Ok (fold_left
              (fun ret kd =>
                 sd_set (fst kd)
                   (fold_left (fun c kv => sd_set (fst kv) (snd kv) c) (snd kd) []) ret)
              d ret)
    end.

(** scd.py:225-226 (and 249-250, 274-275): one loop step, taking the next tuple
    entry. *)
Definition pull {V W} (data_tuple : list V) (prefix : string) (acc : sdict V * nat)
    (kv : string * W) : result (sdict V * nat) :=
  v <- list_item data_tuple (snd acc) ;;
  Ok (sd_set (prefix ++ fst kv)%string v (fst acc), S (snd acc)).

(** scd.py:210-228 [extract_dict_from_tuple_based_on_generic_dict]. *)
Definition extract_dict_from_tuple {V W} (data_tuple : list V) (generic_dict : sdict W)
    (prefix : string) : result (sdict V) :=
  '(d, _) <- foldM (pull data_tuple prefix) generic_dict ([], 0) ;;
  Ok d.

(** scd.py:245-250: one block of the outer loop; the tuple position is shared by
    all blocks. *)
Definition pull_block {V W} (data_tuple : list V) (prefix : string)
    (acc : sdict (sdict V) * nat) (kd : string * sdict W) : result (sdict (sdict V) * nat) :=
  '(c, i) <- foldM (pull data_tuple prefix) (snd kd) ([], snd acc) ;;
  Ok (sd_set (fst kd) c (fst acc), i).

(** scd.py:231-251 [extract_dict_of_dicts_from_tuple_based_on_generic_dict_of_dicts]. *)
Definition extract_dict_of_dicts_from_tuple {V W} (data_tuple : list V)
    (generic : sdict (sdict W)) (prefix : string) : result (sdict (sdict V)) :=
  '(d, _) <- foldM (pull_block data_tuple prefix) generic ([], 0) ;;
  Ok d.

(** scd.py:254-277 [extract_dict_from_tuple_based_on_parameter_objects]: entries
    that are None still consume a tuple position. *)
Definition extract_dict_from_tuple_parameter_objects {V} (data_tuple : list V)
    (parameter_objects : sdict (sdict (option V))) (prefix : string)
  : result (sdict (sdict V)) :=
  extract_dict_of_dicts_from_tuple data_tuple parameter_objects prefix.

(** scd.py:280-295 [compute_tuple_from_generic_dict_of_dicts]. *)
Definition compute_tuple_from_dict_of_dicts {V} (d : sdict (sdict V)) : list V :=
  fold_left (fun l kd => fold_left (fun l kv => l ++ [snd kv]) (snd kd) l) d [].

(** scd.py:298-310 [compute_tuple_from_generic_dict]. *)
Definition compute_tuple_from_dict {V} (d : sdict V) : list V :=
  fold_left (fun l kv => l ++ [snd kv]) d [].

(** scd.py:313-323 [compute_tuple_from_parameter_objects]: None entries are
    skipped. *)
Definition compute_tuple_from_parameter_objects {V} (d : sdict (sdict (option V))) : list V :=
  fold_left (fun l kd =>
               fold_left (fun l kv => match snd kv with
                                      | Some v => l ++ [v]
                                      | None => l
                                      end) (snd kd) l) d [].

(** scd.py:335-349: one variable of one block; any failure of torch.cat becomes
    a ValueError. *)
Definition concatenate_step (dim : nat) (acc : tdict) (kt : string * tensor A) : result tdict :=
  match sd_get (fst kt) acc with
  | None => Ok (sd_set (fst kt) (snd kt) acc)
  | Some cur =>
      match tcat dim cur (snd kt) with
      | Ok r => Ok (sd_set (fst kt) r acc)
      | Raise _ => Raise ValueError
      end
  end.

(** scd.py:331-358 [_concatenate_dict_of_dicts]: the key count is compared with
    the first block only. *)
Definition concatenate_dict_of_dicts (d : tdicts) (dim : nat) : result tdict :=
  acc <- foldM (fun acc kd => foldM (concatenate_step dim) (snd kd) acc) d [] ;;
  first <- sd_peek0 d ;;
  if List.length acc =? List.length first then Ok acc else Raise ValueError.

(** scd.py:326-329 [_concatenate_named_dict_of_dicts_keeping_structure]. *)
Definition concatenate_named (d : tdicts) (dim : nat) (name : string) : result tdicts :=
  c <- concatenate_dict_of_dicts d dim ;; Ok (sd_set name c []).

(** scd.py:370-389: one pair of zip(concatenated_dict, c_generic_dict); [indx] is
    a plain dict of offsets per variable. *)
Definition deconcatenate_step (dim : nat) (acc : tdict * pdict nat)
    (kk : (string * tensor A) * (string * tensor A)) : result (tdict * pdict nat) :=
  let '(c_ret, indx) := acc in
  let '((kc, tc), (k, t)) := kk in
  let off := match pd_get k indx with Some o => o | None => 0 end in
  if 4 <? dim then Raise ValueError
  else
    n <- list_item (tshape t) dim ;;
    sl <- tslice dim off (off + n) tc ;;
    Ok (sd_set kc sl c_ret, pd_set k (off + n) indx).

(** scd.py:365-369: one block of the outer loop. *)
Definition deconcatenate_block (concatenated : tdict) (dim : nat) (acc : tdicts * pdict nat)
    (kd : string * tdict) : result (tdicts * pdict nat) :=
  '(c_ret, indx) <- foldM (deconcatenate_step dim) (combine concatenated (snd kd))
                          ([], snd acc) ;;
  Ok (sd_set (fst kd) c_ret (fst acc), indx).

(** scd.py:361-391 [_deconcatenate_based_on_generic_dict_of_dicts]: slices the
    concatenated tensors back apart; variables are paired by zip, i.e. by
    position. *)
Definition deconcatenate (concatenated : tdict) (d : tdicts) (dim : nat) : result tdicts :=
  '(ret, _) <- foldM (deconcatenate_block concatenated dim) d ([], []) ;;
  Ok ret.

(** scd.py:393-397 [_get_zero_dict_like]. *)
Definition zero_dict_like (d : tdict) : tdict :=
  fold_left (fun r kt => sd_set (fst kt) (tfill zero (tshape (snd kt))) r) d [].

(** scd.py:407-410 [extract_size_from_dict_of_dicts]. *)
Definition extract_size_from_dict_of_dicts (d : tdicts) : result (list nat) :=
  b <- sd_peek0 d ;; t <- sd_peek0 b ;; Ok (tshape t).

(** scd.py:412-415 [extract_size_from_dict]. *)
Definition extract_size_from_dict (d : tdict) : result (list nat) :=
  t <- sd_peek0 d ;; Ok (tshape t).

(** scd.py:399-401 [extract_batch_size_from_dict_of_dicts]. *)
Definition extract_batch_size (d : tdicts) : result nat :=
  sz <- extract_size_from_dict_of_dicts d ;; list_item sz 0.

(** scd.py:403-405 [extract_channel_size_from_dict_of_dicts]. *)
Definition extract_channel_size (d : tdicts) : result nat :=
  sz <- extract_size_from_dict_of_dicts d ;; list_item sz 1.

(** [l[i] = v] on a Python list. *)
Definition list_set {V} (l : list V) (i : nat) (v : V) : result (list V) :=
  if i <? List.length l then Ok (set_nth i v l) else Raise IndexError.

(** scd.py:417-423 [_get_zero_dict_like_with_matched_batch_size]. *)
Definition zero_dict_matched_batch (d : tdict) (batch_size : nat) : result tdict :=
  foldM (fun r kt => sz <- list_set (tshape (snd kt)) 0 batch_size ;;
                     Ok (sd_set (fst kt) (tfill zero sz) r)) d [].

(** scd.py:425-432 [_get_zero_dict_like_with_matched_batch_and_channel_size]. *)
Definition zero_dict_matched_batch_channel (d : tdict) (batch_size channel_size : nat)
  : result tdict :=
  foldM (fun r kt => sz <- list_set (tshape (snd kt)) 0 batch_size ;;
                     sz <- list_set sz 1 channel_size ;;
                     Ok (sd_set (fst kt) (tfill zero sz) r)) d [].

(** scd.py:441-447: one variable; [target_sz] is the same list object in every
    iteration, hence threaded through the loop. *)
Definition zero_data_step (state_dim data_dim : nat) (acc : tdict * list nat)
    (kt : string * tensor A) : result (tdict * list nat) :=
  let '(ret, target_sz) := acc in
  n <- list_item (tshape (snd kt)) state_dim ;;
  target_sz <- list_set target_sz data_dim n ;;
  Ok (sd_set (fst kt) (tfill zero target_sz) ret, target_sz).

(** scd.py:434-449 [_get_zero_data_dict_matching_state_dim]. *)
Definition zero_data_dict_matching (state_dict : tdict) (data_dicts : tdicts)
    (state_dim data_dim : nat) : result tdict :=
  sample <- extract_size_from_dict_of_dicts data_dicts ;;
  '(ret, _) <- foldM (zero_data_step state_dim data_dim) state_dict ([], sample) ;;
  Ok ret.

(** scd.py:451-465 [get_data_concatenation_dim]. *)
Definition get_data_concatenation_dim (state_dict : option tdict) (data_dicts : tdicts)
    (state_dim : nat) : result (option nat) :=
  match state_dict with
  | None => Ok None
  | Some sd =>
      sz_data <- extract_size_from_dict_of_dicts data_dicts ;;
      sz_state <- extract_size_from_dict sd ;;
      if List.length sz_data <? List.length sz_state then Raise ValueError
      else Ok (Some (state_dim + (List.length sz_data - List.length sz_state)))
  end.

(** scd.py:468-481 [extract_key_from_dict_of_dicts]: a tensor for one block,
    otherwise a dictionary of dictionaries. *)
Inductive extracted :=
| OneTensor (t : tensor A)
| ManyBlocks (d : tdicts).

(** scd.py:468-481 [extract_key_from_dict_of_dicts]. *)
Definition extract_key (d : tdicts) (key : string) : result extracted :=
  let ret := fold_left
      (fun ret kd =>
         sd_set (fst kd)
           (match sd_get key (snd kd) with
            | Some t => sd_set key t []
            | None => []
            end) ret) d [] in
  if List.length ret =? 1 then
    b <- sd_peek0 ret ;; t <- sd_peek0 b ;; Ok (OneTensor t)
  else Ok (ManyBlocks ret).

End Scd.

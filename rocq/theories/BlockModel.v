(** Model of ShootingBlockBase, neuro_shooting/shooting_blocks.py:89-737 ("sb.py"
    below), with the parts of the integrand it uses
    (neuro_shooting/shooting_integrands.py, "si.py").

    The block is a record; a method is a function from the block to the block
    after the call (also when the call raises) and a result.  Devices, dtypes
    and printing are not modelled.  Parameter tensors created for enlargement
    are objects: the block holds a store of values, an object is a position in
    the store.  The ODE solver is an arbitrary function of the block, the
    initial conditions and the times. *)
From Coq Require Import List String Ascii Arith ZArith QArith Qcanon Bool Decimal DecimalString.
From Verif Require Import Base Tensor ScdModel.
Import ListNotations.
Open Scope string_scope.
Open Scope list_scope.
Open Scope nat_scope.

(** ** Registering parameters: torch's [register_parameter] *)

(** What a registered name refers to. *)
Inductive pobj : Type :=
| OState (k : string)               (* initial state parameter *)
| OCostate (k : string)             (* initial costate parameter *)
| OEnlarge (id : nat)               (* enlargement parameter, by position in the store *)
| OFree (step : nat) (layer k : string)  (* particle-free parameter *)
| OIntegrand (k : string).          (* parameter of the integrand *)

(** torch's test for a dot in a parameter name, used by [register_parameter] (external; sb.py:504-557). *)
Fixpoint has_dot (s : string) : bool :=
  match s with
  | EmptyString => false
  | String c r => Ascii.eqb c "."%char || has_dot r
  end.

(** torch.nn.Module.register_parameter (external): KeyError for an empty name, a
    name with a dot, or the name of an attribute that is not a parameter;
    registering a known parameter name again replaces the parameter. *)
Definition register_parameter (has_attr : string -> bool) (name : string) (p : pobj)
    (registry : pdict pobj) : result (pdict pobj) :=
  if has_dot name then Raise KeyError
  else if String.eqb name "" then Raise KeyError
  else if has_attr name && negb (sd_mem name registry) then Raise KeyError
  else Ok (pd_set name p registry).

(** Python's [str] of a non-negative int (decimal digits). *)
Definition str_nat (n : nat) : string := NilEmpty.string_of_uint (Nat.to_uint n).

(** sb.py:232,517: the name of a particle-free parameter. *)
Definition free_name (step : nat) (layer k : string) : string :=
  ("pf_timestep" ++ str_nat step ++ "_" ++ layer ++ "_" ++ k)%string.

(** sb.py:508-522 [register_particle_free_parameters] for one time step: [layers]
    maps parameter objects to their parameter names.  The registry before an
    exception is lost here, as an exception in the constructor leaves no block. *)
Definition register_free_step (has_attr : string -> bool) (step : nat)
    (registry : pdict pobj) (layer : string * list string) : result (pdict pobj) :=
  foldM (fun r k => register_parameter has_attr (free_name step (fst layer) k)
                      (OFree step (fst layer) k) r) (snd layer) registry.

(** sb.py:230-232: all time steps. *)
Definition register_free (has_attr : string -> bool)
    (steps : list (sdict (list string))) (registry : pdict pobj) : result (pdict pobj) :=
  foldM (fun r il => foldM (register_free_step has_attr (fst il)) (snd il) r)
        (combine (seq 0 (List.length steps)) steps) registry.

(** [pn.replace('.','__')], sb.py:504. *)
Fixpoint undot (s : string) : string :=
  match s with
  | EmptyString => EmptyString
  | String c r => if Ascii.eqb c "."%char then ("__" ++ undot r)%string else String c (undot r)
  end.

(** sb.py:500-506 [register_integrand_parameters]. *)
Definition register_integrand (has_attr : string -> bool) (names : list string)
    (registry : pdict pobj) : result (pdict pobj) :=
  foldM (fun r pn => register_parameter has_attr (undot pn) (OIntegrand pn) r) names registry.

(** sb.py:533-559 [register_state_and_costate_parameters].  sb.py:545 calls
    [zero_] on parameters that require gradients (all initializers create
    nn.Parameters, parameter_initialization.py:113-182): torch refuses in-place
    operations on such leaves, a RuntimeError. *)
Definition register_state_and_costate {V} (has_attr : string -> bool)
    (state costate : option (sdict V)) (keep_zero : bool) (registry : pdict pobj)
  : result (pdict pobj) :=
  r <- match state with
       | None => Ok registry
       | Some d =>
           if keep_zero then
             match d with [] => Ok registry | _ => Raise RuntimeError end
           else foldM (fun r kv => register_parameter has_attr (fst kv) (OState (fst kv)) r)
                      d registry
       end ;;
  match costate with
  | None => Ok r
  | Some d => foldM (fun r kv => register_parameter has_attr (fst kv) (OCostate (fst kv)) r) d r
  end.

Section Block.
Context {A : Type}.
(** The element torch.zeros fills with. *)
Variable zero : A.
Notation tdict := (sdict (tensor A)).
Notation tdicts := (sdict (sdict (tensor A))).

(** ** The integrand as seen by the block *)
Record integrand := mkIntegrand {
  ig_concatenate : bool;            (* concatenate_parameters, si.py:79 *)
  ig_concat_dim : nat;              (* concatenation_dim, e.g. si.py:981 *)
  ig_enlargement : bool;            (* enlargement_dimensions is not None, si.py:983 *)
  ig_state_random : bool;           (* _state_initializer.only_random_initialization *)
  ig_costate_random : bool;         (* _costate_initializer.only_random_initialization *)
  ig_initial_data : tensor A -> result tdict; (* get_initial_data_dict_from_data_tensor *)
  ig_output_key : string }.         (* the key [disassemble] extracts, e.g. shooting_models.py:314-316 *)

(** An enlargement entry, sb.py:361-363: the parameter object and the size
    differences.  The third component (the desired size) is never read (sb.py:390)
    and left out. *)
Notation enl_entry := (nat * list nat)%type.
Notation enl_dicts := (sdict (sdict (option (nat * list nat)))).

(** sb.py:91-247: the attributes of a block, with the two attributes of the integrand that the block sets. *)
Record block := mkBlock {
  b_name : string;                       (* _block_name, sb.py:124 *)
  b_state : option tdict;                (* _state_parameter_dict *)
  b_costate : option tdict;              (* _costate_parameter_dict *)
  b_enlarge : bool;                      (* enlarge_pass_through_states_and_costates *)
  b_keep_zero : bool;                    (* keep_state_parameters_at_zero *)
  b_fresh : bool;                        (* _forward_not_yet_executed *)
  b_st_enl : option enl_dicts;           (* _pass_through_state_..._enlargement_parameters *)
  b_co_enl : option enl_dicts;           (* _pass_through_costate_..._enlargement_parameters *)
  b_store : list (list A);               (* values of the enlargement parameter objects *)
  b_registry : pdict pobj;               (* torch's _parameters *)
  b_time : option Qc;                    (* integration_time [0, t] *)
  b_time_vec : option (list Qc);         (* integration_time_vector *)
  b_plans : option plans;                (* integrand.auto_assembly_plans *)
  b_data_dim : nat }.                    (* integrand.data_concatenation_dim *)

(** Attribute assignments. *)
Definition set_fresh v b := mkBlock (b_name b) (b_state b) (b_costate b) (b_enlarge b)
  (b_keep_zero b) v (b_st_enl b) (b_co_enl b) (b_store b) (b_registry b) (b_time b)
  (b_time_vec b) (b_plans b) (b_data_dim b).
(** sb.py:200-201, 648-649 *)
Definition set_enl v w b := mkBlock (b_name b) (b_state b) (b_costate b) (b_enlarge b)
  (b_keep_zero b) (b_fresh b) v w (b_store b) (b_registry b) (b_time b)
  (b_time_vec b) (b_plans b) (b_data_dim b).
(** The parameter objects created by sb.py:294-387. *)
Definition set_store v b := mkBlock (b_name b) (b_state b) (b_costate b) (b_enlarge b)
  (b_keep_zero b) (b_fresh b) (b_st_enl b) (b_co_enl b) v (b_registry b) (b_time b)
  (b_time_vec b) (b_plans b) (b_data_dim b).
(** torch's _parameters (sb.py:500-559). *)
Definition set_registry v b := mkBlock (b_name b) (b_state b) (b_costate b) (b_enlarge b)
  (b_keep_zero b) (b_fresh b) (b_st_enl b) (b_co_enl b) (b_store b) v (b_time b)
  (b_time_vec b) (b_plans b) (b_data_dim b).
(** sb.py:145-150, 261-269 *)
Definition set_times v w b := mkBlock (b_name b) (b_state b) (b_costate b) (b_enlarge b)
  (b_keep_zero b) (b_fresh b) (b_st_enl b) (b_co_enl b) (b_store b) (b_registry b) v
  w (b_plans b) (b_data_dim b).
(** si.py:229-230, called in sb.py:688 *)
Definition set_plans v b := mkBlock (b_name b) (b_state b) (b_costate b) (b_enlarge b)
  (b_keep_zero b) (b_fresh b) (b_st_enl b) (b_co_enl b) (b_store b) (b_registry b) (b_time b)
  (b_time_vec b) v (b_data_dim b).
(** si.py:109-110, called in sb.py:479 *)
Definition set_data_dim v b := mkBlock (b_name b) (b_state b) (b_costate b) (b_enlarge b)
  (b_keep_zero b) (b_fresh b) (b_st_enl b) (b_co_enl b) (b_store b) (b_registry b) (b_time b)
  (b_time_vec b) (b_plans b) v.

(** ** Methods: state and exceptions *)
Definition M (B : Type) : Type := block -> block * result B.
(** Returning a value. *)
Definition ret {B} (x : B) : M B := fun b => (b, Ok x).
(** Raising an exception; the block keeps the changes made so far. *)
Definition raise {B} (e : exn) : M B := fun b => (b, Raise e).
(** A computation that does not touch the block. *)
Definition lift {B} (r : result B) : M B := fun b => (b, r).
(** An attribute assignment. *)
Definition modify (f : block -> block) : M unit := fun b => (f b, Ok tt).
(** One statement after another; an exception ends the method. *)
Definition mbind {B C} (m : M B) (f : B -> M C) : M C :=
  fun b => match m b with
           | (b', Ok x) => f x b'
           | (b', Raise e) => (b', Raise e)
           end.
Notation "x <-- m ;;; k" := (mbind m (fun x => k))
  (at level 61, m at next level, right associativity).
Notation "' p <-- m ;;; k" := (mbind m (fun x => match x with p => k end))
  (at level 61, p pattern, m at next level, right associativity).

(** A [for] loop. *)
Fixpoint loop {B S} (f : S -> B -> M S) (l : list B) (s : S) : M S :=
  match l with
  | [] => ret s
  | a :: r => s' <-- f s a ;;; loop f r s'
  end.

Variable ig : integrand.
Variable has_attr : string -> bool.
(** The random values a new parameter object gets, by object and position. *)
Variable rnd : nat -> nat -> A.
(** [self.integrator.integrate(func=self.shooting_integrand, x0=..., t=...)],
    sb.py:695,699: one row per returned time. *)
Variable solve : block -> list A -> list Qc -> result (tensor A).

(** sb.py:302-304 with parameter_initialization.py:51-75
    [create_parameters_of_size]: zeros, random values, or (custom
    initialization, not implemented in the library) ValueError. *)
Definition create_parameters_of_size (only_random set_to_zero : bool) (size : nat) : M nat :=
  fun b =>
    let id := List.length (b_store b) in
    if set_to_zero then (set_store (b_store b ++ [repeat zero size]) b, Ok id)
    else if only_random then
      (set_store (b_store b ++ [map (rnd id) (seq 0 size)]) b, Ok id)
    else (b, Raise ValueError).

(** sb.py:294-308 [_create_raw_enlargement_parameters]; [is_state] is
    [data_type=='state'], the only other value used is 'costate'. *)
Definition create_raw_enlargement_parameters (desired_size current_size : list nat)
    (is_state : bool) : M nat :=
  let vol_d := prod desired_size in
  let vol_c := prod current_size in
  if vol_d <? vol_c then raise ValueError
  else fun b =>
    if is_state then
      create_parameters_of_size (ig_state_random ig) (b_keep_zero b) (vol_d - vol_c) b
    else create_parameters_of_size (ig_costate_random ig) false (vol_d - vol_c) b.

(** sb.py:350-356: the size differences, dimension by dimension. *)
Fixpoint size_diff (desired current : list nat) : result (list nat) :=
  match current, desired with
  | [], _ => Ok []
  | _ :: _, [] => Raise IndexError
  | c :: cs, d :: ds =>
      if d <? c then Raise ValueError
      else r <- size_diff ds cs ;; Ok ((d - c) :: r)
  end.

(** sb.py:333-363: one pass-through block [dk] for one variable [k]. *)
Definition create_enlargement_step (k : string) (desired0 : list nat) (is_state : bool)
    (acc : enl_dicts) (dd : string * tdict) : M enl_dicts :=
  let acc := if sd_mem (fst dd) acc then acc else sd_set (fst dd) [] acc in
  t <-- lift (sd_item k (snd dd)) ;;;
  let current_size := tshape t in
  c <-- lift (list_item current_size 1) ;;;
  desired_size <-- lift (list_set desired0 1 c) ;;;
  diff <-- lift (size_diff desired_size current_size) ;;;
  cur <-- lift (sd_item (fst dd) acc) ;;;
  if existsb (fun n => 0 <? n) diff then
    p <-- create_raw_enlargement_parameters desired_size current_size is_state ;;;
    ret (sd_set (fst dd) (sd_set k (Some (p, diff)) cur) acc)
  else ret (sd_set (fst dd) (sd_set k None cur) acc).

(** sb.py:310-365 [_create_generic_dict_of_dicts_enlargement_parameters]. *)
Definition create_enlargement (dicts : tdicts) (desired : option tdict) (is_state : bool)
  : M (option enl_dicts) :=
  match desired with
  | None => ret None
  | Some d =>
      if ig_enlargement ig then
        acc <-- loop (fun acc kt =>
                        loop (create_enlargement_step (fst kt) (tshape (snd kt)) is_state)
                             dicts acc) d [] ;;;
        ret (Some acc)
      else ret None
  end.

(** sb.py:561-587: the loops registering the entries.  sb.py:575 calls [_zero],
    which tensors do not have: AttributeError. *)
Definition register_entry (zero_first : bool) (_ : unit)
    (ke : string * option enl_entry) : M unit :=
  match snd ke with
  | None => ret tt
  | Some (p, _) =>
      if zero_first then raise AttributeError
      else fun b => match register_parameter has_attr ("pt_enlarge_" ++ fst ke)%string
                            (OEnlarge p) (b_registry b) with
                    | Ok r => (set_registry r b, Ok tt)
                    | Raise e => (b, Raise e)
                    end
  end.

(** sb.py:561-587: all blocks and entries. *)
Definition register_enlargement (zero_first : bool) (d : option enl_dicts) : M unit :=
  match d with
  | None => ret tt
  | Some d => loop (fun u kd => loop (register_entry zero_first) (snd kd) u) d tt
  end.

(** sb.py:589-617 [_get_or_create_and_register_pass_through_enlargement_parameters];
    sb.py:594 tests the first with [is not None], the second for truth (an empty
    dictionary is false). *)
Definition get_or_create_enlargement (st co : tdicts) : M (option enl_dicts * option enl_dicts) :=
  fun b =>
    if b_fresh b then
      if match b_st_enl b with Some _ => true | None => false end
         || match b_co_enl b with Some (_ :: _) => true | _ => false end
      then (b, Raise ValueError)
      else
        (s <-- create_enlargement st (b_state b) true ;;;
         c <-- create_enlargement co (b_costate b) false ;;;
         _ <-- register_enlargement (b_keep_zero b) s ;;;
         _ <-- register_enlargement false c ;;;
         ret (s, c)) b
    else (b, Ok (b_st_enl b, b_co_enl b)).

(** sb.py:403-426: growing one dimension. *)
Definition enlarge_step (pars : list A) (acc : tensor A * nat) (cd : nat * nat)
  : result (tensor A * nat) :=
  let '(cur, indx) := acc in
  let '(c_dim, c_diff) := cd in
  if 0 <? c_diff then
    let beg_add := c_diff / 2 in
    let end_add := c_diff - beg_add in
    beg_size <- list_set (tshape cur) c_dim beg_add ;;
    let beg_pars := firstn (prod beg_size) (skipn indx pars) in
    end_size <- list_set (tshape cur) c_dim end_add ;;
    let end_pars := firstn (prod end_size) (skipn (indx + prod beg_size) pars) in
    tb <- tview beg_pars beg_size ;;
    te <- tview end_pars end_size ;;
    r <- tcat c_dim tb cur ;;
    r <- tcat c_dim r te ;;
    Ok (r, indx + prod beg_size + prod end_size)
  else Ok acc.

(** sb.py:389-428 [_enlarge_tensor]. *)
Definition enlarge_tensor (cur : tensor A) (pars : list A) (diff : list nat)
  : result (tensor A) :=
  channels <- list_item diff 1 ;;
  if negb (channels =? 0) then Raise ValueError
  else
    '(r, _) <- foldM (enlarge_step pars) (combine (seq 0 (List.length diff)) diff) (cur, 0) ;;
    Ok r.

(** sb.py:446-450: one pair of zip(c_dict, c_enlargement_parameter_dict). *)
Definition enlarge_entry (store : list (list A)) (acc : tdict)
    (ke : (string * tensor A) * (string * option enl_entry)) : result tdict :=
  let '((kd, t), (_, e)) := ke in
  match e with
  | None => Ok (sd_set kd t acc)
  | Some (p, diff) =>
      pars <- list_item store p ;;
      r <- enlarge_tensor t pars diff ;;
      Ok (sd_set kd r acc)
  end.

(** sb.py:438-450: one pair of zip(generic_dict_of_dicts, enlargement_parameters). *)
Definition enlarge_block (store : list (list A)) (acc : tdicts)
    (be : (string * tdict) * (string * sdict (option enl_entry))) : result tdicts :=
  let '((gd, d), (_, e)) := be in
  r <- foldM (enlarge_entry store) (combine d e) [] ;;
  Ok (sd_set gd r acc).

(** sb.py:430-452 [_enlarge_generic_dict_of_dicts]. *)
Definition enlarge_dicts (store : list (list A)) (d : tdicts) (e : option enl_dicts)
  : result tdicts :=
  match e with
  | None => Ok d
  | Some e => foldM (enlarge_block store) (combine d e) []
  end.

(** sb.py:619-629 [_enlarge_pass_through_state_and_costate_dict_of_dicts]. *)
Definition enlarge_pass_through (st co : tdicts) : M (tdicts * tdicts) :=
  fun b => (b, s <- enlarge_dicts (b_store b) st (b_st_enl b) ;;
               c <- enlarge_dicts (b_store b) co (b_co_enl b) ;;
               Ok (s, c)).

(** sb.py:454-497 [_get_initial_conditions_from_data_dict_of_dicts]. *)
Definition initial_conditions (data : tdicts) (st co : option tdicts) (zero_pad : bool)
  : M (list A * plans) :=
  fun b0 =>
  (state_dicts <-- lift (merge_dict (b_state b0) st (b_name b0)) ;;;
   costate_dicts <-- lift (merge_dict (b_costate b0) co (b_name b0)) ;;;
   data_dicts <--
     (match zero_pad, b_state b0 with
      | true, Some sd =>
          dim <-- lift (get_data_concatenation_dim (Some sd) data (ig_concat_dim ig)) ;;;
          match dim with
          | None => raise TypeError
          | Some dim =>
              _ <-- modify (set_data_dim dim) ;;;
              padded <-- lift (zero_data_dict_matching zero sd data (ig_concat_dim ig) dim) ;;;
              lift (merge_dict (Some padded) (Some data) (b_name b0))
          end
      | _, _ => ret data
      end) ;;;
   lift (assemble_tensor state_dicts costate_dicts data_dicts)) b0.

(** [disassemble] of the models, e.g. shooting_models.py:314-316. *)
Definition disassemble (input : tensor A) (ps : option plans) (dim : Z) : result extracted :=
  '(_, _, d) <- disassemble_tensor input ps dim ;;
  extract_key d (ig_output_key ig).

(** What forward returns first: a tensor, one dictionary or a dictionary of
    dictionaries. *)
Inductive output :=
| RTensor (t : tensor A)
| RDict (d : tdict)
| RBlocks (d : tdicts).

(** What forward returns, sb.py:737. *)
Definition outputs : Type := (output * tdicts * tdicts * tdicts)%type.

(** sb.py:716-724: concatenating the extracted output. *)
Definition concatenate_output (res : extracted) (dim : nat) : result output :=
  match res with
  | OneTensor t => Ok (RTensor t)
  | ManyBlocks d =>
      r <- concatenate_dict_of_dicts d dim ;;
      match r with
      | [(_, t)] => Ok (RTensor t)
      | _ => Ok (RDict r)
      end
  end.

(** sb.py:693-703: integration and disassembly.  [res_all_times[-1, ...]] is an
    IndexError when there are no rows. *)
Definition integrate_and_disassemble (x0 : list A)
  : M (tdicts * tdicts * tdicts * extracted) :=
  fun b => (b,
    match b_time_vec b with
    | Some ts =>
        all <- solve b x0 ts ;;
        '(s, c, d) <- disassemble_tensor all (b_plans b) 1 ;;
        res <- disassemble all (b_plans b) 1 ;;
        Ok (s, c, d, res)
    | None =>
        match b_time b with
        | None => Raise TypeError
        | Some t =>
            all <- solve b x0 [Q2Qc 0; t] ;;
            n <- list_item (tshape all) 0 ;;
            final <- (if n =? 0 then Raise IndexError else tselect (n - 1) all) ;;
            '(s, c, d) <- disassemble_tensor final (b_plans b) 0 ;;
            res <- disassemble final (b_plans b) 0 ;;
            Ok (s, c, d, res)
        end
    end).

(** sb.py:705-729: concatenating the results. *)
Definition finish_outputs (r : tdicts * tdicts * tdicts * extracted) : M outputs :=
  fun b => (b,
    let '(s, c, d, res) := r in
    if ig_concatenate ig then
      s' <- concatenate_named s (ig_concat_dim ig) (b_name b) ;;
      c' <- concatenate_named c (ig_concat_dim ig) (b_name b) ;;
      d' <- concatenate_named d (b_data_dim b) (b_name b) ;;
      o <- concatenate_output res (b_data_dim b) ;;
      Ok (o, s', c', d')
    else
      Ok (match res with OneTensor t => RTensor t | ManyBlocks m => RBlocks m end, s, c, d)).

(** sb.py:644-666: the pass-through dictionaries actually used. *)
Definition effective_pass_through (st co : option tdicts) : M (option tdicts * option tdicts) :=
  match st, co with
  | Some s, Some c =>
      fun b =>
        if b_enlarge b then
          ('(es, ec) <-- get_or_create_enlargement s c ;;;
           _ <-- modify (set_enl es ec) ;;;
           '(s', c') <-- enlarge_pass_through s c ;;;
           ret (Some s', Some c')) b
        else (b, Ok (Some s, Some c))
  | _, _ => ret (None, None)
  end.

(** sb.py:669-680: the data actually used and whether to zero-pad. *)
Definition effective_data (x : option (tensor A)) (data : option tdicts) : M (tdicts * bool) :=
  match data, x with
  | Some _, Some _ => raise ValueError
  | Some d, None => ret (d, true)
  | None, Some x => fun b => (b, d <- ig_initial_data ig x ;; Ok (sd_set (b_name b) d [], false))
  | None, None => raise ValueError
  end.

(** sb.py:631-737 [forward].  [shooting_integrand.reset()] (sb.py:691) concerns
    the norm penalty and the parameter cache, modelled with the integrand. *)
Definition forward (x : option (tensor A)) (st co data : option tdicts) : M outputs :=
  match x, st, co with
  | None, None, None => raise ValueError
  | _, None, Some _ | _, Some _, None => raise ValueError
  | _, _, _ =>
      '(st', co') <-- effective_pass_through st co ;;;
      '(d, zero_pad) <-- effective_data x data ;;;
      '(x0, ps) <-- initial_conditions d st' co' zero_pad ;;;
      _ <-- modify (set_plans (Some ps)) ;;;
      r <-- integrate_and_disassemble x0 ;;;
      o <-- finish_outputs r ;;;
      _ <-- modify (set_fresh false) ;;;
      ret o
  end.

(** sb.py:249-253 [parameters]: the registered parameters. *)
Definition parameters : M (pdict pobj) :=
  fun b => (b, if b_fresh b then Raise ValueError else Ok (b_registry b)).

(** sb.py:261-263 [set_integration_time]. *)
Definition set_integration_time (t : Qc) : M unit := modify (set_times (Some t) None).

(** sb.py:265-269 [set_integration_time_vector]. *)
Definition set_integration_time_vector (ts : list Qc) : M unit :=
  modify (set_times None (Some ts)).

(** sb.py:271-281 [to] and [_apply] (also cuda(), float(), ...): applied to
    [integration_time], an AttributeError when that is None. *)
Definition to_device : M unit :=
  fun b => (b, match b_time b with Some _ => Ok tt | None => Raise AttributeError end).

(** An optimizer step on the enlargement parameters: any new values. *)
Definition train (f : nat -> nat -> A -> A) : M unit :=
  modify (fun b => set_store
    (map (fun il => map (fun jv => f (fst il) (fst jv) (snd jv))
                      (combine (seq 0 (List.length (snd il))) (snd il)))
         (combine (seq 0 (List.length (b_store b))) (b_store b))) b).

(** ** Construction, sb.py:91-246 *)

(** The part of the constructor that concerns the block's own parameters; the
    integrator is constructed as in IntegratorModel.  [state], [costate] come
    from [create_initial_state_and_costate_parameters] (sb.py:283-292); [free] is
    None outside the particle-free modes. *)
Definition new_block (name : string) (state costate : option tdict)
    (enlarge keep_zero : bool) (rnn_mode time_dependent_mode : bool)
    (free : list (sdict (list string))) (integrand_parameters : list string)
    (max_integration_time : option Qc) (data_dim : nat) : result block :=
  if rnn_mode && time_dependent_mode then Raise ValueError
  else
    r <- (if rnn_mode || time_dependent_mode then register_free has_attr free []
          else register_state_and_costate has_attr state costate keep_zero []) ;;
    r <- register_integrand has_attr integrand_parameters r ;;
    Ok (mkBlock name state costate enlarge keep_zero true None None [] r
          (Some (match max_integration_time with Some t => t | None => Q2Qc 1 end))
          None None data_dim).

(** ** Histories of calls *)
Inductive op :=
| OpForward (x : option (tensor A)) (st co data : option tdicts)
| OpParameters
| OpSetTime (t : Qc)
| OpSetVector (ts : list Qc)
| OpTo
| OpTrain (f : nat -> nat -> A -> A).

(** What a call shows to its caller. *)
Inductive observed :=
| ObsForward (r : result outputs)
| ObsParameters (r : result (pdict pobj))
| ObsUnit (r : result unit).

(** One call of a public method of the block (sb.py:249-281, 631-737), or a change of the parameter values by an optimizer. *)
Definition run_op (o : op) (b : block) : block * observed :=
  match o with
  | OpForward x st co data => let '(b', r) := forward x st co data b in (b', ObsForward r)
  | OpParameters => let '(b', r) := parameters b in (b', ObsParameters r)
  | OpSetTime t => let '(b', r) := set_integration_time t b in (b', ObsUnit r)
  | OpSetVector ts => let '(b', r) := set_integration_time_vector ts b in (b', ObsUnit r)
  | OpTo => let '(b', r) := to_device b in (b', ObsUnit r)
  | OpTrain f => let '(b', r) := train f b in (b', ObsUnit r)
  end.

(** A history of calls. *)
Fixpoint run_ops (os : list op) (b : block) : block * list observed :=
  match os with
  | [] => (b, [])
  | o :: r =>
      let '(b', v) := run_op o b in
      let '(b'', vs) := run_ops r b' in
      (b'', v :: vs)
  end.
End Block.

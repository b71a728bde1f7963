(** Model of the evaluation of the right-hand side:
    neuro_shooting/shooting_integrands.py:15-855 (cited as si.py), the base classes
    ShootingIntegrandBase and AutogradShootingIntegrandBase.

    The integrand object is a record; a method is a function from the record to the record
    after the call (also when the call raises) and a result.  The parts a concrete model supplies
    (its equations, the parameters of a state, the energy of parameters) and torch's
    automatic differentiation are arbitrary functions collected in [model].
    Hooks are arbitrary functions that may raise; they are recorded with their arguments.
    Not modelled: devices, printing, gradient flags, gradients that torch reports as unused (None). *)
From Coq Require Import List String ZArith QArith Qcanon Bool.
From Verif Require Import Base Tensor ScdModel IntegratorModel ParamFuncModel.
Import ListNotations.
Open Scope string_scope.
Open Scope list_scope.
Open Scope nat_scope.

(** [t.transpose(1,2)] (external): IndexError below three dimensions. *)
Definition ttranspose12 {A} (t : tensor A) : result (tensor A) :=
  match tshape t with
  | a :: b :: c :: s =>
      Ok (tgather (a :: c :: b :: s)
            (fun idx => match idx with
                        | i :: j :: k :: r => tget t (i :: k :: j :: r)
                        | _ => None
                        end))
  | _ => Raise IndexError
  end.

Section Integrand.
Context {A P E H C : Type}.
Notation tdict := (sdict (tensor A)).
Notation tdicts := (sdict (sdict (tensor A))).

(** ** What a concrete model and torch supply *)

(** The arguments of a hook call, si.py:760-762. *)
Record hargs := mkHargs {
  ha_t : Qc;
  ha_state : tdicts; ha_costate : tdicts; ha_data : tdicts;
  ha_dot_state : tdicts; ha_dot_costate : tdicts; ha_dot_data : tdicts;
  ha_params : P;
  ha_custom : option C }.

(** What a concrete model (shooting_models.py) and torch supply. *)
Record model := mkModel {
  m_concatenate : bool;       (* concatenate_parameters, si.py:79 *)
  m_concat_dim : nat;         (* concatenation_dim, e.g. si.py:981 *)
  m_transpose : bool;         (* transpose_state_when_forward, si.py:70 *)
  m_analytic : bool;          (* use_analytic_solution, si.py:54 *)
  (* rhs_advect_state on concatenated states (si.py:508) and on blocks (si.py:513) *)
  m_rhs : Qc -> tdict -> P -> result tdict;
  m_rhs_blocks : Qc -> tdicts -> P -> result tdicts;
  (* compute_parameters, si.py:594; optional_compute_parameters_analytic, si.py:603 *)
  m_parameters : Qc -> tdicts -> tdicts -> result P;
  m_parameters_analytic : Qc -> tdict -> tdict -> result P;
  (* optional_rhs_advect_costate_analytic on concatenated states (si.py:520) and blocks (si.py:525) *)
  m_costate : Qc -> tdict -> tdict -> P -> result tdict;
  m_costate_blocks : Qc -> tdicts -> tdicts -> P -> result tdicts;
  (* compute_kinetic_energy, si.py:303; the states are optional arguments *)
  m_kinetic : Qc -> P -> option (tdicts * tdicts) -> result E;
  (* the pairing of costates with right-hand sides, si.py:294-301 *)
  m_pair : tdicts -> tdicts -> result E;
  (* autograd.grad of the reduced Lagrangian with respect to the states, si.py:844-848 *)
  m_grad : Qc -> tdicts -> tdicts -> P -> result (list (tensor A));
  (* torch arithmetic of si.py:664-668 *)
  m_zero : E;
  m_add : E -> E -> E;
  m_div : E -> nat -> E;
  (* calling a hook *)
  m_hook : H -> hargs -> result unit }.

(** ** The integrand object *)
Record istate := mkIstate {
  s_hooks : list (nat * H);        (* _lagrangian_gradient_hooks, si.py:61 *)
  s_next_id : nat;                 (* RemovableHandle.next_id (external) *)
  s_custom : option C;             (* _custom_hook_data, si.py:64 *)
  s_penalty : option E;            (* current_norm_penalty, si.py:76 *)
  s_rnn_mode : bool;               (* use_rnn_mode, si.py:85 *)
  s_func : option (@param_func P); (* _rnn_parameter_func, si.py:86 *)
  s_rnn : option P;                (* _rnn_parameters, si.py:87 *)
  s_external : bool;               (* _externally_managed_rnn_parameters, si.py:88 *)
  s_plans : option plans;          (* auto_assembly_plans, si.py:82 *)
  s_data_dim : nat;                (* data_concatenation_dim, si.py:92 *)
  s_calls : list (H * hargs) }.    (* the hook calls made so far, in order *)

(** si.py:166-167 *)
Definition set_hooks v n s := mkIstate v n (s_custom s) (s_penalty s) (s_rnn_mode s) (s_func s)
  (s_rnn s) (s_external s) (s_plans s) (s_data_dim s) (s_calls s).
(** si.py:133-145 *)
Definition set_custom v s := mkIstate (s_hooks s) (s_next_id s) v (s_penalty s) (s_rnn_mode s)
  (s_func s) (s_rnn s) (s_external s) (s_plans s) (s_data_dim s) (s_calls s).
(** si.py:100, 668-672, 723-726 *)
Definition set_penalty v s := mkIstate (s_hooks s) (s_next_id s) (s_custom s) v (s_rnn_mode s)
  (s_func s) (s_rnn s) (s_external s) (s_plans s) (s_data_dim s) (s_calls s).
(** The attributes that [get_parameters_at_time] changes (sb.py:44-84), called in si.py:642, 697. *)
Definition set_func v s := mkIstate (s_hooks s) (s_next_id s) (s_custom s) (s_penalty s)
  (s_rnn_mode s) v (s_rnn s) (s_external s) (s_plans s) (s_data_dim s) (s_calls s).
(** si.py:102, 645-649, 700-705 *)
Definition set_rnn v s := mkIstate (s_hooks s) (s_next_id s) (s_custom s) (s_penalty s)
  (s_rnn_mode s) (s_func s) v (s_external s) (s_plans s) (s_data_dim s) (s_calls s).
(** si.py:104-107 *)
Definition set_managed v s := mkIstate (s_hooks s) (s_next_id s) (s_custom s) (s_penalty s)
  true (Some v) (s_rnn s) true (s_plans s) (s_data_dim s) (s_calls s).
(** si.py:229-230 *)
Definition set_plans v s := mkIstate (s_hooks s) (s_next_id s) (s_custom s) (s_penalty s)
  (s_rnn_mode s) (s_func s) (s_rnn s) (s_external s) v (s_data_dim s) (s_calls s).
(** si.py:109-110 *)
Definition set_data_dim v s := mkIstate (s_hooks s) (s_next_id s) (s_custom s) (s_penalty s)
  (s_rnn_mode s) (s_func s) (s_rnn s) (s_external s) (s_plans s) v (s_calls s).
(** Recording a hook call (si.py:759-762). *)
Definition set_calls v s := mkIstate (s_hooks s) (s_next_id s) (s_custom s) (s_penalty s)
  (s_rnn_mode s) (s_func s) (s_rnn s) (s_external s) (s_plans s) (s_data_dim s) v.

(** si.py:61-97: a new integrand. *)
Definition new_integrand (rnn_mode : bool) (data_dim : nat) : istate :=
  mkIstate [] 0 None None rnn_mode None None false None data_dim [].

(** Methods: state and exceptions. *)
Definition M (B : Type) : Type := istate -> istate * result B.
(** Returning a value. *)
Definition ret {B} (x : B) : M B := fun s => (s, Ok x).
(** Raising an exception; the changes made so far are kept. *)
Definition raise {B} (e : exn) : M B := fun s => (s, Raise e).
(** A computation that does not touch the integrand. *)
Definition lift {B} (r : result B) : M B := fun s => (s, r).
(** An attribute assignment. *)
Definition modify (f : istate -> istate) : M unit := fun s => (f s, Ok tt).
(** One statement after another; an exception ends the method. *)
Definition mbind {B D} (m : M B) (f : B -> M D) : M D :=
  fun s => match m s with
           | (s', Ok b) => f b s'
           | (s', Raise e) => (s', Raise e)
           end.
Notation "x <-- m ;;; k" := (mbind m (fun x => k))
  (at level 61, m at next level, right associativity).
Notation "' p <-- m ;;; k" := (mbind m (fun x => match x with p => k end))
  (at level 61, p pattern, m at next level, right associativity).

(** si.py:99-102 *)
Definition reset : M unit := fun s =>
  let s := set_penalty None s in
  (if s_external s then s else set_rnn None s, Ok tt).

(** si.py:104-107 *)
Definition set_externally_managed (f : @param_func P) : M unit := modify (set_managed f).

(** si.py:147-168: the handle's id is torch's next id. *)
Definition register_hook (h : H) : M nat := fun s =>
  let id := s_next_id s in
  (set_hooks (s_hooks s ++ [(id, h)]) (S id) s, Ok id).

(** [handle.remove()] (external): deletes the entry if it is still there. *)
Definition remove_hook (id : nat) : M unit := fun s =>
  (set_hooks (filter (fun ih => negb (Nat.eqb (fst ih) id)) (s_hooks s)) (s_next_id s) s, Ok tt).

(** si.py:218-227 *)
Definition get_norm_penalty : M (option E) := fun s => (s, Ok (s_penalty s)).

(** si.py:247-262 *)
Definition integrand_disassemble (input : tensor A) (assembly_plans : option plans) (dim : Z)
  : M (tdicts * tdicts * tdicts) := fun s =>
  match assembly_plans with
  | None => (s, disassemble_tensor input (s_plans s) dim)
  | Some _ => (s, Raise ValueError)
  end.

Variable m : model.

(** si.py:505-514 *)
Definition rhs_state (t : Qc) (st : tdicts) (p : P) (dim : nat) : result tdicts :=
  if m_concatenate m then
    c <- concatenate_dict_of_dicts st dim ;;
    r <- m_rhs m t c p ;;
    deconcatenate r st dim
  else m_rhs_blocks m t st p.

(** si.py:516-527 *)
Definition rhs_costate_analytic (t : Qc) (st co : tdicts) (p : P) (dim : nat) : result tdicts :=
  if m_concatenate m then
    c <- concatenate_dict_of_dicts st dim ;;
    cc <- concatenate_dict_of_dicts co dim ;;
    r <- m_costate m t c cc p ;;
    deconcatenate r co dim
  else m_costate_blocks m t st co p.

(** [d.values()[0]], si.py:634-635 *)
Definition first_block (d : tdicts) : result tdict := sd_peek0 d.

(** si.py:637-655 and si.py:693-711: the parameters of an evaluation; [compute] is the computation
    of the mode used. *)
Definition current_parameters (t : Qc) (compute : result P) : M P := fun s =>
  if s_rnn_mode s then
    if s_external s then
      match s_func s with
      | None => (s, Raise ValueError)
      | Some f =>
          match get_parameters_at_time f t with
          | Ok (p, f') => (set_func (Some f') s, Ok p)
          | Raise e => (s, Raise e)
          end
      end
    else
      match s_rnn s with
      | None => match compute with
                | Ok p => (set_rnn (Some p) s, Ok p)
                | Raise e => (s, Raise e)
                end
      | Some p => (s, Ok p)
      end
  else (s, compute).

(** si.py:664-668 and si.py:719-723: the mean energy of all particle-free parameters. *)
Definition mean_energy (t : Qc) (ps : list P) : result E :=
  sum <- foldM (fun acc p => e <- m_kinetic m t p None ;; Ok (m_add m acc e)) ps (m_zero m) ;;
  Ok (m_div m sum (List.length ps)).

(** si.py:657-672 and si.py:713-726; [t_energy] is the time passed to the energy. *)
Definition update_penalty (t t_energy : Qc) (p : P) (st co : tdicts) : M unit := fun s =>
  if qeq t 0%Qc then
    if s_external s then
      match s_func s with
      | None => (s, Raise ValueError)
      | Some f =>
          match mean_energy t (pf_params f) with
          | Ok e => (set_penalty (Some e) s, Ok tt)
          | Raise x => (s, Raise x)
          end
      end
    else
      match m_kinetic m t_energy p (Some (st, co)) with
      | Ok e => (set_penalty (Some e) s, Ok tt)
      | Raise x => (s, Raise x)
      end
  else (s, Ok tt).

(** What an evaluation returns: derivatives of states, costates and data, and the parameters. *)
Definition gradients : Type := (tdicts * tdicts * tdicts * P)%type.

(** si.py:624-687 *)
Definition compute_gradients_analytic (t : Qc) (st co da : tdicts) : M gradients :=
  if negb (Nat.eqb (List.length st) 1) || negb (Nat.eqb (List.length co) 1) then raise ValueError
  else
    sd <-- lift (first_block st) ;;;
    cd <-- lift (first_block co) ;;;
    p <-- current_parameters t (m_parameters_analytic m t sd cd) ;;;
    _ <-- update_penalty t t p st co ;;;
    dst <-- lift (rhs_state t st p (m_concat_dim m)) ;;;
    dda <-- (fun s => (s, rhs_state t da p (s_data_dim s))) ;;;
    dco <-- (fun s => (s, rhs_costate_analytic t st co p (s_data_dim s))) ;;;
    ret (dst, dco, dda, p).

(** si.py:362-381: the parameters used in the reduced Lagrangian.  si.py:368 calls the
    externally managed parameter function, an object without [__call__]
    (shooting_blocks.py:11-84): a TypeError. *)
Definition lagrangian_parameters (t : Qc) (st co : tdicts) : M P := fun s =>
  if s_rnn_mode s then
    if s_external s then
      match s_func s with
      | None => (s, Raise ValueError)
      | Some _ => (s, Raise TypeError)
      end
    else
      match s_rnn s with
      | None => match m_parameters m t st co with
                | Ok p => (set_rnn (Some p) s, Ok p)
                | Raise e => (s, Raise e)
                end
      | Some p => (s, Ok p)
      end
  else (s, m_parameters m t st co).

(** si.py:344-395 as far as it can raise, and si.py:834-855: the costate equation by automatic
    differentiation. *)
Definition rhs_costate_autodiff (t : Qc) (st co : tdicts) : M tdicts :=
  p <-- lagrangian_parameters t st co ;;;
  _ <-- lift (m_kinetic m t p (Some (st, co))) ;;;
  r <-- lift (rhs_state t st p (m_concat_dim m)) ;;;
  _ <-- lift (m_pair m r co) ;;;
  g <-- lift (m_grad m t st co p) ;;;
  lift (extract_dict_of_dicts_from_tuple g st "dot_p_").

(** si.py:689-739 *)
Definition compute_gradients_autodiff (t : Qc) (st co da : tdicts) : M gradients :=
  p <-- current_parameters t (m_parameters m t st co) ;;;
  _ <-- update_penalty t 0%Qc p st co ;;;
  dst <-- lift (rhs_state t st p (m_concat_dim m)) ;;;
  dda <-- (fun s => (s, rhs_state t da p (s_data_dim s))) ;;;
  dco <-- rhs_costate_autodiff t st co ;;;
  ret (dst, dco, dda, p).

(** si.py:759-762 *)
Fixpoint run_hooks (hs : list (nat * H)) (a : hargs) : M unit :=
  match hs with
  | [] => ret tt
  | (_, h) :: r =>
      _ <-- modify (fun s => set_calls (s_calls s ++ [(h, a)]) s) ;;;
      _ <-- lift (m_hook m h a) ;;;
      run_hooks r a
  end.

(** si.py:741-764 *)
Definition compute_gradients (t : Qc) (st co da : tdicts) : M gradients :=
  g <-- (if m_analytic m then compute_gradients_analytic t st co da
         else compute_gradients_autodiff t st co da) ;;;
  let '(dst, dco, dda, p) := g in
  _ <-- (fun s => run_hooks (s_hooks s) (mkHargs t st co da dst dco dda p (s_custom s)) s) ;;;
  ret g.

(** si.py:774-778 *)
Definition transpose_state (d : tdict) : result tdict :=
  foldM (fun acc kt => v <- ttranspose12 (snd kt) ;; Ok (sd_set (fst kt) v acc)) d [].

(** si.py:767-772: line 771 reads [ret_dicts[k]], not the argument. *)
Definition transpose_dicts (d : tdicts) : result tdicts :=
  foldM (fun ret_dicts kd =>
           v <- sd_item (fst kd) ret_dicts ;;
           v' <- transpose_state v ;;
           Ok (sd_set (fst kd) v' ret_dicts)) d [].

(** si.py:811: [transpose_state] on a dictionary of dictionaries; a SortedDict has no [transpose]. *)
Definition transpose_state_of_dicts (d : tdicts) : result tdicts :=
  match d with [] => Ok [] | _ => Raise AttributeError end.

(** si.py:781-816 *)
Definition forward (t : Qc) (input : list A) : M (list A) :=
  '(st, co, da) <-- integrand_disassemble (vec input) None 0 ;;;
  '(st, co, da) <--
     (if m_transpose m then
        st' <-- lift (transpose_dicts st) ;;;
        co' <-- lift (transpose_dicts co) ;;;
        da' <-- lift (transpose_dicts da) ;;;
        ret (st', co', da')
      else ret (st, co, da)) ;;;
  '(dst, dco, dda, _) <-- compute_gradients t st co da ;;;
  '(dst, dco, dda) <--
     (if m_transpose m then
        dst' <-- lift (transpose_dicts dst) ;;;
        dco' <-- lift (transpose_dicts dco) ;;;
        dda' <-- lift (transpose_state_of_dicts dda) ;;;
        ret (dst', dco', dda')
      else ret (dst, dco, dda)) ;;;
  '(out, _) <-- lift (assemble_tensor dst dco dda) ;;;
  ret out.

(** ** Using an integrand *)
Inductive iop : Type :=
| IReset
| IRegister (h : H)
| IRemove (id : nat)
| ISetCustom (c : C)
| ISetManaged (f : @param_func P)
| ISetPlans (ps : plans)
| ISetDataDim (dim : nat)
| IEval (t : Qc) (st co da : tdicts)     (* compute_gradients *)
| IForward (t : Qc) (input : list A).

(** What an operation shows to its caller. *)
Inductive iobs : Type :=
| OUnit
| OHandle (id : nat)
| OGradients (r : result gradients)
| OVector (r : result (list A)).

(** One use of the integrand by its caller (si.py:99-168, 229-230, 625-813; sb.py:661-702). *)
Definition run_iop (o : iop) (s : istate) : istate * iobs :=
  match o with
  | IReset => (fst (reset s), OUnit)
  | IRegister h => match register_hook h s with
                   | (s', Ok id) => (s', OHandle id)
                   | (s', Raise _) => (s', OUnit)
                   end
  | IRemove id => (fst (remove_hook id s), OUnit)
  | ISetCustom c => (set_custom (Some c) s, OUnit)
  | ISetManaged f => (fst (set_externally_managed f s), OUnit)
  | ISetPlans ps => (set_plans (Some ps) s, OUnit)
  | ISetDataDim d => (set_data_dim d s, OUnit)
  | IEval t st co da => let (s', r) := compute_gradients t st co da s in (s', OGradients r)
  | IForward t input => let (s', r) := forward t input s in (s', OVector r)
  end.

(** A history of uses. *)
Fixpoint run_iops (os : list iop) (s : istate) : istate * list iobs :=
  match os with
  | [] => (s, [])
  | o :: r => let (s1, x) := run_iop o s in let (s2, xs) := run_iops r s1 in (s2, x :: xs)
  end.
End Integrand.

(** Specification vocabulary for the evaluation of the right-hand side. *)
From Coq Require Import List String ZArith QArith Qcanon Bool Sorting.Sorted.
From Verif Require Import Base Tensor ScdModel ScdSpec ParamFuncModel IntegrandModel.
Import ListNotations.
Open Scope nat_scope.

Section Spec.
Context {A P E H C : Type}.
Notation iop := (@iop A P H C).
Notation iobs := (@iobs A P).

(** Number of hooks registered by a sequence of operations. *)
Fixpoint registrations (os : list iop) : nat :=
  match os with
  | [] => 0
  | IRegister _ :: r => S (registrations r)
  | _ :: r => registrations r
  end.

(** Hook [h] was the registration number [id], and was not removed since. *)
Definition live (os : list iop) (id : nat) (h : H) : Prop :=
  exists pre post, os = pre ++ IRegister h :: post /\ registrations pre = id /\ ~ In (IRemove id) post.

(** The custom data set last. *)
Fixpoint last_custom (os : list iop) (c : option C) : option C :=
  match os with
  | [] => c
  | ISetCustom c' :: r => last_custom r (Some c')
  | _ :: r => last_custom r c
  end.

(** [l] lists the live hooks in registration order. *)
Definition live_list (os : list iop) (l : list (nat * H)) : Prop :=
  StronglySorted (fun a b => fst a < fst b) l /\ forall id h, In (id, h) l <-> live os id h.

(** An operation that belongs to one integration: no reset, and the mode is not changed.  (A forward pass
    is an evaluation between disassembly and assembly.) *)
Definition within (o : iop) : Prop :=
  match o with IReset | ISetManaged _ | IForward _ _ => False | _ => True end.

(** The operation evaluates at time zero. *)
Definition at_zero (o : iop) : Prop :=
  match o with IEval t _ _ _ => t = 0%Qc | _ => False end.

Definition evaluates (o : iop) : Prop :=
  match o with IEval _ _ _ _ => True | _ => False end.

(** The observation is not an exception. *)
Definition succeeded (x : iobs) : Prop :=
  match x with OGradients (Raise _) | OVector (Raise _) => False | _ => True end.

(** The parameters an evaluation returned. *)
Definition used (x : iobs) (p : P) : Prop :=
  exists dst dco dda, x = OGradients (Ok (dst, dco, dda, p)).

(** The parameters the model computes for a state, in the mode in use. *)
Definition computed (m : @model A P E H C) (t : Qc) (st co : sdict (sdict (tensor A))) (p : P) : Prop :=
  if m_analytic m then
    exists n1 n2 sd cd, st = [(n1, sd)] /\ co = [(n2, cd)] /\ m_parameters_analytic m t sd cd = Ok p
  else m_parameters m t st co = Ok p.

(** The energy of given parameters: of each one, summed up and divided by their number. *)
Definition mean_of (m : @model A P E H C) (ps : list P) (e : E) : Prop :=
  exists es, Forall2 (fun p e => m_kinetic m 0%Qc p None = Ok e) ps es /\
    e = m_div m (fold_left (m_add m) es (m_zero m)) (List.length ps).
(** ** Explicit integration schemes
    A scheme is a straight-line program over a growing list of vectors: evaluate the right-hand side
    at an earlier vector, or combine earlier vectors entry by entry (any Runge-Kutta or multistep
    method with given steps is of this form, for any number of steps). *)
Inductive instr : Type :=
| Rhs (t : Qc) (i : nat)
| Combine (f : list A -> A) (is : list nat).

(** The columns of vectors of equal length. *)
Fixpoint columns (n : nat) (vs : list (list A)) : result (list (list A)) :=
  match n with
  | 0 => if forallb (fun v => match v with [] => true | _ => false end) vs then Ok []
         else Raise RuntimeError
  | S n => heads <- mapM (fun v : list A => match v with a :: _ => Ok a | [] => Raise RuntimeError end) vs ;;
           rest <- columns n (map (@tl A) vs) ;;
           Ok (heads :: rest)
  end.

Definition combine_vectors (f : list A -> A) (vs : list (list A)) : result (list A) :=
  match vs with
  | [] => Raise RuntimeError
  | v :: _ => c <- columns (List.length v) vs ;; Ok (map f c)
  end.

Fixpoint run_scheme (m : @model A P E H C) (prog : list instr) (env : list (list A))
  : @M A P E H C (list (list A)) :=
  match prog with
  | [] => ret env
  | Rhs t i :: r =>
      mbind (lift (list_item env i)) (fun x =>
      mbind (forward m t x) (fun y => run_scheme m r (env ++ [y])))
  | Combine f is :: r =>
      mbind (lift (vs <- mapM (list_item env) is ;; combine_vectors f vs)) (fun y =>
      run_scheme m r (env ++ [y]))
  end.

(** What a hook call shows apart from the data and the custom data. *)
Definition without_data (c : H * @hargs A P C) :=
  (fst c, ha_t (snd c), (ha_state (snd c), ha_costate (snd c)),
   (ha_dot_state (snd c), ha_dot_costate (snd c)), ha_params (snd c)).

(** Two integrands in the same mode with the same parameters, hooks and (apart from data) the same hook
    calls so far; the data dimension must be the same if
    costates are evolved analytically (it is used to take costates apart there, si.py:525). *)
Definition same_integrand (m : @model A P E H C) (s1 s2 : @istate A P E H C) : Prop :=
  s_rnn_mode s1 = s_rnn_mode s2 /\ s_external s1 = s_external s2 /\ s_func s1 = s_func s2 /\
  s_rnn s1 = s_rnn s2 /\ s_penalty s1 = s_penalty s2 /\
  s_hooks s1 = s_hooks s2 /\ map without_data (s_calls s1) = map without_data (s_calls s2) /\
  (m_analytic m = true -> s_data_dim s1 = s_data_dim s2).

(** Derivatives of states and costates together have as many entries as states and costates. *)
Definition sized (m : @model A P E H C) : Prop :=
  forall t st co da s s' dst dco dda p,
    compute_gradients m t st co da s = (s', Ok (dst, dco, dda, p)) ->
    List.length (elements dst ++ elements dco) = List.length (elements st ++ elements co).
End Spec.

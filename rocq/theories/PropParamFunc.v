(** Properties C19-C21: time-dependent parameter lookup. *)
From Coq Require Import List String Arith ZArith QArith Qcanon Lia Bool Sorting.Sorted.
From Verif Require Import Base ParamFuncModel ParamFuncSpec ParamFuncProofs.
Import ListNotations.
Open Scope nat_scope.

(** ** C19 *)
Theorem C19_lookup_total :
  forall (P : Type) (d : P) (ts : list Qc) (s : @param_func P), coherent s ->
  exists ps s', queries s ts = Ok (ps, s') /\ List.length ps = List.length ts /\
    (forall p, In p ps -> In p (pf_params s)) /\ coherent s' /\
    pf_times s' = pf_times s /\ pf_params s' = pf_params s /\
    pf_min_t s' = pf_min_t s /\ pf_max_t s' = pf_max_t s.
Proof. exact @queries_ok. Qed.
Print Assumptions C19_lookup_total.

(** Every constructed object starts coherent, with the documented grid. *)
Theorem C19_constructed_coherent :
  forall (P : Type) (create : nat -> P) (steps : Z) (a : Qc) (l : list Qc) (b : Qc), (a < b)%Qc ->
  exists s, new_param_func create steps (a :: l ++ [b]) = Ok s /\ coherent s /\
    pf_min_t s = a /\ pf_max_t s = b /\
    List.length (pf_times s) = Z.to_nat (Z.max 1 steps) /\
    pf_params s = map create (seq 0 (Z.to_nat (Z.max 1 steps))) /\
    (forall i, i < List.length (pf_times s) ->
       at_ (pf_times s) i =
       (a + Q2Qc (inject_Z (Z.of_nat i)) * ((b - a) / Q2Qc (inject_Z (Z.max 1 steps))))%Qc) /\
    (at_ (pf_times s) (List.length (pf_times s) - 1) < b)%Qc.
Proof. exact @new_coherent. Qed.
Print Assumptions C19_constructed_coherent.

(** Queries below, inside, above and again inside the range. *)
Example C19_example :
  match new_param_func (fun i => i) 4 [0%Qc; 1%Qc] with
  | Ok s => match queries s [Q2Qc (-1 # 1); Q2Qc (3 # 5); Q2Qc (2 # 1); Q2Qc (1 # 8)] with
            | Ok (ps, s') => ps = [0; 3; 3; 0] /\ pf_last_idx s' = 0%Z
            | Raise _ => False
            end
  | Raise _ => False
  end.
Proof. vm_compute. split; reflexivity. Qed.

(** ** C20.  The full statement, "the parameters of the largest grid time not
    after the query, whatever was asked before", is false: the same query asked
    twice in a row gives two different answers. *)
Theorem C20_closest_earlier_refuted :
  exists (s : @param_func nat) t s1 s2 p1 p2,
    new_param_func (fun i => i) 2 [0%Qc; 1%Qc] = Ok s /\
    get_parameters_at_time s t = Ok (p1, s1) /\
    get_parameters_at_time s1 t = Ok (p2, s2) /\
    p1 <> p2 /\ is_floor (pf_times s) t p2 /\ ~ is_floor (pf_times s) t p1.
Proof. exact lookup_depends_on_history. Qed.
Print Assumptions C20_closest_earlier_refuted.

(** What does hold after any history: below and above the range the first and
    last parameters; at a grid time exactly that grid time's parameters; inside
    the range the closest earlier ones, or the next ones, the latter only when
    the cached time lies before the query.  Missing: the last case is wrong. *)
Theorem C20_closest_or_next_partial :
  forall (P : Type) (create : nat -> P) (steps : Z) (a : Qc) (l : list Qc) (b : Qc)
    (hs : list Qc) (t : Qc), (a < b)%Qc ->
  exists s ps s1 j s2,
    new_param_func create steps (a :: l ++ [b]) = Ok s /\
    queries s hs = Ok (ps, s1) /\
    get_parameters_at_time s1 t = Ok (create j, s2) /\
    j < List.length (pf_times s) /\
    ((t < a)%Qc -> j = 0) /\ ((b < t)%Qc -> j = List.length (pf_times s) - 1) /\
    ((a <= t)%Qc -> (t <= b)%Qc ->
      is_floor (pf_times s) t j \/
      exists i, j = S i /\ is_floor (pf_times s) t i /\ (at_ (pf_times s) i < t)%Qc /\
        (pf_last_time s1 < t)%Qc) /\
    (forall k, k < List.length (pf_times s) -> t = at_ (pf_times s) k -> j = k).
Proof. exact @lookup_history. Qed.
Print Assumptions C20_closest_or_next_partial.

Example C20_example :
  (0 < 1)%Qc /\
  match new_param_func (fun i => i) 4 [0%Qc; 1%Qc] with
  | Ok s => match queries s [Q2Qc (3 # 4); Q2Qc (1 # 2); Q2Qc (3 # 5); Q2Qc (3 # 5); Q2Qc (3 # 5)] with
            | Ok (ps, _) => ps = [3; 2; 3; 2; 3]
            | Raise _ => False
            end
  | Raise _ => False
  end.
Proof. split; [reflexivity|]. vm_compute. reflexivity. Qed.

(** ** C21 *)
Theorem C21_single_set_constant :
  forall (P : Type) (s : @param_func P) (p : P) (ts : list Qc), pf_params s = [p] ->
  queries s ts = Ok (repeat p (List.length ts), s).
Proof. exact @queries_single. Qed.
Print Assumptions C21_single_set_constant.

(** Any number of steps up to one builds a single set. *)
Theorem C21_rnn_mode_constant :
  forall (P : Type) (create : nat -> P) (steps : Z) (a : Qc) (l : list Qc) (ts : list Qc),
  (steps <= 1)%Z ->
  exists s, new_param_func create steps (a :: l) = Ok s /\
    queries s ts = Ok (repeat (create 0) (List.length ts), s).
Proof. exact @rnn_constant. Qed.
Print Assumptions C21_rnn_mode_constant.

Example C21_example :
  match new_param_func (fun i => i + 7) 1 [0%Qc; 1%Qc] with
  | Ok s => match queries s [Q2Qc (3 # 4); Q2Qc (-1 # 2); Q2Qc (3 # 1)] with
            | Ok (ps, _) => ps = [7; 7; 7]
            | Raise _ => False
            end
  | Raise _ => False
  end.
Proof. vm_compute. reflexivity. Qed.

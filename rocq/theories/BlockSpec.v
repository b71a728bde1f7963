(** Vocabulary for the properties of shooting blocks. *)
From Coq Require Import List String Arith ZArith Qcanon.
From Verif Require Import Base Tensor ScdModel ScdSpec BlockModel.
Import ListNotations.
Open Scope nat_scope.

(** Component-wise sum of two lists. *)
Fixpoint zip_plus (a b : list nat) : list nat :=
  match a, b with
  | x :: a', y :: b' => (x + y) :: zip_plus a' b'
  | _, _ => []
  end.

(** Half of every difference, rounded down: where the original tensor starts. *)
Definition margins (diff : list nat) : list nat := map (fun d => d / 2) diff.

(** The enlargement parameters in use: variable name and parameter object. *)
Definition used_enlargements (d : option (list (string * list (string * option (nat * list nat)))))
  : list (string * nat) :=
  match d with
  | None => []
  | Some d =>
      flat_map (fun kd => flat_map (fun ke => match snd ke with
                                              | Some (p, _) => [(fst ke, p)]
                                              | None => []
                                              end) (snd kd)) d
  end.

(** Time index [i] of a family of tensors that has a leading time dimension. *)
Definition output_at {A} (i : nat) (o o1 : @output A) : Prop :=
  match o, o1 with
  | RTensor t, RTensor u => tselect i t = Ok u
  | RBlocks d, RBlocks e => at_time i d e
  | RDict d, RDict e => dict_rel (fun t u => tselect i t = Ok u) d e
  | _, _ => False
  end.

(** The solver that reports, as its final value, what [solve] reports at time
    index [i] of [ts]. *)
Definition at_index {A} (i : nat) (ts : list Qc)
    (solve : @block A -> list A -> list Qc -> result (tensor A))
  : @block A -> list A -> list Qc -> result (tensor A) :=
  fun b x0 _ =>
    all <- solve (set_times None (Some ts) b) x0 ts ;;
    row <- tselect i all ;;
    Ok (mkT (1 :: tshape row) (tdata row)).

(** The solver of a system with zero right-hand side. *)
Definition constant_solution {A} (_ : @block A) (x0 : list A) (ts : list Qc) : result (tensor A) :=
  Ok (mkT [List.length ts; List.length x0] (List.concat (repeat x0 (List.length ts)))).

(** A non-empty dictionary of well-formed tensors, none of them a scalar. *)
Definition good_dict {A} (d : sdict (tensor A)) : Prop :=
  dict_wf d /\ d <> [] /\ Forall (fun kt => tshape (snd kt) <> []) d.

(** [r] is the family [d] together with [g] under the name [name]. *)
Definition joined {V} (name : string) (g : V) (d : option (sdict V)) (r : sdict V) : Prop :=
  sd_wf r /\ sd_get name r = Some g /\
  forall k, k <> name -> sd_get k r = match d with Some d => sd_get k d | None => None end.

(** The same integrand, not concatenating the results. *)
Definition separate {A} (ig : @integrand A) : @integrand A :=
  mkIntegrand false (ig_concat_dim ig) (ig_enlargement ig) (ig_state_random ig) (ig_costate_random ig)
    (ig_initial_data ig) (ig_output_key ig).

(** Blocks that can be laid side by side along a dimension. *)
Definition concatenable {A} (dim : nat) (d : sdict (sdict (tensor A))) : Prop :=
  dim <= 4 /\ dicts_wf d /\ d <> [] /\ same_names d /\ agree_off dim d.

(** [c] holds the variables of all blocks of [d], laid side by side along [dim]. *)
Definition side_by_side {A} (dim : nat) (d : sdict (sdict (tensor A))) (c : sdict (tensor A)) : Prop :=
  (forall n b, In (n, b) d -> keys c = keys b) /\
  (forall k tc, sd_get k c = Some tc ->
     nth_error (tshape tc) dim = Some (offset dim k d) /\
     forall pre n b post, d = pre ++ (n, b) :: post ->
       exists t, sd_get k b = Some t /\
         forall idx, valid_idx (tshape t) idx ->
           tget tc (set_nth dim (nth dim idx 0 + offset dim k pre) idx) = tget t idx).

(** No dimension of [current] is larger than that of [desired], except the channels (dimension 1). *)
Definition fits_in (current desired : list nat) : Prop :=
  forall i n, nth_error current i = Some n -> i <> 1 -> exists m, nth_error desired i = Some m /\ n <= m.

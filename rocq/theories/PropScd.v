(** Properties C01-C10: state/costate/data dictionaries. *)
From Coq Require Import List String Arith ZArith Lia Bool Sorting.Sorted.
From Verif Require Import Base BaseFacts Tensor TensorFacts ScdModel ScdSpec
  ScdProofs ScdProofs2 ScdProofs3 ScdProofs4.
Import ListNotations.
Open Scope string_scope.
Open Scope list_scope.

(** ** C01 *)
Theorem C01_assemble_disassemble_round_trip :
  forall (A : Type) (s c d : sdict (sdict (tensor A))),
  dicts_wf s -> dicts_wf c -> dicts_wf d ->
  ranked s -> ranked c -> ranked d ->
  has_variable s -> has_variable c -> has_variable d ->
  exists plans,
    assemble_tensor s c d = Ok (elements s ++ elements c ++ elements d, plans) /\
    disassemble_tensor (vec (elements s ++ elements c ++ elements d)) (Some plans) 0
    = Ok (nonempty_blocks s, nonempty_blocks c, nonempty_blocks d).
Proof. exact @assemble_disassemble. Qed.
Print Assumptions C01_assemble_disassemble_round_trip.

(** Two state blocks (one of them empty), a costate and data. *)
Definition ex_s : sdict (sdict (tensor nat)) :=
  [("b1", [("q1", mkT [2; 2] [1; 2; 3; 4]); ("q2", mkT [1; 3] [5; 6; 7])]); ("b2", [])].
Definition ex_c : sdict (sdict (tensor nat)) :=
  [("b1", [("p_q1", mkT [2; 2] [11; 12; 13; 14]); ("p_q2", mkT [1; 3] [15; 16; 17])])].
Definition ex_d : sdict (sdict (tensor nat)) := [("data", [("q1", mkT [1; 1] [21])])].

Example C01_example :
  (dicts_wf ex_s /\ dicts_wf ex_c /\ dicts_wf ex_d /\ ranked ex_s /\ ranked ex_c /\ ranked ex_d /\
   has_variable ex_s /\ has_variable ex_c /\ has_variable ex_d) /\
  exists plans, assemble_tensor ex_s ex_c ex_d
    = Ok ([1; 2; 3; 4; 5; 6; 7; 11; 12; 13; 14; 15; 16; 17; 21], plans) /\
    disassemble_tensor (vec [1; 2; 3; 4; 5; 6; 7; 11; 12; 13; 14; 15; 16; 17; 21]) (Some plans) 0
    = Ok ([("b1", [("q1", mkT [2; 2] [1; 2; 3; 4]); ("q2", mkT [1; 3] [5; 6; 7])])], ex_c, ex_d).
Proof.
  split.
  - repeat match goal with
           | |- _ /\ _ => split
           | |- dicts_wf _ => split
           | |- dict_wf _ => split
           | |- sd_wf _ => repeat constructor
           | |- has_variable ex_s => exists "b1"; eexists; split; [left; reflexivity|discriminate]
           | |- has_variable ex_c => exists "b1"; eexists; split; [left; reflexivity|discriminate]
           | |- has_variable ex_d => exists "data"; eexists; split; [left; reflexivity|discriminate]
           | |- ranked _ => repeat (constructor; simpl; try discriminate)
           | |- _ => repeat constructor
           end.
  - eexists. split; reflexivity.
Qed.

(** ** C02 *)
Theorem C02_time_major_disassembly :
  forall (A : Type) (input : tensor A) T n plans s c d,
  twf input -> tshape input = [T; n] ->
  disassemble_tensor input (Some plans) 1 = Ok (s, c, d) ->
  forall i, i < T -> exists row s' c' d',
    tselect i input = Ok row /\
    disassemble_tensor row (Some plans) 0 = Ok (s', c', d') /\
    at_time i s s' /\ at_time i c c' /\ at_time i d d'.
Proof. exact (fun A input T n ps s c d W S H i Hi => disassemble_tensor_rows input T n i ps s c d W S Hi H). Qed.
Print Assumptions C02_time_major_disassembly.

Theorem C02_time_major_succeeds :
  forall (A : Type) (input : tensor A) T n plans,
  twf input -> tshape input = [T; n] ->
  plans_ok (state_plans plans) -> plans_ok (costate_plans plans) -> plans_ok (data_plans plans) ->
  plans_size (state_plans plans) + plans_size (costate_plans plans)
    + plans_size (data_plans plans) <= n ->
  exists s c d, disassemble_tensor input (Some plans) 1 = Ok (s, c, d) /\
    dicts_rel (fun t sh => tshape t = T :: sh) s (state_plans plans) /\
    dicts_rel (fun t sh => tshape t = T :: sh) c (costate_plans plans) /\
    dicts_rel (fun t sh => tshape t = T :: sh) d (data_plans plans).
Proof. exact @disassemble_tensor_time_ok. Qed.
Print Assumptions C02_time_major_succeeds.

Definition ex_plans : plans :=
  mkPlans [("b1", [("q1", [1; 2])])] [("b1", [("p_q1", [1; 2])])] [("data", [("q1", [1; 1])])].
Definition ex_matrix : tensor nat := mkT [2; 5] [1; 2; 3; 4; 5; 11; 12; 13; 14; 15].

Example C02_example :
  twf ex_matrix /\ tshape ex_matrix = [2; 5] /\
  plans_ok (state_plans ex_plans) /\ plans_ok (costate_plans ex_plans) /\
  plans_ok (data_plans ex_plans) /\
  disassemble_tensor ex_matrix (Some ex_plans) 1
  = Ok ([("b1", [("q1", mkT [2; 1; 2] [1; 2; 11; 12])])],
        [("b1", [("p_q1", mkT [2; 1; 2] [3; 4; 13; 14])])],
        [("data", [("q1", mkT [2; 1; 1] [5; 15])])]).
Proof.
  repeat split; try reflexivity; repeat (constructor; simpl; try discriminate).
Qed.

(** ** C03 *)
Theorem C03_assembly_succeeds_iff :
  forall (A : Type) (s c d : sdict (sdict (tensor A))),
  dicts_wf s -> dicts_wf c -> dicts_wf d ->
  (has_variable s /\ has_variable c /\ has_variable d ->
     exists plans, assemble_tensor s c d = Ok (elements s ++ elements c ++ elements d, plans)) /\
  (~ (has_variable s /\ has_variable c /\ has_variable d) ->
     assemble_tensor s c d = Raise TypeError).
Proof.
  exact (fun A s c d Ws Wc Wd =>
    conj (fun H => ex_intro _ _ (assemble_tensor_ok s c d Ws Wc Wd (proj1 H) (proj1 (proj2 H))
                                   (proj2 (proj2 H))))
         (assemble_tensor_err s c d Ws Wc Wd)).
Qed.
Print Assumptions C03_assembly_succeeds_iff.

Theorem C03_disassembly_argument_errors :
  forall (A : Type) (input : tensor A) plans dim,
  (dim <> 0%Z /\ dim <> 1%Z) \/ plans = None ->
  disassemble_tensor input plans dim = Raise ValueError.
Proof. exact @disassemble_bad_args. Qed.
Print Assumptions C03_disassembly_argument_errors.

(** A vector of the planned length is used up completely. *)
Theorem C03_exact_length_uses_everything :
  forall (A : Type) (l : list A) plans,
  plans_ok (state_plans plans) -> plans_ok (costate_plans plans) -> plans_ok (data_plans plans) ->
  List.length l = plans_size (state_plans plans) + plans_size (costate_plans plans)
                  + plans_size (data_plans plans) ->
  exists s c d, disassemble_tensor (vec l) (Some plans) 0 = Ok (s, c, d) /\
    elements s ++ elements c ++ elements d = l /\
    dicts_rel (fun t sh => tshape t = sh) s (state_plans plans) /\
    dicts_rel (fun t sh => tshape t = sh) c (costate_plans plans) /\
    dicts_rel (fun t sh => tshape t = sh) d (data_plans plans).
Proof. exact @disassemble_tensor_exact. Qed.
Print Assumptions C03_exact_length_uses_everything.

(** A vector that is too short is rejected. *)
Theorem C03_short_vector_rejected :
  forall (A : Type) (l : list A) plans,
  plans_ok (state_plans plans) -> plans_ok (costate_plans plans) -> plans_ok (data_plans plans) ->
  List.length l < plans_size (state_plans plans) + plans_size (costate_plans plans)
                  + plans_size (data_plans plans) ->
  disassemble_tensor (vec l) (Some plans) 0 = Raise RuntimeError.
Proof. exact @disassemble_tensor_short. Qed.
Print Assumptions C03_short_vector_rejected.

Example C03_example :
  assemble_tensor ex_s [("b1", [])] ex_d = Raise TypeError /\
  disassemble_tensor ex_matrix (Some ex_plans) 2 = Raise ValueError /\
  disassemble_tensor (vec [1; 2; 3; 4]) (Some ex_plans) 0 = Raise RuntimeError /\
  plans_ok (state_plans ex_plans).
Proof.
  repeat split; try reflexivity; repeat (constructor; simpl; try discriminate).
Qed.

(** ** C04 *)
Theorem C04_merge_adds_exactly_the_block :
  forall (V : Type) (g : option (sdict V)) (d : option (sdict (sdict V))) name,
  (forall dd, d = Some dd -> sd_wf dd /\ Forall (fun kd => sd_wf (snd kd)) dd /\
                             ~ In name (keys dd)) ->
  exists r, merge_dict g d name = Ok r /\ sd_wf r /\ sd_get name r = g /\
    forall k, k <> name ->
      sd_get k r = match d with Some dd => sd_get k dd | None => None end.
Proof. exact @merge_ok. Qed.
Print Assumptions C04_merge_adds_exactly_the_block.

Theorem C04_merge_never_overwrites :
  forall (V : Type) (g : option (sdict V)) dd name,
  In name (keys dd) -> merge_dict g (Some dd) name = Raise ValueError.
Proof. exact @merge_taken. Qed.
Print Assumptions C04_merge_never_overwrites.

Example C04_example :
  merge_dict (Some [("q", 1)]) (Some [("a", [("q", 2)]); ("c", [])]) "b"
  = Ok [("a", [("q", 2)]); ("b", [("q", 1)]); ("c", [])] /\
  merge_dict (@None (sdict nat)) (Some [("a", [("q", 2)]); ("c", [])]) "c" = Raise ValueError.
Proof. split; reflexivity. Qed.

(** ** C05 *)
Theorem C05_concatenate_deconcatenate :
  forall (A : Type) dim (d : sdict (sdict (tensor A))),
  dim <= 4 -> dicts_wf d -> d <> [] -> same_names d -> agree_off dim d ->
  exists c, concatenate_dict_of_dicts d dim = Ok c /\
    deconcatenate c d dim = Ok d /\
    (forall n b, In (n, b) d -> keys c = keys b) /\
    (forall k tc, sd_get k c = Some tc ->
       nth_error (tshape tc) dim = Some (offset dim k d) /\
       forall pre n b post, d = pre ++ (n, b) :: post ->
         exists t, sd_get k b = Some t /\
           forall idx, valid_idx (tshape t) idx ->
             tget tc (set_nth dim (nth dim idx 0 + offset dim k pre) idx) = tget t idx).
Proof. exact @concatenate_deconcatenate_full. Qed.
Print Assumptions C05_concatenate_deconcatenate.

Definition ex_cat : sdict (sdict (tensor nat)) :=
  [("a", [("q1", mkT [2; 1] [1; 2]); ("q2", mkT [1; 2] [3; 4])]);
   ("b", [("q1", mkT [2; 2] [5; 6; 7; 8]); ("q2", mkT [1; 1] [9])])].

Example C05_example :
  dicts_wf ex_cat /\ same_names ex_cat /\ agree_off 1 ex_cat /\
  concatenate_dict_of_dicts ex_cat 1
  = Ok [("q1", mkT [2; 3] [1; 5; 6; 2; 7; 8]); ("q2", mkT [1; 3] [3; 4; 9])] /\
  deconcatenate [("q1", mkT [2; 3] [1; 5; 6; 2; 7; 8]); ("q2", mkT [1; 3] [3; 4; 9])] ex_cat 1
  = Ok ex_cat.
Proof.
  split; [|split; [|split; [|split; reflexivity]]].
  - repeat constructor.
  - intros n1 b1 n2 b2 H1 H2. simpl in H1, H2.
    repeat match goal with
           | H : _ \/ _ |- _ => destruct H
           | H : (_, _) = (_, _) |- _ => injection H as <- <-
           | H : False |- _ => destruct H
           end; reflexivity.
  - intros n1 b1 n2 b2 k t1 t2 H1 H2 H3 H4. simpl in H1, H2.
    repeat match goal with
           | H : _ \/ _ |- _ => destruct H
           | H : (_, _) = (_, _) |- _ => injection H; intros; subst; clear H
           | H : False |- _ => destruct H
           | H : In _ (_ :: _) |- _ => simpl in H
           end; try discriminate; simpl; split; auto.
Qed.

(** ** C06.  The full statement, "blocks with differing names raise ValueError", is
    false: a later block that lacks variables is accepted and contributes
    nothing. *)
Theorem C06_concat_rejects_differing_names_refuted :
  exists (d : sdict (sdict (tensor nat))) dim c,
    dicts_wf d /\ ~ same_names d /\ concatenate_dict_of_dicts d dim = Ok c.
Proof. exact concat_differing_names. Qed.
Print Assumptions C06_concat_rejects_differing_names_refuted.

(** What does hold: a name the first block does not have is always rejected, so
    the result has exactly the first block's names.  Missing from the full
    statement: names a later block lacks. *)
Theorem C06_concat_rejects_foreign_names_partial :
  forall (A : Type) dim (d : sdict (sdict (tensor A))) n0 b0,
  Forall (fun kd => sd_wf (snd kd)) d -> nth_error d 0 = Some (n0, b0) ->
  (forall n b k, In (n, b) d -> In k (keys b) -> ~ In k (keys b0) ->
     concatenate_dict_of_dicts d dim = Raise ValueError) /\
  (forall c, concatenate_dict_of_dicts d dim = Ok c -> keys c = keys b0).
Proof.
  exact (fun A dim d n0 b0 F H =>
    conj (fun n b k => concatenate_foreign_name dim d n0 b0 n b k F H)
         (fun c E => proj1 (concatenate_names dim d c n0 b0 F H E))).
Qed.
Print Assumptions C06_concat_rejects_foreign_names_partial.

Example C06_example :
  concatenate_dict_of_dicts
    [("a", [("q1", mkT [1; 1] [1])]); ("b", [("q1", mkT [1; 1] [2]); ("q2", mkT [1; 1] [3])])] 1
  = Raise ValueError /\
  concatenate_dict_of_dicts
    [("a", [("q1", mkT [1; 1] [2]); ("q2", mkT [1; 1] [3])]); ("b", [("q1", mkT [1; 1] [1])])] 1
  = Ok [("q1", mkT [1; 2] [2; 1]); ("q2", mkT [1; 1] [3])].
Proof. split; reflexivity. Qed.

(** ** C07 *)
Theorem C07_tuple_dict_round_trip :
  forall (V : Type) (d : sdict V) prefix, sd_wf d ->
  extract_dict_from_tuple (compute_tuple_from_dict d) d prefix
  = Ok (map (fun kv => ((prefix ++ fst kv)%string, snd kv)) d).
Proof. exact @tuple_round_trip. Qed.
Print Assumptions C07_tuple_dict_round_trip.

Theorem C07_tuple_dict_of_dicts_round_trip :
  forall (V : Type) (d : sdict (sdict V)) prefix,
  sd_wf d -> Forall (fun kd => sd_wf (snd kd)) d ->
  extract_dict_of_dicts_from_tuple (compute_tuple_from_dict_of_dicts d) d prefix
  = Ok (rename (fun k => (prefix ++ k)%string) d).
Proof. exact @tuple_dicts_round_trip. Qed.
Print Assumptions C07_tuple_dict_of_dicts_round_trip.

(** Parameter objects without None entries; with a None entry the lookup fails
    rather than attaching a value to the wrong name. *)
Theorem C07_parameter_objects_round_trip :
  forall (V : Type) (d : sdict (sdict V)) prefix,
  sd_wf d -> Forall (fun kd => sd_wf (snd kd)) d ->
  extract_dict_from_tuple_parameter_objects
    (compute_tuple_from_parameter_objects (with_values d)) (with_values d) prefix
  = Ok (rename (fun k => (prefix ++ k)%string) d).
Proof. exact @params_round_trip. Qed.
Print Assumptions C07_parameter_objects_round_trip.

Theorem C07_parameter_objects_with_none_fail :
  forall (V : Type) (d : sdict (sdict (option V))) prefix,
  Exists (fun kd => Exists (fun kv => snd kv = None) (snd kd)) d ->
  extract_dict_from_tuple_parameter_objects
    (compute_tuple_from_parameter_objects d) d prefix = Raise IndexError.
Proof. exact @params_none. Qed.
Print Assumptions C07_parameter_objects_with_none_fail.

Example C07_example :
  compute_tuple_from_dict_of_dicts [("a", [("q1", 1); ("q2", 2)]); ("b", [("q1", 3)])] = [1; 2; 3] /\
  extract_dict_of_dicts_from_tuple [10; 20; 30]
    [("a", [("q1", 1); ("q2", 2)]); ("b", [("q1", 3)])] "dot_"
  = Ok [("a", [("dot_q1", 10); ("dot_q2", 20)]); ("b", [("dot_q1", 30)])] /\
  sd_wf [("a", [("q1", 1); ("q2", 2)]); ("b", [("q1", 3)])] /\
  extract_dict_from_tuple_parameter_objects
    (compute_tuple_from_parameter_objects [("l1", [("bias", None); ("weight", Some 1)])])
    [("l1", [("bias", None); ("weight", Some 1)])] "" = Raise IndexError.
Proof. repeat split; try reflexivity; repeat constructor. Qed.

(** ** C08 *)
Theorem C08_extract_key :
  forall (A : Type) (d : sdict (sdict (tensor A))) key, sd_wf d ->
  (forall n b t, d = [(n, b)] -> sd_get key b = Some t -> extract_key d key = Ok (OneTensor t)) /\
  (forall n b, d = [(n, b)] -> sd_get key b = None -> extract_key d key = Raise IndexError) /\
  (List.length d <> 1 -> exists r, extract_key d key = Ok (ManyBlocks r) /\ keys r = keys d /\
     forall n b, In (n, b) d ->
       exists rb, sd_get n r = Some rb /\ sd_get key rb = sd_get key b /\
         forall k, k <> key -> sd_get k rb = None).
Proof. exact @extract_key_full. Qed.
Print Assumptions C08_extract_key.

Example C08_example :
  extract_key ex_cat "q1"
  = Ok (ManyBlocks [("a", [("q1", mkT [2; 1] [1; 2])]); ("b", [("q1", mkT [2; 2] [5; 6; 7; 8])])]) /\
  extract_key [("a", [("q1", mkT [2; 1] [1; 2])])] "q1" = Ok (OneTensor (mkT [2; 1] [1; 2])) /\
  extract_key [("a", [("q1", mkT [2; 1] [1; 2])])] "q2" = Raise IndexError /\ sd_wf ex_cat.
Proof. repeat split; try reflexivity; repeat constructor. Qed.

(** ** C09 *)
Theorem C09_zero_padding_concatenates :
  forall (A : Type) (zero : A) (st : sdict (tensor A)) data sample sd dd name,
  dict_wf st -> (forall k t, In (k, t) st -> sd < List.length (tshape t)) ->
  dicts_wf data ->
  extract_size_from_dict_of_dicts data = Ok sample -> dd < List.length sample ->
  (forall n b, In (n, b) data -> keys b = keys st) ->
  (forall n b k t, In (n, b) data -> In (k, t) b ->
     set_nth dd 0 (tshape t) = set_nth dd 0 sample) ->
  ~ In name (keys data) ->
  exists z r c, zero_data_dict_matching zero st data sd dd = Ok z /\
    merge_dict (Some z) (Some data) name = Ok r /\
    concatenate_dict_of_dicts r dd = Ok c.
Proof. exact @zero_data_concatenates. Qed.
Print Assumptions C09_zero_padding_concatenates.

Theorem C09_zero_padding_shape :
  forall (A : Type) (zero : A) (st : sdict (tensor A)) data sample sd dd,
  sd_wf st -> (forall k t, In (k, t) st -> sd < List.length (tshape t)) ->
  extract_size_from_dict_of_dicts data = Ok sample -> dd < List.length sample ->
  zero_data_dict_matching zero st data sd dd
  = Ok (map (fun kt => (fst kt, tfill zero (set_nth dd (nth sd (tshape (snd kt)) 0) sample))) st).
Proof. exact @zero_data_ok. Qed.
Print Assumptions C09_zero_padding_shape.

Theorem C09_data_concatenation_dim :
  forall (A : Type) (st : sdict (tensor A)) (data : sdict (sdict (tensor A))) sz_data sz_state dim,
  extract_size_from_dict_of_dicts data = Ok sz_data -> extract_size_from_dict st = Ok sz_state ->
  get_data_concatenation_dim None data dim = Ok None /\
  (List.length sz_data < List.length sz_state ->
     get_data_concatenation_dim (Some st) data dim = Raise ValueError) /\
  (List.length sz_state <= List.length sz_data ->
     get_data_concatenation_dim (Some st) data dim
     = Ok (Some (dim + (List.length sz_data - List.length sz_state)))).
Proof. exact @data_concatenation_dim. Qed.
Print Assumptions C09_data_concatenation_dim.

Example C09_example :
  zero_data_dict_matching 0 [("q1", mkT [2; 3] [1; 2; 3; 4; 5; 6])]
    [("d", [("q1", mkT [1; 2; 2] [7; 8; 9; 10])])] 1 2
  = Ok [("q1", mkT [1; 2; 3] [0; 0; 0; 0; 0; 0])] /\
  get_data_concatenation_dim (Some [("q1", mkT [2; 3] [1; 2; 3; 4; 5; 6])])
    [("d", [("q1", mkT [1; 2; 2] [7; 8; 9; 10])])] 1 = Ok (Some 2).
Proof. split; reflexivity. Qed.

(** ** C10 *)
Theorem C10_rhs_vector_alignment :
  forall (A : Type) (s c d ds dc dd : sdict (sdict (tensor A))),
  dicts_wf s -> dicts_wf c -> dicts_wf d -> dicts_wf ds -> dicts_wf dc -> dicts_wf dd ->
  ranked s -> ranked c -> ranked d ->
  has_variable s -> has_variable c -> has_variable d ->
  dicts_rel (fun t u => tshape t = tshape u) s ds ->
  dicts_rel (fun t u => tshape t = tshape u) c dc ->
  dicts_rel (fun t u => tshape t = tshape u) d dd ->
  forall ps pc pd, exists v plans rhs plans',
    assemble_tensor s c d = Ok (v, plans) /\
    assemble_tensor (rename (fun k => ps ++ k)%string ds) (rename (fun k => pc ++ k)%string dc)
                    (rename (fun k => pd ++ k)%string dd) = Ok (rhs, plans') /\
    List.length rhs = List.length v /\
    disassemble_tensor (vec rhs) (Some plans) 0
    = Ok (nonempty_blocks ds, nonempty_blocks dc, nonempty_blocks dd).
Proof. exact @rhs_aligned. Qed.
Print Assumptions C10_rhs_vector_alignment.

(** When the states are concatenated first, the computed right-hand side (under
    other names, with the concatenated shapes) is cut apart at exactly the
    blocks' offsets. *)
Theorem C10_concatenated_rhs_alignment :
  forall (A : Type) dim (rhs : sdict (tensor A)) (d : sdict (sdict (tensor A))),
  dim <= 4 -> dict_wf rhs -> dicts_wf d ->
  (forall n b, In (n, b) d -> List.length rhs = List.length b) ->
  (forall n b kc tc k t, In (n, b) d -> In ((kc, tc), (k, t)) (combine rhs b) ->
     dim < List.length (tshape t) /\ set_nth dim 0 (tshape tc) = set_nth dim 0 (tshape t) /\
     nth dim (tshape tc) 0 = offset dim k d) ->
  exists r, deconcatenate rhs d dim = Ok r /\ keys r = keys d /\
    (forall pre n b post, d = pre ++ (n, b) :: post ->
     exists rb, In (n, rb) r /\ keys rb = keys rhs /\
       forall kc tc k t, In ((kc, tc), (k, t)) (combine rhs b) ->
         exists sl, In (kc, sl) rb /\ tshape sl = tshape t /\ twf sl /\
           forall idx, valid_idx (tshape t) idx ->
             tget sl idx = tget tc (set_nth dim (nth dim idx 0 + offset dim k pre) idx)).
Proof. exact @deconcatenate_ok. Qed.
Print Assumptions C10_concatenated_rhs_alignment.

Example C10_example :
  assemble_tensor (rename (fun k => "dot_" ++ k)%string ex_s)
     (rename (fun k => "dot_" ++ k)%string ex_c) (rename (fun k => "dot_" ++ k)%string ex_d)
  = Ok ([1; 2; 3; 4; 5; 6; 7; 11; 12; 13; 14; 15; 16; 17; 21],
        mkPlans [("b1", [("dot_q1", [2; 2]); ("dot_q2", [1; 3])])]
                [("b1", [("dot_p_q1", [2; 2]); ("dot_p_q2", [1; 3])])]
                [("data", [("dot_q1", [1; 1])])]) /\
  deconcatenate [("dot_q1", mkT [2; 3] [1; 5; 6; 2; 7; 8]); ("dot_q2", mkT [1; 3] [3; 4; 9])] ex_cat 1
  = Ok [("a", [("dot_q1", mkT [2; 1] [1; 2]); ("dot_q2", mkT [1; 2] [3; 4])]);
        ("b", [("dot_q1", mkT [2; 2] [5; 6; 7; 8]); ("dot_q2", mkT [1; 1] [9])])].
Proof. split; reflexivity. Qed.

(** ** C62.  The full statement, that scalar variables round-trip, is false: any
    scalar in the plans makes disassembly fail. *)
Theorem C62_scalar_round_trip_refuted :
  exists (s c d : sdict (sdict (tensor nat))) v plans,
    dicts_wf s /\ dicts_wf c /\ dicts_wf d /\
    assemble_tensor s c d = Ok (v, plans) /\
    disassemble_tensor (vec v) (Some plans) 0 = Raise TypeError.
Proof. exact scalar_not_disassembled. Qed.
Print Assumptions C62_scalar_round_trip_refuted.

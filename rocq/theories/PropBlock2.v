(** Further properties of shooting blocks: C24, C25, C27 and C78. *)
From Coq Require Import List String Ascii Arith ZArith QArith Qcanon Lia Bool Permutation.
From Verif Require Import Base Tensor ScdModel ScdSpec BlockModel BlockSpec BlockProofs7 PropBlock.
Import ListNotations.
Open Scope string_scope.
Open Scope list_scope.
Open Scope nat_scope.

(** ** C24.  Every enlarged variable of every pass-through block gets its own, new
    parameter object. *)
Theorem C24_own_objects :
  forall (A : Type) (zero : A) ig has_attr rnd solve x st co data (b b' : @block A) o,
  b_fresh b = true -> b_st_enl b = None -> b_co_enl b = None -> b_enlarge b = true ->
  forward zero ig has_attr rnd solve x (Some st) (Some co) data b = (b', Ok o) ->
  NoDup (map snd (used_enlargements (b_st_enl b') ++ used_enlargements (b_co_enl b'))) /\
  forall p, In p (map snd (used_enlargements (b_st_enl b') ++ used_enlargements (b_co_enl b'))) ->
    List.length (b_store b) <= p < List.length (b_store b').
Proof. exact @enlargements_own. Qed.
Print Assumptions C24_own_objects.

(** Two pass-through blocks: four objects. *)
Definition two_st := ex_st "b0" (small 5) ++ ex_st "b1" (small 6).
Definition two_co := ex_co "b0" (small 7) ++ ex_co "b1" (small 8).

Example C24_own_objects_case :
  exists o, let b' := fst (ex_fwd true (Some ex_x) (Some two_st) (Some two_co) None ex_b) in
  ex_fwd true (Some ex_x) (Some two_st) (Some two_co) None ex_b = (b', Ok o) /\
  b_fresh ex_b = true /\ b_st_enl ex_b = None /\ b_co_enl ex_b = None /\ b_enlarge ex_b = true /\
  used_enlargements (b_st_enl b') ++ used_enlargements (b_co_enl b')
  = [("q", 0); ("q", 1); ("p_q", 2); ("p_q", 3)].
Proof. eexists. vm_compute. repeat split. Qed.

(** ** C25.  A call that succeeds never shrank anything: every pass-through tensor
    fits in the block's own, in all dimensions but the channels. *)
Theorem C25_never_shrinks :
  forall (A : Type) (zero : A) ig has_attr rnd solve x st co data (b b' : @block A) o s0 c0,
  b_fresh b = true -> b_st_enl b = None -> b_co_enl b = None -> b_enlarge b = true ->
  ig_enlargement ig = true -> b_state b = Some s0 -> b_costate b = Some c0 ->
  forward zero ig has_attr rnd solve x (Some st) (Some co) data b = (b', Ok o) ->
  (forall k t0 n d, In (k, t0) s0 -> In (n, d) st ->
     exists t, sd_get k d = Some t /\ fits_in (tshape t) (tshape t0)) /\
  (forall k t0 n d, In (k, t0) c0 -> In (n, d) co ->
     exists t, sd_get k d = Some t /\ fits_in (tshape t) (tshape t0)).
Proof. exact @forward_fits. Qed.
Print Assumptions C25_never_shrinks.

(** A block with three particles is refused, two blocks with one particle are enlarged. *)
Example C25_never_shrinks_case :
  snd (ex_fwd true (Some ex_x) (Some (ex_st "b1" (mkT [3; 1; 1] [5; 6; 7]))) (Some two_co) None ex_b)
  = Raise ValueError /\
  (exists o, snd (ex_fwd true (Some ex_x) (Some two_st) (Some two_co) None ex_b) = Ok o) /\
  ig_enlargement (ex_ig true) = true /\
  b_state ex_b = Some [("q", mkT [2; 1; 1] [1; 2])] /\ b_costate ex_b = Some [("p_q", mkT [2; 1; 1] [3; 4])].
Proof.
  split; [vm_compute; reflexivity|]. split; [eexists; vm_compute; reflexivity|]. repeat split.
Qed.

(** ** C27.  A block in both particle-free modes is refused. *)
Theorem C27_one_mode :
  forall (A : Type) has_attr name (state costate : option (sdict (tensor A))) enlarge keep_zero free names t dim,
  new_block has_attr name state costate enlarge keep_zero true true free names t dim = Raise ValueError.
Proof. intros. reflexivity. Qed.
Print Assumptions C27_one_mode.

Example C27_one_mode_case :
  exists b, new_block ex_attr "b" (Some [("q", ex_x)]) None false false true false [[("l1", ["weight"])]] [] None 2
            = Ok b /\ keys (b_registry b) = ["pf_timestep0_l1_weight"].
Proof. eexists. vm_compute. split; reflexivity. Qed.

(** ** C78 *)
Theorem C78_concatenated_results :
  forall (A : Type) (zero : A) ig has_attr rnd solve x st co data (b b' : @block A) o s c d,
  ig_concatenate ig = true ->
  forward zero (separate ig) has_attr rnd solve x st co data b = (b', Ok (o, s, c, d)) ->
  concatenable (ig_concat_dim ig) s -> concatenable (ig_concat_dim ig) c -> concatenable (b_data_dim b') d ->
  exists o' cs cc cd,
    forward zero ig has_attr rnd solve x st co data b
      = (b', Ok (o', [(b_name b', cs)], [(b_name b', cc)], [(b_name b', cd)])) /\
    side_by_side (ig_concat_dim ig) s cs /\ side_by_side (ig_concat_dim ig) c cc /\
    side_by_side (b_data_dim b') d cd /\
    match o with
    | RTensor t => o' = RTensor t
    | RBlocks m => exists r, side_by_side (b_data_dim b') m r /\
                     o' = match r with [(_, t)] => RTensor t | _ => RDict r end
    | RDict _ => False
    end.
Proof. exact @concatenated_forward. Qed.
Print Assumptions C78_concatenated_results.

(** The states are laid along dimension 2, the data along dimension 3. *)
Definition pair_of (k : string) (n1 n2 : string) (t1 t2 : tensor nat) :=
  [(n1, [(k, t1)]); (n2, [(k, t2)])].
Example C78_case :
  let run ig := forward 0 ig ex_attr ex_rnd constant_solution None
      (Some (ex_st "b1" (mkT [2; 1; 1] [5; 6]))) (Some (ex_co "b1" (mkT [2; 1; 1] [7; 8])))
      (Some [("d", [("q", mkT [1; 1; 1; 1] [7])])]) ex_b in
  let s := pair_of "q" "b1" "b2" (mkT [2; 1; 1] [5; 6]) (mkT [2; 1; 1] [1; 2]) in
  let c := pair_of "p_q" "b1" "b2" (mkT [2; 1; 1] [7; 8]) (mkT [2; 1; 1] [3; 4]) in
  let d := pair_of "q" "b2" "d" (mkT [1; 1; 1; 1] [0]) (mkT [1; 1; 1; 1] [7]) in
  separate (ex_ig true) = ex_ig false /\ ig_concatenate (ex_ig true) = true /\
  snd (run (ex_ig false)) = Ok (RBlocks d, s, c, d) /\
  concatenable 2 s /\ concatenable 2 c /\ b_data_dim (fst (run (ex_ig false))) = 3 /\ concatenable 3 d /\
  snd (run (ex_ig true))
  = Ok (RTensor (mkT [1; 1; 1; 2] [0; 7]), [("b2", [("q", mkT [2; 1; 2] [5; 1; 6; 2])])],
        [("b2", [("p_q", mkT [2; 1; 2] [7; 3; 8; 4])])], [("b2", [("q", mkT [1; 1; 1; 2] [0; 7])])]).
Proof.
  cbv zeta.
  assert (P : forall k n1 n2 sh (l1 l2 : list nat) dim, str_lt n1 n2 -> dim <= 4 -> dim < List.length sh ->
    prod sh = List.length l1 -> prod sh = List.length l2 ->
    concatenable dim (pair_of k n1 n2 (mkT sh l1) (mkT sh l2))).
  { intros k n1 n2 sh l1 l2 dim N D L P1 P2.
    assert (G : forall l : list nat, prod sh = List.length l -> dict_wf [(k, mkT sh l)]).
    { intros l PL. split; [constructor; constructor|]. constructor; [unfold twf; cbn [snd tshape tdata]; symmetry; exact PL|constructor]. }
    split; [exact D|]. split; [split|split; [discriminate|split]].
    - constructor; [constructor; [constructor|constructor]|]. constructor; [exact N|constructor].
    - constructor; [apply G, P1|]. constructor; [apply G, P2|constructor].
    - intros ? ? ? ? [I1|[I1|[]]] [I2|[I2|[]]]; injection I1 as <- <-; injection I2 as <- <-; reflexivity.
    - intros ? ? ? ? ? ? ? [I1|[I1|[]]] [I2|[I2|[]]]; injection I1 as <- <-; injection I2 as <- <-;
        intros [J1|[]] [J2|[]]; injection J1 as _ <-; injection J2 as _ <-; cbn [tshape]; auto. }
  split; [reflexivity|]. split; [reflexivity|]. split; [vm_compute; reflexivity|].
  split; [apply P; cbn; auto; reflexivity|]. split; [apply P; cbn; auto; reflexivity|].
  split; [vm_compute; reflexivity|]. split; [apply P; cbn; auto; reflexivity|]. vm_compute. reflexivity.
Qed.

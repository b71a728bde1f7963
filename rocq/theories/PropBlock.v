(** Properties of shooting blocks: C22-C28, C63-C67. *)
From Coq Require Import List String Ascii Arith ZArith QArith Qcanon Lia Bool Permutation.
From Verif Require Import Base Tensor ScdModel ScdSpec BlockModel BlockSpec EnlargeProofs BlockProofs
  BlockProofs2 BlockProofs3 BlockProofs4 BlockProofs5 BlockProofs6.
Import ListNotations.
Open Scope string_scope.
Open Scope list_scope.
Open Scope nat_scope.

(** ** A small block used in the examples: one variable [q] of shape (2,1,1), an
    integrand with zero dynamics, natural numbers as elements. *)
Definition ex_ig (cat : bool) : @integrand nat :=
  mkIntegrand cat 2 true true true (fun x => Ok [("q", x)]) "q".
Definition ex_attr (_ : string) := false.
Definition ex_rnd (i j : nat) := 100 * i + j.
Definition ex_new (keep : bool) : result (@block nat) :=
  new_block ex_attr "b2" (Some [("q", mkT [2; 1; 1] [1; 2])]) (Some [("p_q", mkT [2; 1; 1] [3; 4])])
    true keep false false [] ["w"] None 2.
Definition ex_b : @block nat :=
  match ex_new false with Ok b => b | Raise _ => mkBlock "" None None false false true None None [] [] None None None 0 end.
Definition ex_fwd cat := forward 0 (ex_ig cat) ex_attr ex_rnd constant_solution.
Definition ex_run cat := run_ops 0 (ex_ig cat) ex_attr ex_rnd constant_solution.
Definition ex_x : tensor nat := mkT [1; 1; 1] [7].
(** Pass-through blocks. *)
Definition ex_st (n : string) (t : tensor nat) := [(n, [("q", t)])].
Definition ex_co (n : string) (t : tensor nat) := [(n, [("p_q", t)])].
Definition small (v : nat) : tensor nat := mkT [1; 1; 1] [v].

Example ex_block_exists : ex_new false = Ok ex_b /\ b_fresh ex_b = true /\
  keys (b_registry ex_b) = ["q"; "p_q"; "w"].
Proof. repeat split. Qed.

(** ** C22 *)
Theorem C22_parameters_after_forward :
  forall (A : Type) (zero : A) ig has_attr rnd solve (os : list (@op A)) b b' vs,
  b_fresh b = true -> run_ops zero ig has_attr rnd solve os b = (b', vs) ->
  (Exists forward_succeeded vs -> parameters b' = (b', Ok (b_registry b'))) /\
  (~ Exists forward_succeeded vs -> parameters b' = (b', Raise ValueError)).
Proof. exact @parameters_available. Qed.
Print Assumptions C22_parameters_after_forward.

Example C22_example :
  map (fun v => match v with
                | ObsForward (Ok _) => "forward ok" | ObsForward (Raise _) => "forward error"
                | ObsParameters (Ok _) => "parameters" | ObsParameters (Raise _) => "no parameters"
                | ObsUnit _ => "unit" end)
      (snd (ex_run true [OpParameters; OpForward None None None None; OpParameters;
                         OpForward (Some ex_x) None None None; OpParameters;
                         OpForward None None None None; OpParameters] ex_b))
  = ["no parameters"; "forward error"; "no parameters"; "forward ok"; "parameters";
     "forward error"; "parameters"].
Proof. vm_compute. reflexivity. Qed.

(** ** C23.  The full statement is false: a first call with pass-through blocks
    that fails after the enlargement parameters have been created makes every
    later call with pass-through blocks fail. *)
Theorem C23_retry_refuted :
  exists (b : @block nat) x st co,
    ex_new false = Ok b /\
    snd (ex_fwd true None (Some st) (Some co) None b) = Raise ValueError /\
    (exists o, snd (ex_fwd true (Some x) (Some st) (Some co) None b) = Ok o) /\
    snd (ex_fwd true (Some x) (Some st) (Some co) None
           (fst (ex_fwd true None (Some st) (Some co) None b))) = Raise ValueError.
Proof.
  exists ex_b, ex_x, (ex_st "b1" (small 5)), (ex_co "b1" (small 6)).
  split; [reflexivity|]. split; [vm_compute; reflexivity|].
  split; [eexists; vm_compute; reflexivity|]. vm_compute. reflexivity.
Qed.
Print Assumptions C23_retry_refuted.

(** True: after failing calls none of which can create enlargement parameters, a
    call behaves as on the original block.  The
    integrator is only assumed not to look at the scratch attribute that stores
    the dimension along which data are concatenated. *)
Theorem C23_retry_partial :
  forall (A : Type) (zero : A) ig has_attr rnd solve (os : list (@op A)) b b' vs x st co data,
  (forall n b x0 ts, solve (set_data_dim n b) x0 ts = solve b x0 ts) ->
  Forall (harmless_call ig b) os ->
  run_ops zero ig has_attr rnd solve os b = (b', vs) ->
  Forall (fun v => ~ forward_succeeded v) vs ->
  snd (forward zero ig has_attr rnd solve x st co data b')
  = snd (forward zero ig has_attr rnd solve x st co data b).
Proof. exact @retry_after_failures. Qed.
Print Assumptions C23_retry_partial.

Example C23_example :
  let os := [OpForward None None None None;
             OpForward (Some (mkT [1; 1; 2] [7; 8])) None None (Some [("d", [("q", ex_x)])])] in
  Forall (harmless_call (ex_ig true) ex_b) os /\
  Forall (fun v => ~ forward_succeeded v) (snd (ex_run true os ex_b)) /\
  (forall n (b : @block nat) x0 ts, constant_solution (set_data_dim n b) x0 ts = constant_solution b x0 ts) /\
  exists o, snd (ex_fwd true (Some ex_x) (Some (ex_st "b1" (small 5))) (Some (ex_co "b1" (small 6))) None
                   (fst (ex_run true os ex_b))) = Ok o.
Proof.
  cbv zeta. split; [repeat constructor; right; left; reflexivity|].
  split; [vm_compute; repeat constructor; intros [o [=]]|].
  split; [reflexivity|]. eexists; vm_compute; reflexivity.
Qed.

(** ** C24 *)
Theorem C24_enlargement_created_once :
  forall (A : Type) (zero : A) ig has_attr rnd solve (os : list (@op A)) b b' vs,
  b_fresh b = false -> run_ops zero ig has_attr rnd solve os b = (b', vs) ->
  same_objects b b' /\ b_fresh b' = false.
Proof. exact @executed_run_same_objects. Qed.
Print Assumptions C24_enlargement_created_once.

Example C24_example :
  let b1 := fst (ex_fwd true (Some ex_x) (Some (ex_st "b1" (small 5))) (Some (ex_co "b1" (small 6))) None ex_b) in
  let b2 := fst (ex_run true
     [OpForward (Some ex_x) (Some (ex_st "b1" (small 5))) (Some (ex_co "b1" (small 6))) None;
      OpTrain (fun i j v => v + 1);
      OpForward (Some ex_x) (Some (ex_st "b1" (small 5))) (Some (ex_co "b1" (small 6))) None] b1) in
  b_fresh b1 = false /\ b_store b1 = [[0]; [100]] /\ b_store b2 = [[1]; [101]] /\
  keys (b_registry b2) = ["q"; "p_q"; "w"; "pt_enlarge_q"; "pt_enlarge_p_q"].
Proof. vm_compute. repeat split. Qed.

(** ** C25 *)
Theorem C25_enlarge_embeds_centrally :
  forall (A : Type) (t : tensor A) pars diff,
  twf t -> List.length diff = List.length (tshape t) -> nth_error diff 1 = Some 0 ->
  prod (tshape t) + List.length pars = prod (zip_plus (tshape t) diff) ->
  exists r, enlarge_tensor t pars diff = Ok r /\ twf r /\
    tshape r = zip_plus (tshape t) diff /\
    (forall idx, valid_idx (tshape t) idx ->
       tget r (zip_plus idx (margins diff)) = tget t idx) /\
    Permutation (tdata r) (tdata t ++ pars).
Proof. exact @enlarge_ok. Qed.
Print Assumptions C25_enlarge_embeds_centrally.

Theorem C25_every_parameter_used_once :
  forall (A : Type) (t : tensor A) pars diff,
  twf t -> List.length diff = List.length (tshape t) -> nth_error diff 1 = Some 0 ->
  prod (tshape t) + List.length pars = prod (zip_plus (tshape t) diff) ->
  exists r pos, enlarge_tensor t pars diff = Ok r /\
    (forall idx, valid_idx (tshape r) idx ->
       (exists i, valid_idx (tshape t) i /\ idx = zip_plus i (margins diff)) \/
       (pos idx < List.length pars /\ tget r idx = nth_error pars (pos idx))) /\
    (forall p, p < List.length pars ->
       exists idx, valid_idx (tshape r) idx /\ pos idx = p /\
         (forall i, valid_idx (tshape t) i -> idx <> zip_plus i (margins diff)) /\
         forall idx', valid_idx (tshape r) idx' ->
           (forall i, valid_idx (tshape t) i -> idx' <> zip_plus i (margins diff)) ->
           pos idx' = p -> idx' = idx).
Proof. exact @enlarge_positions. Qed.
Print Assumptions C25_every_parameter_used_once.

(** The size differences and the number of parameters are those computed when
    the parameters are created: the desired size is reached. *)
Theorem C25_desired_size_reached :
  forall (A : Type) (t : tensor A) desired c pars,
  twf t -> nth_error (tshape t) 1 = Some c ->
  Forall2 (fun c d => c <= d) (tshape t) (set_nth 1 c desired) ->
  List.length pars = prod (set_nth 1 c desired) - prod (tshape t) ->
  exists diff r, size_diff (set_nth 1 c desired) (tshape t) = Ok diff /\
    enlarge_tensor t pars diff = Ok r /\ tshape r = set_nth 1 c desired /\
    forall idx, valid_idx (tshape t) idx ->
      tget r (zip_plus idx (margins diff)) = tget t idx.
Proof. exact @enlarge_reaches. Qed.
Print Assumptions C25_desired_size_reached.

Example C25_example :
  enlarge_tensor (mkT [1; 1; 2] [7; 8]) (seq 10 7) [2; 0; 1]
  = Ok (mkT [3; 1; 3] [10; 11; 14; 7; 8; 15; 12; 13; 16]).
Proof. reflexivity. Qed.

(** ** C26.  The full statement is false: with two pass-through blocks that both
    need enlarging, the second block's parameter takes the registered name of the
    first one's. *)
Theorem C26_registered_refuted :
  exists (b b' : @block nat) st co o p,
    ex_new false = Ok b /\
    ex_fwd true (Some ex_x) (Some st) (Some co) None b = (b', Ok o) /\
    In p (map snd (used_enlargements (b_st_enl b'))) /\
    ~ exists name, pd_get name (b_registry b') = Some (OEnlarge p).
Proof.
  exists ex_b.
  pose (st := ex_st "b0" (small 5) ++ ex_st "b1" (small 6)).
  pose (co := ex_co "b0" (small 5) ++ ex_co "b1" (small 6)).
  exists (fst (ex_fwd true (Some ex_x) (Some st) (Some co) None ex_b)), st, co.
  eexists. exists 0. split; [reflexivity|].
  split; [vm_compute; reflexivity|]. split; [vm_compute; auto|].
  vm_compute. intros [name H].
  repeat match type of H with
         | (if ?c then _ else _) = _ => destruct c; [discriminate H|]
         | match ?c with _ => _ end = _ => destruct c
         | _ => discriminate H
         end.
Qed.
Print Assumptions C26_registered_refuted.

(** True: every parameter in use is registered when no two of them belong to
    variables of the same name... *)
Theorem C26_registered_partial :
  forall (A : Type) (zero : A) ig has_attr rnd solve x st co data (b b' : @block A) o,
  b_fresh b = true -> b_st_enl b = None -> b_co_enl b = None ->
  forward zero ig has_attr rnd solve x st co data b = (b', Ok o) ->
  let used := used_enlargements (b_st_enl b') ++ used_enlargements (b_co_enl b') in
  NoDup (map fst used) ->
  forall k p, In (k, p) used -> exists name, pd_get name (b_registry b') = Some (OEnlarge p).
Proof. exact @enlargements_registered. Qed.
Print Assumptions C26_registered_partial.

(** ... which is the case for a single pass-through block. *)
Theorem C26_single_block_registered :
  forall (A : Type) (zero : A) ig has_attr rnd solve x n1 d1 n2 d2 data (b b' : @block A) o ks kc,
  b_fresh b = true -> b_st_enl b = None -> b_co_enl b = None ->
  b_state b = Some ks -> b_costate b = Some kc -> (forall k, In k (keys ks) -> ~ In k (keys kc)) ->
  forward zero ig has_attr rnd solve x (Some [(n1, d1)]) (Some [(n2, d2)]) data b = (b', Ok o) ->
  forall k p, In (k, p) (used_enlargements (b_st_enl b') ++ used_enlargements (b_co_enl b')) ->
  exists name, pd_get name (b_registry b') = Some (OEnlarge p).
Proof. exact @single_block_registered. Qed.
Print Assumptions C26_single_block_registered.

Example C26_example :
  let r := ex_fwd true (Some ex_x) (Some (ex_st "b1" (small 5))) (Some (ex_co "b1" (small 6))) None ex_b in
  (exists o, snd r = Ok o) /\
  used_enlargements (b_st_enl (fst r)) ++ used_enlargements (b_co_enl (fst r)) = [("q", 0); ("p_q", 1)].
Proof. split; [eexists|]; vm_compute; reflexivity. Qed.

(** ** C27 *)
Theorem C27_distinct_names :
  forall i l k i' l' k', has_underscore k = false -> has_underscore k' = false ->
  free_name i l k = free_name i' l' k' -> i = i' /\ l = l' /\ k = k'.
Proof. exact free_name_inj. Qed.
Print Assumptions C27_distinct_names.

(** Different time steps never clash, whatever the names. *)
Theorem C27_time_steps_distinct :
  forall i l k i' l' k', free_name i l k = free_name i' l' k' -> i = i'.
Proof. exact (fun i l k i' l' k' H => proj1 (free_name_step i l k i' l' k' H)). Qed.
Print Assumptions C27_time_steps_distinct.

Theorem C27_all_registered :
  forall has_attr (steps : list (sdict (list string))) r r',
  (forall i d, nth_error steps i = Some d -> NoDup (keys d)) ->
  (forall i d l ks, nth_error steps i = Some d -> In (l, ks) d ->
     NoDup ks /\ Forall (fun k => has_underscore k = false) ks) ->
  register_free has_attr steps r = Ok r' ->
  forall i d l ks k, nth_error steps i = Some d -> In (l, ks) d -> In k ks ->
    pd_get (free_name i l k) r' = Some (OFree i l k).
Proof. exact free_registered. Qed.
Print Assumptions C27_all_registered.

Theorem C27_registration_succeeds :
  forall has_attr (steps : list (sdict (list string))) r,
  (forall i d l ks k, nth_error steps i = Some d -> In (l, ks) d -> In k ks ->
     has_dot l = false /\ has_dot k = false /\ has_attr (free_name i l k) = false) ->
  exists r', register_free has_attr steps r = Ok r'.
Proof. exact free_register_ok. Qed.
Print Assumptions C27_registration_succeeds.

Example C27_example :
  (r <- register_free ex_attr (repeat [("l1", ["weight"; "bias"]); ("l2", ["weight"])] 12) [] ;;
   Ok (List.length r, pd_get "pf_timestep11_l2_weight" r))
  = Ok (36, Some (OFree 11 "l2" "weight")).
Proof. vm_compute. reflexivity. Qed.

(** With an underscore in a parameter name two triples can share a name. *)
Example C27_ambiguous : free_name 0 "a_b" "c" = free_name 0 "a" "b_c".
Proof. reflexivity. Qed.

(** ** C28.  The full statement is false: after a vector of times has been set the
    block cannot be moved to a device. *)
Theorem C28_move_refuted :
  exists (b : @block nat) ts,
    ex_new false = Ok b /\
    snd (run_ops 0 (ex_ig true) ex_attr ex_rnd constant_solution [OpTo; OpSetVector ts; OpTo] b)
    = [ObsUnit (Ok tt); ObsUnit (Ok tt); ObsUnit (Raise AttributeError)].
Proof. exists ex_b, [Q2Qc 0; Q2Qc 1]. split; reflexivity. Qed.
Print Assumptions C28_move_refuted.

(** True: after any history the solver is asked for the times set last (a vector,
    or 0 and a scalar time), and for nothing else. *)
Theorem C28_last_setting_partial :
  forall (A : Type) (zero : A) ig has_attr rnd solve1 solve2 (os : list (@op A)) b b' vs s x st co data,
  has_setting b s -> run_ops zero ig has_attr rnd solve1 os b = (b', vs) ->
  (forall c x0, solve1 c x0 (solver_times (last_setting os s))
              = solve2 c x0 (solver_times (last_setting os s))) ->
  has_setting b' (last_setting os s) /\
  forward zero ig has_attr rnd solve1 x st co data b' = forward zero ig has_attr rnd solve2 x st co data b'.
Proof.
  exact (fun A zero ig has_attr rnd solve1 solve2 os b b' vs s x st co data H E F =>
    conj (run_setting zero ig has_attr rnd solve1 os b b' vs s H E)
         (forward_times zero ig has_attr rnd solve1 solve2 _ x st co data b'
            (run_setting zero ig has_attr rnd solve1 os b b' vs s H E) F)).
Qed.
Print Assumptions C28_last_setting_partial.

Example C28_example :
  has_setting ex_b (Scalar (Q2Qc 1)) /\
  let b' := fst (ex_run true [OpSetVector [Q2Qc 0; Q2Qc 2]; OpSetTime (Q2Qc 3); OpTo;
                              OpSetVector [Q2Qc 0; Q2Qc 1; Q2Qc 2]] ex_b) in
  has_setting b' (Vector [Q2Qc 0; Q2Qc 1; Q2Qc 2]) /\
  match snd (ex_fwd true (Some ex_x) None None None b') with
  | Ok (RTensor t, _, _, _) => tshape t = [3; 1; 1; 1]
  | _ => False
  end.
Proof. vm_compute. repeat split. Qed.

(** ** C63.  With several concatenated blocks the full statement is false: the
    concatenation dimension does not account for the leading time dimension. *)
Theorem C63_time_slices_refuted :
  exists (b b' : @block nat) ts st co o s c d,
    ex_new false = Ok b /\ b_time_vec b' = Some ts /\
    b' = fst (set_integration_time_vector ts b) /\
    snd (ex_fwd true (Some ex_x) (Some st) (Some co) None b') = Ok (o, s, c, d) /\
    forall o1 s1 c1 d1,
      snd (forward 0 (ex_ig true) ex_attr ex_rnd (at_index 0 ts constant_solution)
             (Some ex_x) (Some st) (Some co) None b) = Ok (o1, s1, c1, d1) ->
      ~ at_time 0 s s1.
Proof.
  exists ex_b, (set_times None (Some [Q2Qc 0; Q2Qc 1]) ex_b), [Q2Qc 0; Q2Qc 1],
    (ex_st "b1" (mkT [2; 1; 1] [5; 6])), (ex_co "b1" (mkT [2; 1; 1] [7; 8])).
  do 4 eexists. split; [reflexivity|]. split; [reflexivity|]. split; [reflexivity|].
  split; [vm_compute; reflexivity|].
  intros o1 s1 c1 d1 E. vm_compute in E. injection E as _ <- _ _.
  intro H. inversion H as [|? ? ? ? [_ H1] _]; subst. simpl in H1.
  inversion H1 as [|? ? ? ? [_ H2] _]; subst. vm_compute in H2. discriminate H2.
Qed.
Print Assumptions C63_time_slices_refuted.

Theorem C63_time_slices_partial :
  forall (A : Type) (zero : A) ig has_attr rnd solve x st co data (b b' : @block A) ts t i s c d o,
  b_time_vec b = Some ts -> i < List.length ts ->
  (forall b x0 all, solve b x0 ts = Ok all ->
     twf all /\ exists n, tshape all = [List.length ts; n]) ->
  ig_concatenate ig = false \/ (st = None /\ data = None) ->
  forward zero ig has_attr rnd solve x st co data b = (b', Ok (o, s, c, d)) ->
  b_time b = None ->
  exists o1 s1 c1 d1,
    snd (forward zero ig has_attr rnd (at_index i ts solve) x st co data (set_times (Some t) None b))
    = Ok (o1, s1, c1, d1) /\
    output_at i o o1 /\ at_time i s s1 /\ at_time i c c1 /\ at_time i d d1.
Proof. exact @time_vector_slices. Qed.
Print Assumptions C63_time_slices_partial.

Example C63_example :
  let ts := [Q2Qc 0; Q2Qc 1; Q2Qc 2] in
  let b := set_times None (Some ts) ex_b in
  (forall b x0 all, @constant_solution nat b x0 ts = Ok all ->
     twf all /\ exists n, tshape all = [List.length ts; n]) /\
  exists o, snd (ex_fwd true (Some ex_x) None None None b)
  = Ok (o, [("b2", [("q", mkT [3; 2; 1; 1] [1; 2; 1; 2; 1; 2])])],
           [("b2", [("p_q", mkT [3; 2; 1; 1] [3; 4; 3; 4; 3; 4])])],
           [("b2", [("q", mkT [3; 1; 1; 1] [7; 7; 7])])]).
Proof.
  cbv zeta. split.
  - intros b x0 all E. injection E as <-. split; [|eexists; reflexivity].
    unfold twf. simpl. rewrite !app_length. simpl. lia.
  - eexists. vm_compute. reflexivity.
Qed.

(** ** C64.  False: the constructor zeroes parameters in place, which torch
    refuses. *)
Theorem C64_keep_zero_refuted :
  exists (state costate : sdict (tensor nat)),
    (exists b, new_block ex_attr "b" (Some state) (Some costate) true false false false [] [] None 2 = Ok b) /\
    new_block ex_attr "b" (Some state) (Some costate) true true false false [] [] None 2 = Raise RuntimeError.
Proof.
  exists [("q", small 1)], [("p_q", small 1)]. split; [eexists|]; reflexivity.
Qed.
Print Assumptions C64_keep_zero_refuted.

Theorem C64_keep_zero_never_constructs :
  forall (A : Type) has_attr name k (t : tensor A) s costate enlarge free names max_time dim,
  new_block has_attr name (Some ((k, t) :: s)) costate enlarge true false false free names max_time dim
  = Raise RuntimeError.
Proof. exact @keep_zero_fails. Qed.
Print Assumptions C64_keep_zero_never_constructs.

(** ** C65.  False: when the first forward call has no pass-through blocks, later
    ones are never enlarged. *)
Theorem C65_late_pass_through_refuted :
  exists (b : @block nat) st co,
    ex_new false = Ok b /\
    (exists o, snd (ex_fwd true (Some ex_x) (Some st) (Some co) None b) = Ok o) /\
    (exists o, snd (ex_fwd true (Some ex_x) None None None b) = Ok o) /\
    snd (ex_fwd true (Some ex_x) (Some st) (Some co) None
           (fst (ex_fwd true (Some ex_x) None None None b))) = Raise ValueError.
Proof.
  exists ex_b, (ex_st "b1" (small 5)), (ex_co "b1" (small 6)).
  split; [reflexivity|]. split; [eexists; vm_compute; reflexivity|].
  split; [eexists; vm_compute; reflexivity|]. vm_compute. reflexivity.
Qed.
Print Assumptions C65_late_pass_through_refuted.

(** What happens instead: the pass-through blocks are used as they are. *)
Theorem C65_late_pass_through_partial :
  forall (A : Type) (zero : A) ig has_attr rnd s c (b : @block A),
  b_fresh b = false -> b_st_enl b = None -> b_co_enl b = None ->
  effective_pass_through zero ig has_attr rnd (Some s) (Some c) b = (b, Ok (Some s, Some c)).
Proof. exact @executed_no_enlargement. Qed.
Print Assumptions C65_late_pass_through_partial.

Example C65_example :
  let b := fst (ex_fwd true (Some ex_x) None None None ex_b) in
  b_fresh b = false /\ b_enlarge b = true /\ b_st_enl b = None /\ b_co_enl b = None.
Proof. vm_compute. repeat split. Qed.

(** ** C66.  Scratch attributes left over from earlier calls (the assembly plans
    and the dimension along which data are concatenated) do not influence the
    result of a call on a block that has been executed. *)
Theorem C66_independent_calls :
  forall (A : Type) (zero : A) ig has_attr rnd solve (os : list (@op A)) b b' vs x st co data,
  (forall n b x0 ts, solve (set_data_dim n b) x0 ts = solve b x0 ts) ->
  b_fresh b = false -> Forall is_call os ->
  run_ops zero ig has_attr rnd solve os b = (b', vs) ->
  snd (forward zero ig has_attr rnd solve x st co data b')
  = snd (forward zero ig has_attr rnd solve x st co data b).
Proof. exact @executed_independent. Qed.
Print Assumptions C66_independent_calls.

(** The left-over dimension does change, from 2 to 3, in this history. *)
Example C66_example :
  let st := ex_st "b1" (mkT [2; 1; 1] [5; 6]) in
  let co := ex_co "b1" (mkT [2; 1; 1] [7; 8]) in
  let data := [("d", [("q", mkT [1; 1; 1; 1] [7])])] in
  let b := fst (ex_fwd true (Some ex_x) (Some st) (Some co) None ex_b) in
  let os := [OpForward None (Some st) (Some co) (Some data); OpParameters; OpForward None None None None] in
  let b' := fst (ex_run true os b) in
  b_fresh b = false /\ Forall is_call os /\ b_data_dim b = 2 /\ b_data_dim b' = 3 /\
  exists o, snd (ex_fwd true (Some ex_x) (Some st) (Some co) None b') = Ok o.
Proof.
  cbv zeta. split; [reflexivity|]. split; [repeat constructor|].
  split; [vm_compute; reflexivity|]. split; [vm_compute; reflexivity|]. eexists; vm_compute; reflexivity.
Qed.

(** ** C67 *)
Theorem C67_zero_dynamics :
  forall (A : Type) (zero : A) ig has_attr rnd solve x st co b t s0 c0 d0 out,
  (forall b x0 ts, solve b x0 ts = constant_solution b x0 ts) ->
  has_setting b (Scalar t) -> (st = None <-> co = None) ->
  b_enlarge b = false \/ st = None -> ig_concatenate ig = false \/ st = None ->
  b_state b = Some s0 -> good_dict s0 -> b_costate b = Some c0 -> good_dict c0 ->
  family_ok (b_name b) st -> family_ok (b_name b) co ->
  ig_initial_data ig x = Ok d0 -> good_dict d0 -> sd_get (ig_output_key ig) d0 = Some out ->
  exists b' s c,
    @forward A zero ig has_attr rnd solve (Some x) st co None b
      = (b', Ok (RTensor out, s, c, [(b_name b, d0)])) /\
    joined (b_name b) s0 st s /\ joined (b_name b) c0 co c.
Proof. exact @constant_forward. Qed.
Print Assumptions C67_zero_dynamics.

Example C67_example :
  let st := ex_st "b1" (mkT [2; 1; 1] [5; 6]) in
  let co := ex_co "b1" (mkT [2; 1; 1] [7; 8]) in
  exists b, new_block ex_attr "b2" (Some [("q", mkT [2; 1; 1] [1; 2])]) (Some [("p_q", mkT [2; 1; 1] [3; 4])])
      false false false false [] ["w"] None 2 = Ok b /\
    has_setting b (Scalar (Q2Qc 1)) /\ b_enlarge b = false /\ ig_concatenate (ex_ig false) = false /\
    good_dict [("q", mkT [2; 1; 1] [1; 2])] /\ good_dict [("p_q", mkT [2; 1; 1] [3; 4])] /\
    good_dict [("q", ex_x)] /\ family_ok (b_name b) (Some st) /\ family_ok (b_name b) (Some co) /\
    snd (ex_fwd false (Some ex_x) (Some st) (Some co) None b)
    = Ok (RTensor ex_x, st ++ ex_st "b2" (mkT [2; 1; 1] [1; 2]), co ++ ex_co "b2" (mkT [2; 1; 1] [3; 4]),
          ex_st "b2" ex_x).
Proof.
  cbv zeta. eexists. split; [reflexivity|].
  assert (G : forall k (t : tensor nat), twf t -> tshape t <> [] -> good_dict [(k, t)]).
  { intros k t W N. split; [split|split].
    - repeat constructor; intros [].
    - repeat constructor; auto.
    - discriminate.
    - repeat constructor; auto. }
  assert (Fm : forall n m k (t : tensor nat), twf t -> tshape t <> [] -> n <> m ->
     family_ok n (Some [(m, [(k, t)])])).
  { intros n m k t W N D dd [= <-].
    split; [constructor; constructor|]. split; [constructor; [apply G; auto|constructor]|]. intros [E|[]]. apply D. symmetry. exact E. }
  split; [split; reflexivity|]. split; [reflexivity|]. split; [reflexivity|].
  do 3 (split; [apply G; [reflexivity|discriminate]|]).
  do 2 (split; [apply Fm; [reflexivity|discriminate|discriminate]|]).
  vm_compute. reflexivity.
Qed.

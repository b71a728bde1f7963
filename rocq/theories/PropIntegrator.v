(** Properties C11-C18: the generic integrator. *)
From Coq Require Import List String Arith ZArith QArith Qcanon Lia Bool Sorting.Sorted.
From Verif Require Import Base IntegratorModel IntegratorSpec IntervalProofs GridProofs
  IntegratorProofs.
Import ListNotations.
Open Scope string_scope.
Open Scope list_scope.
Open Scope nat_scope.

Definition q (n : Z) (d : positive) : Qc := Q2Qc (n # d).

(** ** C11 *)
Theorem C11_checkpoint_intervals_cover :
  forall nr dt t0 ts a tl,
  good_settings nr dt -> StronglySorted Qcle (t0 :: ts ++ [tl]) ->
  last (t0 :: ts) t0 = a -> (a < tl)%Qc ->
  exists ints outs,
    create_integration_time_intervals nr dt (t0 :: ts ++ [tl]) = Ok (ints, outs) /\
    flagged ints outs = t0 :: ts ++ [tl].
Proof. exact create_covers. Qed.
Print Assumptions C11_checkpoint_intervals_cover.

(** For any strictly increasing grid from the first to the last time, whatever
    its spacing. *)
Theorem C11_any_grid_covers :
  forall t0 ts a tl cp,
  StronglySorted Qcle (t0 :: ts ++ [tl]) -> last (t0 :: ts) t0 = a -> (a < tl)%Qc ->
  is_grid t0 tl cp ->
  exists ints outs, intervals_for Qccompare (t0 :: ts ++ [tl]) cp = Ok (ints, outs) /\
    flagged ints outs = t0 :: ts ++ [tl].
Proof. exact any_grid_covers. Qed.
Print Assumptions C11_any_grid_covers.

Example C11_example :
  good_settings (Some 1%Z) None /\
  create_integration_time_intervals (Some 1%Z) None [q 0 1; q 1 4; q 3 4; q 1 1]
  = Ok ([[q 0 1; q 1 4; q 1 2]; [q 1 2; q 3 4; q 1 1]],
        [[true; true; false]; [false; true; true]]) /\
  flagged [[q 0 1; q 1 4; q 1 2]; [q 1 2; q 3 4; q 1 1]] [[true; true; false]; [false; true; true]]
  = [q 0 1; q 1 4; q 3 4; q 1 1].
Proof.
  split; [left; exists 1; auto|]. split; vm_compute; reflexivity.
Qed.

(** ** C12 *)
Theorem C12_intervals_chain :
  forall nr dt t0 ts tl,
  good_settings nr dt -> (t0 < tl)%Qc -> StronglySorted Qcle (t0 :: ts ++ [tl]) ->
  exists cp ints outs,
    checkpoint_times nr dt t0 tl = Ok cp /\ is_grid t0 tl cp /\
    create_integration_time_intervals nr dt (t0 :: ts ++ [tl]) = Ok (ints, outs) /\
    chained cp ints /\
    Forall2 (fun i o => List.length i = List.length o) ints outs /\
    Forall (StronglySorted Qcle) ints.
Proof. exact create_chained. Qed.
Print Assumptions C12_intervals_chain.

Example C12_example :
  checkpoint_times None (Some (q 2 5)) (q 0 1) (q 1 1) = Ok [q 0 1; q 2 5; q 4 5; q 1 1] /\
  create_integration_time_intervals None (Some (q 2 5)) [q 0 1; q 2 5; q 1 1]
  = Ok ([[q 0 1; q 2 5]; [q 2 5; q 4 5]; [q 4 5; q 1 1]],
        [[true; true]; [false; false]; [false; true]]) /\
  (q 0 1 < q 1 1)%Qc /\ good_settings None (Some (q 2 5)).
Proof.
  split; [vm_compute; reflexivity|]. split; [vm_compute; reflexivity|]. split; [reflexivity|].
  right. eexists. repeat split.
Qed.

(** ** C13 *)
Theorem C13_checkpointed_equals_direct :
  forall (X : Type) (odeint : bool -> string -> opts -> X -> list Qc -> result (list X))
    (odesolver : opts -> X -> result X) (phi : Qc -> Qc -> X -> X) h i j x0 t0 ts tl,
  (forall a x, phi a a x = x) ->
  (forall a b c x, (a <= b)%Qc -> (b <= c)%Qc -> phi b c (phi a b x) = phi a c x) ->
  (forall x s0 ss, StronglySorted Qclt (s0 :: ss) ->
     odeint (i_adjoint i) (i_name i) (heap_get h (i_options i)) x (s0 :: ss)
     = Ok (map (fun s => phi s0 s x) (s0 :: ss))) ->
  i_library i = "odeint" -> i_library j = "odeint" ->
  i_adjoint j = i_adjoint i -> i_name j = i_name i -> i_options j = i_options i ->
  i_nr_of_checkpoints i = None -> i_checkpointing_time_interval i = None ->
  good_settings (i_nr_of_checkpoints j) (i_checkpointing_time_interval j) ->
  StronglySorted Qclt (t0 :: ts ++ [tl]) ->
  integrate odeint odesolver h j x0 (t0 :: ts ++ [tl])
  = integrate odeint odesolver h i x0 (t0 :: ts ++ [tl]) /\
  integrate odeint odesolver h i x0 (t0 :: ts ++ [tl])
  = (h, Ok (Some (map (fun s => phi t0 s x0) (t0 :: ts ++ [tl])))).
Proof. exact checkpointed_equals_direct. Qed.
Print Assumptions C13_checkpointed_equals_direct.

(** Without the flow property the results may differ: explicit Euler. *)
Theorem C13_differs_without_flow :
  exists h i j x0 t h1 h2 r1 r2,
    i_library i = "odeint" /\
    j = mkIntegrator (i_library i) (i_name i) (i_adjoint i) (i_options i) (i_step_size i) (Some 1%Z) None /\
    integrate euler_solver (fun _ x => Ok x) h i x0 t = (h1, Ok (Some r1)) /\
    integrate euler_solver (fun _ x => Ok x) h j x0 t = (h2, Ok (Some r2)) /\ r1 <> r2.
Proof. exact checkpointing_changes_euler. Qed.
Print Assumptions C13_differs_without_flow.

(** The flow x(t) = x0 + t, checkpointed twice. *)
Example C13_example :
  let phi := fun a b x : Qc => (x + (b - a))%Qc in
  let solver := fun (_ : bool) (_ : string) (_ : opts) (x : Qc) (ts : list Qc) =>
    match ts with [] => Raise IndexError | t0 :: _ => Ok (map (fun s => phi t0 s x) ts) end in
  (forall a x, phi a a x = x) /\
  (forall a b c x, (a <= b)%Qc -> (b <= c)%Qc -> phi b c (phi a b x) = phi a c x) /\
  exists l, integrate solver (fun _ x => Ok x) [[]]
    (mkIntegrator "odeint" "rk4" false 0 None (Some 2%Z) None) (q 5 1) [q 0 1; q 1 2; q 1 1]
  = ([[]], Ok (Some l)) /\ map this l = [5 # 1; 11 # 2; 6 # 1].
Proof.
  cbv zeta. split; [intros; ring|]. split; [intros; ring|].
  eexists. split; vm_compute; reflexivity.
Qed.

(** ** C14.  The full statement, "no requested time is lost", is false: decreasing
    time vectors lose times (down to returning nothing), and a repeated final
    time is returned once. *)
Theorem C14_no_time_lost_refuted :
  (exists n t r, create_integration_time_intervals (Some n) None t = Ok r /\
     (0 <= n)%Z /\ 2 <= List.length t /\ StronglySorted (fun a b => b < a)%Qc t /\
     exists x, In x t /\ ~ In x (flagged (fst r) (snd r))) /\
  (exists n t r, create_integration_time_intervals (Some n) None t = Ok r /\
     (0 <= n)%Z /\ 2 <= List.length t /\ StronglySorted Qcle t /\
     List.length (flagged (fst r) (snd r)) < List.length t).
Proof. exact times_lost. Qed.
Print Assumptions C14_no_time_lost_refuted.

(** What is returned for non-decreasing times, exactly: all times before the
    final one, then the final one once.  Missing: decreasing times. *)
Theorem C14_returned_times_partial :
  forall nr dt t0 ts tl,
  good_settings nr dt -> (t0 < tl)%Qc -> StronglySorted Qcle (t0 :: ts ++ [tl]) ->
  exists ints outs,
    create_integration_time_intervals nr dt (t0 :: ts ++ [tl]) = Ok (ints, outs) /\
    flagged ints outs
    = filter (fun x => match Qccompare x tl with Lt => true | _ => false end) (t0 :: ts ++ [tl])
      ++ [tl].
Proof. exact create_returned_times. Qed.
Print Assumptions C14_returned_times_partial.

Example C14_example :
  create_integration_time_intervals (Some 1%Z) None [q 0 1; q 0 1; q 1 1; q 1 1]
  = Ok ([[q 0 1; q 0 1; q 1 2]; [q 1 2; q 1 1]], [[true; true; false]; [false; true]]).
Proof. vm_compute. reflexivity. Qed.

(** ** C15 *)
Theorem C15_value_errors :
  forall nr dt t,
  List.length t < 2 \/ (nr = None <-> dt = None) ->
  create_integration_time_intervals nr dt t = Raise ValueError.
Proof.
  exact (fun nr dt t H => match H with
                          | or_introl L => create_too_few nr dt t L
                          | or_intror E => create_bad_settings nr dt t E
                          end).
Qed.
Print Assumptions C15_value_errors.

Theorem C15_no_other_errors :
  forall nr dt t0 ts tl, good_settings nr dt -> (t0 < tl)%Qc ->
  exists r, create_integration_time_intervals nr dt (t0 :: ts ++ [tl]) = Ok r.
Proof. exact create_never_raises. Qed.
Print Assumptions C15_no_other_errors.

(** Settings that make no sense are rejected, though not always by ValueError. *)
Theorem C15_senseless_settings :
  forall t0 ts tl, (t0 < tl)%Qc ->
  (forall n, (n < 0)%Z ->
     create_integration_time_intervals (Some n) None (t0 :: ts ++ [tl])
     = Raise (if (n =? -1)%Z then ValueError else if (n =? -2)%Z then IndexError
              else RuntimeError)) /\
  (forall dt, (dt <= 0)%Qc ->
     create_integration_time_intervals None (Some dt) (t0 :: ts ++ [tl]) = Raise RuntimeError).
Proof.
  exact (fun t0 ts tl H => conj (fun n => create_negative_nr n t0 ts tl H)
                                (fun dt => create_negative_interval dt t0 ts tl H)).
Qed.
Print Assumptions C15_senseless_settings.

Theorem C15_grid :
  forall a b, (a < b)%Qc ->
  (forall n, exists cp, checkpoint_times (Some (Z.of_nat n)) None a b = Ok cp /\
     is_grid a b cp /\ List.length cp = n + 2) /\
  (forall dt, (0 < dt)%Qc -> exists cp, checkpoint_times None (Some dt) a b = Ok cp /\
     is_grid a b cp /\
     forall i x, nth_error cp i = Some x -> x <> b -> x = (a + qn i * dt)%Qc).
Proof. exact (fun a b H => conj (fun n => linspace_grid a b n H) (fun dt => arange_grid a b dt H)). Qed.
Print Assumptions C15_grid.

Example C15_example :
  checkpoint_times (Some 3%Z) None (q 0 1) (q 2 1) = Ok [q 0 1; q 1 2; q 1 1; q 3 2; q 2 1] /\
  create_integration_time_intervals (Some 3%Z) (Some (q 1 1)) [q 0 1; q 2 1] = Raise ValueError /\
  (q 0 1 < q 2 1)%Qc.
Proof. repeat split; vm_compute; reflexivity. Qed.

(** ** C16 *)
Theorem C16_constructor_contract :
  forall h lib name adj o step nr dt,
  (forall a, o = Some a -> a < List.length h) ->
  (~ In (chosen_library lib, chosen_name lib name) documented ->
     new_integrator h lib name adj o step nr dt = (h, Raise ValueError)) /\
  (In (chosen_library lib, chosen_name lib name) documented ->
   exists h' i, new_integrator h lib name adj o step nr dt = (h', Ok i) /\
     i_library i = chosen_library lib /\ i_name i = chosen_name lib name /\
     let given := match o with Some a => heap_get h a | None => [] end in
     let used := heap_get h' (i_options i) in
     (forall k, k <> "step_size" -> sd_get k used = sd_get k given) /\
     (forall v, sd_get "step_size" given = Some v -> sd_get "step_size" used = Some v) /\
     (sd_get "step_size" given = None ->
        (forall s, step = Some s -> fixed_step (i_library i) (i_name i) ->
           sd_get "step_size" used = Some (ONum s)) /\
        (step = None \/ ~ fixed_step (i_library i) (i_name i) -> sd_get "step_size" used = None))).
Proof. exact constructor_contract. Qed.
Print Assumptions C16_constructor_contract.

Example C16_example :
  (forall a, Some 0 = Some a -> a < List.length [[("grid_points", OInt 1)]]) /\
  In (chosen_library None, chosen_name None (Some "rk4")) documented /\
  new_integrator [[("grid_points", OInt 1)]] None (Some "rk4") false (Some 0) (Some (q 1 2)) None None
  = ([[("grid_points", OInt 1); ("step_size", ONum (q 1 2))]],
     Ok (mkIntegrator "odeint" "rk4" false 0 (Some (q 1 2)) None None)) /\
  new_integrator [] (Some "anode") (Some "dopri5") false None None None None = ([], Raise ValueError).
Proof.
  split; [intros a [= <-]; simpl; lia|]. split; [simpl; tauto|]. split; vm_compute; reflexivity.
Qed.

(** ** C17.  The full statement, "the caller's options are unchanged and each
    integrator uses its own step size", is false. *)
Theorem C17_caller_options_unchanged_refuted :
  exists h a s1 s2 h1 h2 i1 i2,
    new_integrator h None (Some "rk4") false (Some a) (Some s1) None None = (h1, Ok i1) /\
    new_integrator h1 None (Some "rk4") false (Some a) (Some s2) None None = (h2, Ok i2) /\
    heap_get h2 a <> heap_get h a /\ s1 <> s2 /\
    sd_get "step_size" (heap_get h2 (i_options i2)) = Some (ONum s1).
Proof. exact options_shared. Qed.
Print Assumptions C17_caller_options_unchanged_refuted.

(** Exactly what changes: only the dictionary passed, and there only a missing
    step size is added.  Missing from the full statement: that case. *)
Theorem C17_constructor_effect_partial :
  forall h lib name adj o step nr dt h' i,
  (forall a, o = Some a -> a < List.length h) ->
  new_integrator h lib name adj o step nr dt = (h', Ok i) ->
  (forall b, b < List.length h -> o <> Some b -> heap_get h' b = heap_get h b) /\
  (forall a, o = Some a ->
     (heap_get h' a = heap_get h a \/
      exists s, step = Some s /\ fixed_step (i_library i) (i_name i) /\
        sd_get "step_size" (heap_get h a) = None /\
        sd_get "step_size" (heap_get h' a) = Some (ONum s) /\
        forall k, k <> "step_size" -> sd_get k (heap_get h' a) = sd_get k (heap_get h a))).
Proof. exact constructor_effect. Qed.
Print Assumptions C17_constructor_effect_partial.

Example C17_example :
  new_integrator [[("step_size", ONum (q 1 3))]; []] None (Some "euler") false (Some 0)
    (Some (q 1 2)) None None
  = ([[("step_size", ONum (q 1 3))]; []],
     Ok (mkIntegrator "odeint" "euler" false 0 (Some (q 1 2)) None None)).
Proof. vm_compute. reflexivity. Qed.

(** ** C18 *)
Theorem C18_anode_guard :
  forall (X : Type) (odesolver : opts -> X -> result X) h i x0 t,
  (anode_times t ->
   exists d, integrate_anode odesolver h i x0 t
     = (heap_set h (i_options i) d, res <- odesolver d x0 ;; Ok [res]) /\
     sd_get "Nt" d = Some (OInt 10) /\
     sd_get "method" d = Some (OStr (if String.eqb (i_name i) "rk2" then "RK2" else "RK4")) /\
     forall k, k <> "Nt" -> k <> "method" -> sd_get k d = sd_get k (heap_get h (i_options i))) /\
  (~ anode_times t -> t <> [] -> integrate_anode odesolver h i x0 t = (h, Raise ValueError)) /\
  (forall h' res, integrate_anode odesolver h i x0 t = (h', Ok res) -> List.length res = 1).
Proof.
  exact (fun X odesolver h i x0 t =>
    conj (anode_proceeds odesolver h i x0 t)
      (conj (anode_refuses odesolver h i x0 t)
            (fun h' res => anode_one_point odesolver h i x0 t h' res))).
Qed.
Print Assumptions C18_anode_guard.

Theorem C18_anode_never_checkpointed :
  forall (X : Type) odeint (odesolver : opts -> X -> result X) h i x0 t,
  i_library i <> "odeint" ->
  ~ (i_nr_of_checkpoints i = None /\ i_checkpointing_time_interval i = None) ->
  (forall h' r, integrate odeint odesolver h i x0 t = (h', Ok r) -> r = None) /\
  (forall t0 ts tl, t = t0 :: ts ++ [tl] ->
     good_settings (i_nr_of_checkpoints i) (i_checkpointing_time_interval i) ->
     (t0 < tl)%Qc -> StronglySorted Qcle t ->
     exists h' e, integrate odeint odesolver h i x0 t = (h', Raise e)).
Proof. exact @anode_never_checkpointed. Qed.
Print Assumptions C18_anode_never_checkpointed.

Example C18_example :
  anode_times [q 1 2; q 3 2] /\ ~ anode_times [q 0 1; q 1 2; q 1 1] /\
  integrate_anode (fun _ x => Ok (x + 1)) [[]]
    (mkIntegrator "anode" "rk2" false 0 None None None) 4 [q 1 2; q 3 2]
  = ([[("Nt", OInt 10); ("method", OStr "RK2")]], Ok [5]) /\
  integrate (fun _ _ _ x _ => Ok [x]) (fun _ x => Ok (x + 1)) [[]]
    (mkIntegrator "anode" "rk2" false 0 None (Some 0%Z) None) 4 [q 0 1; q 1 1]
  = ([[("Nt", OInt 10); ("method", OStr "RK2")]], Raise IndexError).
Proof.
  split; [right; exists (q 1 2), (q 3 2); split; [reflexivity|apply Qc_is_canon; reflexivity]|].
  split; [intros [H|[a [b [H _]]]]; discriminate|].
  split; vm_compute; reflexivity.
Qed.

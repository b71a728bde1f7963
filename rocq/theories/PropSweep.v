(** Properties C52-C55: sweeps, merging of arguments, experiment names. *)
From Coq Require Import List String Ascii Arith ZArith Bool Lia.
From Verif Require Import Base SweepModel SweepSpec SweepProofs SweepProofs2.
Import ListNotations.
Open Scope string_scope.
Open Scope list_scope.

(** C52, as expected by a user, asks for [SweptList (product pars)] on every
    dictionary.  False: without any key the call returns the dictionary it
    built, not the list holding one empty combination. *)
Theorem C52_product_refuted :
  exists pars, dict_ok pars /\ fst (sweep_default pars process0) <> SweptList (product pars).
Proof. exists []. split; [constructor|discriminate]. Qed.
Print Assumptions C52_product_refuted.

(** C52 for at least one key.  Missing from the full statement: the empty
    dictionary (above) and calls after earlier sweeps (C53). *)
Theorem C52_product_partial : forall pars, dict_ok pars -> pars <> [] ->
  fst (sweep_default pars process0) = SweptList (product pars).
Proof. exact sweep_fresh. Qed.
Print Assumptions C52_product_partial.

(** The position tuples the product is made from are exactly those below the
    numbers of values, each once. *)
Theorem C52_choices : forall lens,
  NoDup (choices lens) /\ forall idx, In idx (choices lens) <-> Forall2 lt idx lens.
Proof. exact (fun lens => conj (choices_nodup lens) (choices_in lens)). Qed.
Print Assumptions C52_choices.

Example C52_case :
  let pars := [("lr", [VFloat "0.1"; VFloat "0.01"]); ("nr", [VInt 2; VInt 2; VInt 5])] in
  dict_ok pars /\ pars <> [] /\
  fst (sweep_default pars process0) = SweptList
    [[("lr", VFloat "0.1"); ("nr", VInt 2)]; [("lr", VFloat "0.1"); ("nr", VInt 2)];
     [("lr", VFloat "0.1"); ("nr", VInt 5)]; [("lr", VFloat "0.01"); ("nr", VInt 2)];
     [("lr", VFloat "0.01"); ("nr", VInt 2)]; [("lr", VFloat "0.01"); ("nr", VInt 5)]].
Proof.
  split; [|split; [discriminate|reflexivity]].
  repeat constructor; simpl; intros H; intuition discriminate.
Qed.

(** C53 is false: the second sweep of a process also returns the runs of the
    first, and its own runs inherit the first one's last values. *)
Theorem C53_independent_refuted :
  exists history pars, Forall dict_ok history /\ dict_ok pars /\ pars <> [] /\
    fst (sweep_default pars (snd (sweep_history history process0)))
      <> fst (sweep_default pars process0).
Proof.
  exists [[("a", [VInt 1])]], [("b", [VInt 2])].
  split; [repeat constructor; intros []|]. split; [repeat constructor; intros []|].
  split; discriminate.
Qed.
Print Assumptions C53_independent_refuted.

(** C53, exactly what a sweep depends on, from any state of the two default
    arguments: everything collected before comes first, and each combination is
    written over the values left in the dictionary.  Missing from the full
    statement: independence of that state, which is false. *)
Theorem C53_leak_partial : forall pars process, dict_ok pars ->
  snd (snd (sweep_default pars process)) =
    snd process ++ map (updated (fst process)) (product pars) /\
  (pars <> [] -> fst (sweep_default pars process) =
    SweptList (snd process ++ map (updated (fst process)) (product pars))).
Proof. exact (fun pars st H => conj (sweep_extends pars st H) (sweep_result pars st H)). Qed.
Print Assumptions C53_leak_partial.

(** C53: when the leftover dictionary only has keys which the new sweep sets in the
    same order, the new runs are right, behind the old ones. *)
Theorem C53_same_keys_partial : forall pars process, dict_ok pars -> pars <> [] ->
  (exists tl, map fst pars = map fst (fst process) ++ tl) ->
  fst (sweep_default pars process) = SweptList (snd process ++ product pars).
Proof. exact sweep_same_keys. Qed.
Print Assumptions C53_same_keys_partial.

Example C53_case_leak :
  fst (sweep_history [[("a", [VInt 1; VInt 3])]; [("b", [VInt 2])]] process0) =
  [SweptList [[("a", VInt 1)]; [("a", VInt 3)]];
   SweptList [[("a", VInt 1)]; [("a", VInt 3)]; [("a", VInt 3); ("b", VInt 2)]]].
Proof. reflexivity. Qed.

Example C53_case_same_keys :
  let pars := [("a", [VInt 5; VInt 6]); ("b", [VInt 0])] in
  let process := snd (sweep_history [[("a", [VInt 1; VInt 3])]] process0) in
  dict_ok pars /\ (exists tl, map fst pars = map fst (fst process) ++ tl) /\
  fst (sweep_default pars process) = SweptList
    [[("a", VInt 1)]; [("a", VInt 3)];
     [("a", VInt 5); ("b", VInt 0)]; [("a", VInt 6); ("b", VInt 0)]].
Proof.
  split; [|split].
  - repeat constructor; simpl; intros H; intuition discriminate.
  - exists ["b"]. reflexivity.
  - reflexivity.
Qed.

(** C54 asks that False remove the flag from the arguments.  False: a flag set by the
    template stays. *)
Theorem C54_false_removes_refuted :
  exists h template add k, template < List.length h /\ add < List.length h /\
    dict_ok (deref h add) /\ pd_get k (deref h add) = Some (VBool false) /\
    let (m, h') := merge_args template add h in pd_get k (deref h' m) <> None.
Proof.
  exists [[("verbose", VNone)]; [("verbose", VBool false)]], 0, 1, "verbose".
  simpl. repeat split; try lia; try discriminate. repeat constructor. intros [].
Qed.
Print Assumptions C54_false_removes_refuted.

(** C54 otherwise: the merged dictionary is a new object, no existing dictionary changes
    (the template in particular, even if it is the same object as the
    additions), and every key holds what the specification says.  Missing:
    False leaves a flag of the template in place. *)
Theorem C54_merge_partial : forall template add h,
  template < List.length h -> add < List.length h -> dict_ok (deref h add) ->
  let m := fst (merge_args template add h) in
  let h' := snd (merge_args template add h) in
  m = List.length h /\ List.length h' = S (List.length h) /\
  (forall r, r < List.length h -> deref h' r = deref h r) /\
  (forall k, pd_get k (deref h' m) =
             merged_value (pd_get k (deref h template)) (pd_get k (deref h add))).
Proof. exact merge_args_spec. Qed.
Print Assumptions C54_merge_partial.

(** C54: the command line made from an argument dictionary reads back as that
    dictionary, flags without value, provided no value prints like an option. *)
Theorem C54_command_line : forall d,
  (forall k v, In (k, v) d -> is_option (py_str v) = false) ->
  read_command_line (make_arg_list d) =
  map (fun kv => (("--" ++ fst kv)%string,
                  match snd kv with VNone => None | v => Some (py_str v) end)) d.
Proof. exact command_line_roundtrip. Qed.
Print Assumptions C54_command_line.

Example C54_case :
  let h := [[("gpu", VInt 0); ("verbose", VNone)];
            [("verbose", VBool true); ("viz", VBool true); ("lr", VFloat "0.1"); ("x", VBool false)]] in
  dict_ok (deref h 1) /\
  snd (merge_args 0 1 h) = h ++ [[("gpu", VInt 0); ("verbose", VNone); ("viz", VNone); ("lr", VFloat "0.1")]] /\
  make_arg_list (deref (snd (merge_args 0 1 h)) 2) =
    ["--gpu"; "0"; "--verbose"; "--viz"; "--lr"; "0.1"].
Proof.
  split; [|split; reflexivity].
  repeat constructor; simpl; intros H; intuition discriminate.
Qed.

(** C55 is false within one sweep: two combinations get the same directory, and one
    of the four runs is skipped. *)
Theorem C55_distinct_refuted :
  exists pars c c', dict_ok pars /\ In c (product pars) /\ In c' (product pars) /\ c <> c' /\
    (forall prefix args template seed,
       pd_get "fcn" template = None -> pd_get "shooting_model" template = None ->
       output_directory prefix args template seed c = output_directory prefix args template seed c') /\
    List.length (product pars) = 4 /\
    exists args runs process' fs',
      sweep_parameters "" args pars [] true process0 [] = Ok (runs, process', fs') /\
      a_nr_of_seeds args = 1 /\ List.length runs = 3.
Proof.
  exists [("a", [VStr "x"; VStr "x_b_y"]); ("b", [VStr "z"; VStr "y_b_z"])],
    [("a", VStr "x"); ("b", VStr "y_b_z")], [("a", VStr "x_b_y"); ("b", VStr "z")].
  split; [repeat constructor; simpl; intros H; intuition discriminate|].
  split; [simpl; auto|]. split; [simpl; auto|]. split; [discriminate|]. split.
  { intros prefix args template seed F M. unfold output_directory, experiment_name.
    rewrite (name_suffix [("a", VStr "x"); _]), (name_suffix [("a", VStr "x_b_y"); _]). reflexivity. }
  split; [reflexivity|].
  exists (mkArgs 0 1 "out" (VStr "updown") None). do 3 eexists.
  split; [vm_compute; reflexivity|]. split; reflexivity.
Qed.
Print Assumptions C55_distinct_refuted.

(** C55 when the values of each key print differently and without an underscore: runs
    (seed and combination) and directories correspond one to one.  Missing:
    values containing an underscore or printing alike. *)
Theorem C55_distinct_partial : forall prefix args template pars,
  (forall k vs, In (k, vs) pars -> readable vs) ->
  forall s s' c c', In c (product pars) -> In c' (product pars) ->
  output_directory prefix args template s c = output_directory prefix args template s' c' ->
  s = s' /\ c = c'.
Proof.
  exact (fun prefix args template pars R s s' c c' H H' =>
    directory_inj prefix args template pars R s s' c c'
      (eq_ind _ (fun l => In c l) H _ (product_cart pars))
      (eq_ind _ (fun l => In c' l) H' _ (product_cart pars))).
Qed.
Print Assumptions C55_distinct_partial.

(** C55: then the first sweep of a process into fresh directories does every run, and if no value is
    listed twice it does exactly the runs of the product, seed by seed. *)
Theorem C55_runs_partial : forall prefix args to_sweep template do_not_recompute fs,
  dict_ok to_sweep -> to_sweep <> [] -> (forall k vs, In (k, vs) to_sweep -> readable vs) ->
  (forall s c, In c (product to_sweep) -> ~ In (output_directory prefix args template s c) fs) ->
  exists runs process' fs',
    sweep_parameters prefix args to_sweep template do_not_recompute process0 fs
      = Ok (runs, process', fs') /\
    (forall s c, In s (seq (a_starting_seed_id args) (a_nr_of_seeds args)) -> In c (product to_sweep) ->
       In (run_args template (output_directory prefix args template s c) s c) runs) /\
    ((forall k vs, In (k, vs) to_sweep -> NoDup vs) ->
     runs = flat_map (fun s => map (fun c => run_args template
                (output_directory prefix args template s c) s c) (product to_sweep))
              (seq (a_starting_seed_id args) (a_nr_of_seeds args))).
Proof. exact sweep_runs_all. Qed.
Print Assumptions C55_runs_partial.

Example C55_case :
  let pars := [("fcn", [VStr "cubic"; VStr "quadratic"]); ("nr", [VInt 2; VInt 10])] in
  dict_ok pars /\ (forall k vs, In (k, vs) pars -> readable vs) /\
  map (output_directory "p/" (mkArgs 9 2 "out" (VStr "updown_universal") None) [] 9) (product pars) =
    ["p/out/run_09_cubic_updown_universal_fcn_cubic_nr_2";
     "p/out/run_09_cubic_updown_universal_fcn_cubic_nr_10";
     "p/out/run_09_quadratic_updown_universal_fcn_quadratic_nr_2";
     "p/out/run_09_quadratic_updown_universal_fcn_quadratic_nr_10"].
Proof.
  split; [repeat constructor; simpl; intros H; intuition discriminate|]. split; [|reflexivity].
  intros k vs [E|[E|[]]]; injection E as <- <-; split.
  - intros v [<-|[<-|[]]]; unfold plain; simpl; intuition discriminate.
  - intros v w [<-|[<-|[]]] [<-|[<-|[]]]; simpl; congruence.
  - intros v [<-|[<-|[]]]; unfold plain; vm_compute; intuition discriminate.
  - intros v w [<-|[<-|[]]] [<-|[<-|[]]]; vm_compute; congruence.
Qed.

(** Property C56: parameter counts and freezing. *)
From Coq Require Import List String Arith Bool Lia.
From Verif Require Import Base UtilsModel UtilsSpec UtilsProofs.
Import ListNotations.
Open Scope string_scope.

(** C56: fixed, optimised and overall counts are the numbers of elements of the
    parameters without gradient, with gradient, and of all. *)
Theorem C56_counts : forall model,
  compute_number_of_parameters model =
  (total (fun kv => negb (p_grad (snd kv))) model, total (fun kv => p_grad (snd kv)) model,
   total (fun _ => true) model).
Proof. exact count_spec. Qed.
Print Assumptions C56_counts.

(** C56: with known names exactly the named parameters are switched. *)
Theorem C56_switch : forall v names model, (forall n, In n names -> In n (map fst model)) ->
  freeze_or_unfreeze v names model = (Ok tt, switched v names model).
Proof. exact freeze_known. Qed.
Print Assumptions C56_switch.

(** C56: freezing ([v = false]) moves the elements of the named optimised
    parameters to the fixed ones, unfreezing the other way round, and the
    overall number stays. *)
Theorem C56_moved : forall v names m,
  let moved := total (fun kv => mem names (fst kv) && xorb v (p_grad (snd kv))) m in
  let '(f, o, all) := compute_number_of_parameters m in
  let '(f', o', all') := compute_number_of_parameters (switched v names m) in
  all' = all /\
  if v then f = f' + moved /\ o' = o + moved else f' = f + moved /\ o = o' + moved.
Proof. exact freeze_counts. Qed.
Print Assumptions C56_moved.

(** C56: an unknown name raises KeyError; the names in front of it have been
    switched by then. *)
Theorem C56_unknown : forall v pre n post m,
  (forall k, In k pre -> In k (map fst m)) -> ~ In n (map fst m) ->
  freeze_or_unfreeze v (pre ++ n :: post) m = (Raise KeyError, switched v pre m).
Proof. exact freeze_unknown. Qed.
Print Assumptions C56_unknown.

Example C56_case :
  let m := [("q1", mkPar [2; 1; 3] true); ("p_q1", mkPar [2; 1; 3] true); ("w", mkPar [4] false);
            ("s", mkPar [] true)] in
  compute_number_of_parameters m = (4, 13, 17) /\
  (forall n, In n ["q1"; "w"] -> In n (map fst m)) /\
  compute_number_of_parameters (snd (freeze_parameters ["q1"; "w"] m)) = (10, 7, 17) /\
  compute_number_of_parameters (snd (unfreeze_parameters ["q1"; "w"] m)) = (0, 17, 17) /\
  freeze_parameters ["s"; "z"; "q1"] m = (Raise KeyError,
    [("q1", mkPar [2; 1; 3] true); ("p_q1", mkPar [2; 1; 3] true); ("w", mkPar [4] false);
     ("s", mkPar [] false)]).
Proof.
  cbv zeta. split; [reflexivity|]. split; [|repeat split; reflexivity].
  intros n [<-|[<-|[]]]; simpl; auto.
Qed.

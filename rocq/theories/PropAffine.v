(** C156: without an activation predictions are affine in the data. *)
From Coq Require Import List String Reals Arith QArith Qcanon Qreals Lia Lra.
From Verif Require Import Base RealSum IntegratorModel FixedGridModel VecModel ParticlesModel RotationExamples AffineSpec AffineProofs.
Import ListNotations.
Open Scope string_scope.
Open Scope list_scope.
Open Scope R_scope.

(** For each of the eight models without an activation: if two sets of data can be evaluated with the same particles and
    costates, then so can every mixture of the data, and at every time its values are the mixture of the values. *)
Theorem C156_mixtures :
  forall dnl init d e W ow N m, In m (vector_equations (fun x => x) dnl init d e W ow N) ->
  forall a other adjoint name o s c z z' t ys ys', alikes z z' -> In name ["euler"; "midpoint"; "rk4"] ->
  fixed_odeint plus_system times_system (system_field m) other adjoint name o (Ok (s, c, z)) t = Ok (map Ok ys) ->
  fixed_odeint plus_system times_system (system_field m) other adjoint name o (Ok (s, c, z')) t = Ok (map Ok ys') ->
  fixed_odeint plus_system times_system (system_field m) other adjoint name o (Ok (s, c, mixes a z z')) t
  = Ok (map Ok (map (fun p => mix_data a (fst p) (snd p)) (combine ys ys'))).
Proof. exact runs_affine. Qed.
Print Assumptions C156_mixtures.

(** A run of the model 'simple' for two different data, and a mixture which is neither of them. *)
Example C156_example :
  let north := mkT3 1 1 2 (fun _ _ k => match k with 1%nat => 1 | _ => 0 end) in
  let z := [("q1", east)] in let z' := [("q1", north)] in
  alikes z z' /\ mixes (1 / 2) z z' <> z /\ mixes (1 / 2) z z' <> z' /\
  forall init x, In x [z; z'] -> exists m ys, nth_error (vector_equations (fun x => x) (fun _ => 1) init 2 1 None 1 1) 4 = Some m /\
     List.length ys = 2%nat /\
     fixed_odeint plus_system times_system (system_field m) (fun _ _ _ _ _ => Raise ValueError) false "euler" []
       (Ok ([("q1", east)], [("p_q1", east)], x)) [0%Qc; 1%Qc] = Ok (map Ok ys).
Proof.
  cbv zeta. split; [repeat constructor|]. split; [|split].
  - intros X. apply (f_equal (fun y => match y with [(_, x)] => v3 x 0%nat 0%nat 0%nat | _ => 0 end)) in X. cbn in X. lra.
  - intros X. apply (f_equal (fun y => match y with [(_, x)] => v3 x 0%nat 0%nat 0%nat | _ => 0 end)) in X. cbn in X. lra.
  - intros init x [<-|[<-|[]]]; eexists _, [_; _]; (split; [reflexivity|]; split; [reflexivity|];
      lazy -[Rplus Rmult Ropp Rinv Rdiv IZR INR Q2R rsum]; reflexivity).
Qed.

(** Proofs: mirror images of particles, costates and data for odd activations. *)
From Coq Require Import List String Bool Reals Arith Lia Lra QArith Qcanon Qreals FunctionalExtensionality.
From Verif Require Import Base BaseFacts RealSum IntegratorModel FixedGridModel VecModel ParticlesModel ParticlesProofs2
  ScalingSpec ScalingProofs MirrorSpec.
Import ListNotations.
Open Scope string_scope.
Open Scope list_scope.
Open Scope R_scope.

Notation lift m f := (bind m (fun x => Ok (f x))).
Notation sc := (map3 (Rmult (-1))).
Notation sc2 := (map2 (Rmult (-1))).

Lemma mirror_multiple s : mirror s = multiple (-1) s.
Proof.
  unfold mirror, multiple. apply map_ext. intros [k x]. cbn. f_equal. unfold map3. f_equal. ext. ring.
Qed.

(** A layer with the opposite bias. *)
Definition turned (a : lin) : lin :=
  mkLin (lin_weight a) (option_map sc2 (lin_bias a)) (weight_of_weight a) (weight_of_bias a).

Lemma mirror_layers_map th : mirror_layers th = map (fun kl => (fst kl, turned (snd kl))) th.
Proof.
  unfold mirror_layers, turned. apply map_ext. intros [k [w [b|] u v]]; cbn; [|reflexivity].
  do 3 f_equal. unfold map2. f_equal. ext. ring.
Qed.

Lemma item_turned k th : sd_item k (mirror_layers th) = lift (sd_item k th) turned.
Proof.
  rewrite mirror_layers_map. unfold sd_item. induction th as [|[a x] th IH]; [reflexivity|]. cbn.
  destruct (String.eqb k a); [reflexivity|exact IH].
Qed.

Lemma turned_weight a : lin_weight (turned a) = lin_weight a.
Proof. reflexivity. Qed.

Lemma sc_sc x : sc (sc x) = x.
Proof. destruct x. unfold map3. cbn. f_equal. ext. ring. Qed.
Lemma lift_sc_sc m : lift (lift m sc) sc = m.
Proof. destruct m; [|reflexivity]. cbn. rewrite sc_sc. reflexivity. Qed.
Lemma matmul33_both x y : matmul33 (sc x) (sc y) = matmul33 x y.
Proof. rewrite matmul33_l, matmul33_r. apply lift_sc_sc. Qed.

Lemma forward_turned a x : forward (turned a) (sc x) = lift (forward a x) sc.
Proof.
  unfold forward, f_linear. rewrite turned_weight, matmul32_sc.
  destruct (matmul32 x (tr (lin_weight a))) as [y|]; [|reflexivity]. cbn [bind].
  unfold turned. cbn [lin_bias]. destruct (lin_bias a) as [b|]; [|reflexivity]. cbn [option_map].
  change (mkT3 1 (m0 (sc2 b)) (m1 (sc2 b)) (fun _ => v2 (sc2 b))) with (sc (mkT3 1 (m0 b) (m1 b) (fun _ => v2 b))).
  rewrite plus_sc. destruct (zip3 Rplus y _) as [z|]; [|reflexivity]. cbn [bind n0 n1 n2 map3].
  destruct (_ && _); reflexivity.
Qed.

Section Odd.
Variable nl dnl : R -> R.
Hypothesis ODD : forall x, nl (- x) = - nl x.
Hypothesis EVEN : forall x, dnl (- x) = dnl x.

Lemma nl1 x : nl (-1 * x) = -1 * nl x.
Proof. replace (-1 * x) with (- x) by ring. rewrite ODD. ring. Qed.
Lemma dnl1 x : dnl (-1 * x) = dnl x.
Proof. replace (-1 * x) with (- x) by ring. apply EVEN. Qed.
Lemma nl_sc x : map3 nl (sc x) = sc (map3 nl x).
Proof. unfold map3. cbn [n0 n1 n2 v3]. f_equal. ext. apply nl1. Qed.
Lemma dnl_sc x : map3 dnl (sc x) = map3 dnl x.
Proof. unfold map3. cbn [n0 n1 n2 v3]. f_equal. ext. apply dnl1. Qed.
Lemma dampening_sc a x : map3 (Rmult a) (sc x) = sc (map3 (Rmult a) x).
Proof. unfold map3. cbn [n0 n1 n2 v3]. f_equal. ext. ring. Qed.

Lemma unused_turned q a : unused_dot_q nl (sc q) (turned a) = lift (unused_dot_q nl q a) sc.
Proof.
  unfold unused_dot_q. rewrite nl_sc, turned_weight, matmul32_sc.
  destruct (matmul32 (map3 nl q) (tr (lin_weight a))) as [y|]; [|reflexivity]. cbn [bind].
  unfold turned. cbn [lin_bias]. destruct (lin_bias a) as [b|]; [|reflexivity]. cbn [option_map].
  change (mkT3 1 (m0 (sc2 b)) (m1 (sc2 b)) (fun _ => v2 (sc2 b))) with (sc (mkT3 1 (m0 b) (m1 b) (fun _ => v2 b))).
  apply plus_sc.
Qed.

Lemma costate_loop_even N q p A : costate_loop dnl N (sc q) p A = costate_loop dnl N q p A.
Proof.
  unfold costate_loop. f_equal. ext. rename x into acc. rename x0 into i. unfold row. cbn [n0 map3].
  destruct (Nat.ltb i (n0 q)); [|reflexivity]. cbn [bind n1 n2 v3 map3].
  do 3 (f_equal; ext). f_equal. f_equal. unfold map2. cbn [m0 m1 v2]. f_equal. ext. rewrite dnl1. reflexivity.
Qed.

Lemma weight_loop_both d N q p : weight_loop nl d N (sc q) (sc p) = weight_loop nl d N q p.
Proof.
  unfold weight_loop. f_equal. f_equal. ext. rename x into At. rename x0 into i. unfold row. cbn [n0 map3].
  destruct (Nat.ltb i (n0 p)); [|reflexivity]. cbn [bind].
  destruct (Nat.ltb i (n0 q)); [|reflexivity]. cbn [bind n1 n2 v3 map3]. f_equal.
  unfold zip2. cbn [m0 m1 v2 map2 tr]. destruct (bdim _ _) as [a|]; [|reflexivity]. cbn [bind].
  destruct (bdim _ _) as [b|]; [|reflexivity]. cbn [bind]. do 2 f_equal. ext. rewrite nl1. ring.
Qed.

Ltac step :=
  repeat first
    [ progress (rewrite ?item_turned, ?item_multiple, ?nl_sc, ?dnl_sc, ?dampening_sc, ?forward_turned, ?unused_turned,
        ?turned_weight, ?matmul32_sc, ?plus_sc, ?minus_sc, ?mult_sc, ?opp_sc, ?costate_loop_sc, ?costate_loop_even,
        ?transpose_sc, ?matmul33_both)
    | reflexivity | match goal with
      | |- context [bind ?m _] =>
          lazymatch m with
          | bind _ _ => fail
          | _ => destruct m; cbn [bind]; try reflexivity
          end
      end ].

Notation mult := (multiple (-1)).
Lemma updown_rhs_turned s th : updown_rhs nl (mult s) (mirror_layers th) = lift (updown_rhs nl s th) mult.
Proof. unfold updown_rhs. step. Qed.
Lemma universal_rhs_turned s th : universal_rhs nl (mult s) (mirror_layers th) = lift (universal_rhs nl s th) mult.
Proof. unfold universal_rhs. step. Qed.
Lemma general_rhs_turned s th : general_rhs nl (mult s) (mirror_layers th) = lift (general_rhs nl s th) mult.
Proof. unfold general_rhs. step. Qed.
Lemma debug_rhs_turned s th : debug_rhs nl (mult s) (mirror_layers th) = lift (debug_rhs nl s th) mult.
Proof. unfold debug_rhs. step. Qed.
Lemma simple_rhs_turned s th : simple_rhs nl (mult s) (mirror_layers th) = lift (simple_rhs nl s th) mult.
Proof. unfold simple_rhs. step. Qed.
Lemma dampened_q2_rhs_turned s th : dampened_q2_rhs nl (mult s) (mirror_layers th) = lift (dampened_q2_rhs nl s th) mult.
Proof. unfold dampened_q2_rhs. step. Qed.
Lemma symmetrized_rhs_turned s th : symmetrized_rhs nl (mult s) (mirror_layers th) = lift (symmetrized_rhs nl s th) mult.
Proof. unfold symmetrized_rhs. step. Qed.
Lemma periodic_rhs_turned s th : periodic_rhs nl (mult s) (mirror_layers th) = lift (periodic_rhs nl s th) mult.
Proof. unfold periodic_rhs. step. Qed.

Lemma updown_costate_turned s c th : updown_costate dnl (mult s) (mult c) (mirror_layers th) = lift (updown_costate dnl s c th) mult.
Proof. unfold updown_costate. step. Qed.
Lemma universal_costate_turned s c th : universal_costate dnl (mult s) (mult c) (mirror_layers th) = lift (universal_costate dnl s c th) mult.
Proof. unfold universal_costate. step. Qed.
Lemma general_costate_turned s c th : general_costate dnl (mult s) (mult c) (mirror_layers th) = lift (general_costate dnl s c th) mult.
Proof. unfold general_costate. step. Qed.
Lemma symmetrized_costate_turned s c th : symmetrized_costate dnl (mult s) (mult c) (mirror_layers th) = lift (symmetrized_costate dnl s c th) mult.
Proof. unfold symmetrized_costate. step. Qed.
Lemma periodic_costate_turned s c th : periodic_costate dnl (mult s) (mult c) (mirror_layers th) = lift (periodic_costate dnl s c th) mult.
Proof. unfold periodic_costate. step. Qed.
Lemma simple_costate_turned N s c th : simple_costate nl dnl N (mult s) (mult c) (mirror_layers th) = lift (simple_costate nl dnl N s c th) mult.
Proof. unfold simple_costate. step. Qed.
Lemma debug_costate_turned N s c th : debug_costate nl dnl N (mult s) (mult c) (mirror_layers th) = lift (debug_costate nl dnl N s c th) mult.
Proof. unfold debug_costate. step. Qed.

(** ** Parameters *)
Variable init : string -> (nat -> nat -> R) * (nat -> R).
Variable d e : nat.
Variable W : option R.
Variable ow : R.

Lemma divide_turned t w : divide_by_if_not_none (sc2 t) w = sc2 (divide_by_if_not_none t w).
Proof. destruct w; [|reflexivity]. unfold divide_by_if_not_none, map2. cbn [m0 m1 v2]. f_equal. ext. unfold Rdiv. ring. Qed.

Ltac turned_parameters :=
  repeat first
    [ progress (rewrite ?item_multiple, ?transpose_sc, ?nl_sc, ?matmul33_both, ?weight_loop_both, ?mean_sc, ?tr_sc, ?bias_sc)
    | match goal with
      | |- context [bind ?m _] =>
          lazymatch m with
          | bind _ _ => fail
          | store_weight _ _ _ => fail
          | store_bias _ _ _ => fail
          | _ => destruct m; cbn [bind]; try reflexivity
          end
      end ];
  unfold store_weight, store_bias, updown_objects, universal_objects, general_objects, simple_objects, debug_objects,
    symmetrized_objects, periodic_objects;
  cbn -[divide_by_if_not_none map2 mean0 tr bias_of mirror_layers];
  rewrite ?divide_turned, ?mirror_layers_map; reflexivity.

Lemma updown_parameters_turned s c :
  updown_parameters nl init d e W (mult s) (mult c) = lift (updown_parameters nl init d e W s c) mirror_layers.
Proof. unfold updown_parameters. turned_parameters. Qed.
Lemma universal_parameters_turned s c :
  universal_parameters nl init d e W ow (mult s) (mult c) = lift (universal_parameters nl init d e W ow s c) mirror_layers.
Proof. unfold universal_parameters. turned_parameters. Qed.
Lemma general_parameters_turned s c :
  general_parameters nl init d e W (mult s) (mult c) = lift (general_parameters nl init d e W s c) mirror_layers.
Proof. unfold general_parameters. turned_parameters. Qed.
Lemma debug_parameters_turned N s c :
  debug_parameters nl init d W N (mult s) (mult c) = lift (debug_parameters nl init d W N s c) mirror_layers.
Proof. unfold debug_parameters. turned_parameters. Qed.
Lemma simple_parameters_turned N s c :
  simple_parameters nl init d W N (mult s) (mult c) = lift (simple_parameters nl init d W N s c) mirror_layers.
Proof. unfold simple_parameters. turned_parameters. Qed.
Lemma symmetrized_parameters_turned s c :
  symmetrized_parameters nl init d e W (mult s) (mult c) = lift (symmetrized_parameters nl init d e W s c) mirror_layers.
Proof. unfold symmetrized_parameters. turned_parameters. Qed.
Lemma periodic_parameters_turned s c :
  periodic_parameters nl init d e W (mult s) (mult c) = lift (periodic_parameters nl init d e W s c) mirror_layers.
Proof. unfold periodic_parameters. turned_parameters. Qed.
End Odd.

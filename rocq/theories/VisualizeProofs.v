(** Proofs for VisualizeModel. *)
From Coq Require Import Reals List String Arith ZArith QArith Qcanon Qreals Bool Lia Lra Sorting.Sorted.
From Verif Require Import Base BaseFacts Tensor TensorFacts ScdModel ScdSpec ScdProofs BlockModel BlockSpec IntegratorModel
  FixedGridModel FixedGridSpec BlockSolverModel BlockSolverSpec BlockSolverProofs
  BlockProofs BlockProofs2 BlockProofs3 BlockProofs4 BlockProofs5 TrajectoryModel TrajectoryProofs VisualizeModel VisualizeSpec.
Import ListNotations.
Open Scope string_scope.
Open Scope list_scope.
Open Scope nat_scope.

Lemma ok_inj {B} (x y : B) : Ok x = Ok y -> x = y.
Proof. congruence. Qed.

Lemma direction_ok u v : points_along u v (direction u v).
Proof.
  unfold direction. pose proof (Rle_0_sqr u) as U. pose proof (Rle_0_sqr v) as V. unfold Rsqr in U, V.
  destruct (Req_EM_T (sqrt (u * u + v * v)) 0) as [E|E].
  - apply sqrt_eq_0 in E; [|lra]. cbn. split; apply Rsqr_0_uniq; unfold Rsqr; lra.
  - pose proof (sqrt_pos (u * u + v * v)) as P.
    pose proof (sqrt_sqrt (u * u + v * v) ltac:(lra)) as Q. remember (sqrt (u * u + v * v)) as m eqn:M.
    split.
    + replace (u / m * (u / m) + v / m * (v / m))%R with ((u * u + v * v) / (m * m))%R by (field; exact E).
      rewrite Q. field. intros Z. rewrite <- Q in Z. apply E. apply Rmult_integral in Z. tauto.
    + exists m. split; [lra|]. split; field; exact E.
Qed.

(** ** Places *)
Lemma places_len : List.length places = 21 * 21.
Proof. reflexivity. Qed.

Lemma place_nth i j : i < 21 -> j < 21 -> nth_error places (i * 21 + j) = Some (coordinate j, coordinate i).
Proof.
  intros I J. unfold places.
  rewrite (nth_error_flat_map_const _ 21 (seq 0 21) i i j).
  - rewrite nth_error_map, nth_error_seq by lia. reflexivity.
  - intros; rewrite map_length, seq_length; reflexivity.
  - rewrite nth_error_seq by lia. reflexivity.
  - exact J.
Qed.

Lemma coordinate_at i j : at_place i j (coordinate j, coordinate i).
Proof. unfold at_place, coordinate. cbn [fst snd]. split; ring. Qed.

Lemma samples_wf {A} (num : Q -> A) : twf (samples num).
Proof. reflexivity. Qed.

Lemma samples_get {A} (num : Q -> A) i j : i < 21 -> j < 21 ->
  tget (samples num) [i * 21 + j; 0; 0] = Some (num (coordinate j)) /\
  tget (samples num) [i * 21 + j; 0; 1] = Some (num (coordinate i)).
Proof.
  intros I J. pose proof (place_nth i j I J) as P.
  assert (L : i * 21 + j < List.length places) by (rewrite places_len; lia).
  assert (G : forall c, c < 2 -> tget (samples num) [i * 21 + j; 0; c] = nth_error [num (coordinate j); num (coordinate i)] c).
  { intros c C. unfold tget, samples. cbn [tshape tdata]. generalize dependent places. intros ps P L. cbn [ravel].
    rewrite (proj2 (Nat.ltb_lt _ _) L), (proj2 (Nat.ltb_lt _ _) C). cbn [Nat.ltb Nat.leb prod fold_right option_map].
    replace (_ + _) with ((i * 21 + j) * 2 + c) by lia.
    rewrite (nth_error_flat_map_const (fun p => [num (fst p); num (snd p)]) 2 ps (i * 21 + j) (coordinate j, coordinate i) c);
      [reflexivity|reflexivity|exact P|exact C]. }
  split; [apply (G 0)|apply (G 1)]; lia.
Qed.

(** ** Tensors *)
Lemma combine_nth_error {B C} (l : list B) (m : list C) : forall k a b, nth_error l k = Some a -> nth_error m k = Some b ->
  nth_error (combine l m) k = Some (a, b).
Proof.
  revert m. induction l as [|x l IH]; intros [|y m] [|k] a b E F; try discriminate.
  - cbn in *. congruence.
  - cbn in *. apply IH; assumption.
Qed.

Lemma rows_nth {B} m n : forall (l : list B) i j, i < n -> j < m -> i * m + j < List.length l ->
  exists row, nth_error (rows n m l) i = Some row /\ nth_error row j = nth_error l (i * m + j).
Proof.
  induction n as [|n IH]; intros l i j I J L; [lia|]. cbn [rows]. destruct i as [|i].
  - exists (firstn m l). split; [reflexivity|]. cbn [Nat.mul Nat.add].
    rewrite <- (firstn_skipn m l) at 2. rewrite nth_error_app1; [reflexivity|]. rewrite firstn_length. cbn in L. lia.
  - destruct (IH (skipn m l) i j) as (row & R & E); [lia|exact J|rewrite skipn_length; cbn in L; lia|].
    exists row. split; [exact R|]. rewrite E. rewrite <- (firstn_skipn m l) at 2.
    rewrite nth_error_app2; rewrite firstn_length; [|cbn in L |- *; lia].
    f_equal. cbn in L |- *. lia.
Qed.

Lemma column_ok {A} (t : tensor A) n k c col : twf t -> tshape t = [n; k] -> column t c = Ok col ->
  List.length col = n /\ forall i, i < n -> nth_error col i = tget t [i; c].
Proof.
  intros W E C. unfold column in C. rewrite E in C. destruct (Nat.ltb_spec c k) as [K|]; [|discriminate]. injection C as <-.
  destruct (flat_map_opt_total (fun i => tget t [i; c]) (seq 0 n)) as (L & N).
  - intros i I. apply in_seq in I. destruct (tget_valid t [i; c] W) as (a & ->); [rewrite E; cbn; lia|discriminate].
  - rewrite seq_length in L. split; [exact L|]. intros i I. apply N. rewrite nth_error_seq by exact I. reflexivity.
Qed.

Lemma displacement_ok {A} (val : A -> R) (out : tensor A) d m c : twf out -> displacement val out = Ok d -> tshape d = [m; c] ->
  twf d /\ exists n k, tshape out = [S n; m; S k; c] /\
  forall i j, i < m -> j < c -> exists a b, tget out [n; i; 0; j] = Some a /\ tget out [0; i; 0; j] = Some b /\
    tget d [i; j] = Some (val a - val b)%R.
Proof.
  intros W E S. unfold displacement in E. apply bind_ok in E as (n & L & E).
  destruct (Nat.eqb_spec n 0) as [|N]; [discriminate|].
  apply bind_ok in E as (la & EL & E). apply bind_ok in E as (fi & EF & E).
  destruct (tshape out) as [|n0 s] eqn:SO; [discriminate|]. injection L as ->.
  destruct (tselect_ok (n - 1) out n s W SO ltac:(lia)) as (la' & EL' & WL & SL & GL).
  rewrite EL in EL'. injection EL' as <-.
  destruct (tselect_ok 0 out n s W SO ltac:(lia)) as (fi' & EF' & WF & SF & GF).
  rewrite EF in EF'. injection EF' as <-.
  rewrite SL in E. destruct s as [|m0 [|k r]]; try discriminate E. destruct (Nat.eqb_spec k 0) as [|K]; [discriminate|].
  injection E as <-. cbn [tgather tshape] in S. injection S as -> ->.
  assert (V : forall i j, i < m -> j < c -> exists a b, tget out [n - 1; i; 0; j] = Some a /\ tget out [0; i; 0; j] = Some b /\
    tget la [i; 0; j] = Some a /\ tget fi [i; 0; j] = Some b).
  { intros i j I J. assert (VI : valid_idx [m; k; c] [i; 0; j]) by (cbn; lia).
    destruct (tget_valid la [i; 0; j] WL) as (a & EA); [rewrite SL; exact VI|].
    destruct (tget_valid fi [i; 0; j] WF) as (b & EB); [rewrite SF; exact VI|].
    exists a, b. rewrite <- GL, <- GF by assumption. tauto. }
  assert (T : forall idx, valid_idx [m; c] idx -> match idx with
        | i :: r => match tget la (i :: 0 :: r), tget fi (i :: 0 :: r) with
                    | Some a, Some b => Some (val a - val b)%R
                    | _, _ => None
                    end
        | [] => None
        end <> None).
  { intros [|i [|j [|]]] VI; cbn in VI; try tauto.
    destruct (V i j ltac:(tauto) ltac:(tauto)) as (a & b & _ & _ & -> & ->). discriminate. }
  split; [apply tgather_wf; exact T|].
  destruct n as [|n]; [lia|]. destruct k as [|k]; [lia|]. exists n, k. split; [reflexivity|].
  cbn [Nat.sub] in V. rewrite Nat.sub_0_r in V.
  intros i j I J. destruct (V i j I J) as (a & b & E1 & E2 & E3 & E4). exists a, b. split; [exact E1|]. split; [exact E2|].
  rewrite tget_gather; [|exact T|cbn; lia]. rewrite E3, E4. reflexivity.
Qed.

Lemma field_ok {A} (val : A -> R) (out : tensor A) f : twf out -> field val true out = Ok f ->
  exists n k, tshape out = [S n; 21 * 21; S k; 2] /\
  forall i j, i < 21 -> j < 21 -> exists row p v x0 y0 x1 y1,
    nth_error f i = Some row /\ nth_error row j = Some (p, v) /\ p = (coordinate j, coordinate i) /\
    tget out [0; i * 21 + j; 0; 0] = Some x0 /\ tget out [0; i * 21 + j; 0; 1] = Some y0 /\
    tget out [n; i * 21 + j; 0; 0] = Some x1 /\ tget out [n; i * 21 + j; 0; 1] = Some y1 /\
    points_along (val x1 - val x0) (val y1 - val y0) v.
Proof.
  intros W E. unfold field in E. apply bind_ok in E as (d & D & E). apply bind_ok in E as (us & U & E).
  apply bind_ok in E as (vs & V & E). rewrite places_len in E. destruct (eqb_list (tshape d) [21 * 21; 2]) eqn:S; [|discriminate].
  apply eqb_list_eq in S. apply ok_inj in E. subst f.
  destruct (displacement_ok val out d (21 * 21) 2 W D S) as (WD & n & k & SO & G).
  exists n, k. split; [exact SO|]. intros i j I J.
  destruct (column_ok d (21 * 21) 2 0 us WD S U) as (LU & NU). destruct (column_ok d (21 * 21) 2 1 vs WD S V) as (LV & NV).
  assert (X : i * 21 + j < 21 * 21) by lia.
  destruct (G (i * 21 + j) 0 X ltac:(lia)) as (x1 & x0 & X1 & X0 & XD).
  destruct (G (i * 21 + j) 1 X ltac:(lia)) as (y1 & y0 & Y1 & Y0 & YD).
  rewrite <- (NU _ X) in XD. rewrite <- (NV _ X) in YD.
  pose proof places_len as LP. pose proof (place_nth i j I J) as PN. generalize dependent places. intros ps LP PN.
  set (l := combine ps (map (fun uv => direction (fst uv) (snd uv)) (combine us vs))).
  assert (LL : List.length l = 21 * 21).
  { unfold l. rewrite combine_length, map_length, combine_length, LP, LU, LV. reflexivity. }
  destruct (rows_nth 21 21 l i j I J) as (row & R1 & R2); [rewrite LL; exact X|].
  exists row, (coordinate j, coordinate i), (direction (val x1 - val x0) (val y1 - val y0)), x0, y0, x1, y1.
  split; [exact R1|]. split.
  { rewrite R2. unfold l. apply combine_nth_error; [exact PN|]. rewrite nth_error_map.
    rewrite (combine_nth_error us vs _ _ _ XD YD). reflexivity. }
  split; [reflexivity|]. repeat split; try assumption. apply direction_ok.
Qed.

Lemma first_order_field {A} (val : A -> R) (out : tensor A) n : twf out -> tshape out = [S n; 21 * 21; 1; 2] ->
  field val false out = Raise RuntimeError.
Proof.
  intros W SO. unfold field. unfold last_sample. rewrite SO. cbn [list_item nth_error bind Nat.eqb].
  destruct (tselect_ok (S n - 1) out (S n) [21 * 21; 1; 2] W SO ltac:(lia)) as (la & -> & WL & SL & _). cbn [bind].
  destruct (tselect_ok 0 la (21 * 21) [1; 2] WL SL ltac:(lia)) as (one & -> & _ & S1 & _). cbn [bind].
  unfold column. replace (tshape (tmap val one)) with [1; 2] by (symmetry; exact S1). cbn [Nat.ltb Nat.leb bind].
  rewrite places_len. reflexivity.
Qed.

Lemma higher_order_field {A} (val : A -> R) (out : tensor A) n k : twf out -> tshape out = [S n; 21 * 21; S k; 2] ->
  exists f, field val true out = Ok f.
Proof.
  intros W SO. unfold field, displacement. rewrite SO. cbn [list_item nth_error bind Nat.eqb].
  destruct (tselect_ok (S n - 1) out (S n) [21 * 21; S k; 2] W SO ltac:(lia)) as (la & -> & WL & SL & _). cbn [bind].
  destruct (tselect_ok 0 out (S n) [21 * 21; S k; 2] W SO ltac:(lia)) as (fi & -> & WF & SF & _). cbn [bind].
  rewrite SL. cbn [Nat.eqb bind]. unfold column. cbn [tgather tshape]. cbn [Nat.ltb Nat.leb bind].
  rewrite places_len. rewrite (proj2 (eqb_list_eq [21 * 21; 2] [21 * 21; 2]) eq_refl). eexists. reflexivity.
Qed.

Section Visualize.
Context {A : Type}.
Variable zero : A.
Variable ig : integrand (A := A).
Variable has_attr : string -> bool.
Variable rnd : nat -> nat -> A.
Variable num : Q -> A.
Variable val : A -> R.

Section Any.
Variable solve : block (A := A) -> list A -> list Qc -> result (tensor A).

Notation look ts pred g times higher b := (visualize zero ig has_attr rnd solve num val ts pred g times higher b).
Notation run b := (apply_block zero ig has_attr rnd solve (samples num) b).

Lemma visualize_inv ts ps g times higher b b' fig : look ts ps g times higher b = (b', Ok fig) ->
  curves (List.length times) ts ps g = Ok tt /\ times <> [] /\
  exists out s c d, run (set_times None (Some (firstn 5 times)) b) = (b', Ok (RTensor out, s, c, d)) /\
    field val higher out = Ok (fig_field fig) /\
    fig_particles fig = attribute has_attr "q_params" b' && attribute has_attr "p_params" b'.
Proof.
  intros E. unfold visualize, mbind, BlockModel.lift, set_integration_time_vector, modify in E.
  destruct (curves _ _ _ _) as [[]|]; [|discriminate]. split; [reflexivity|].
  destruct times as [|t times]; [discriminate|]. split; [discriminate|].
  destruct (run (set_times None (Some (firstn 5 (t :: times))) b)) as [b1 [r|]] eqn:F; [|discriminate].
  destruct r as [[[o s] c] d]. cbn [fst] in E. destruct o as [out| |]; [|discriminate|discriminate].
  destruct (field val higher out) as [f|] eqn:EF; [|discriminate]. apply pair_equal_spec in E as (E1 & E2).
  apply ok_inj in E2. subst. exists out, s, c, d. split; [reflexivity|]. split; [exact EF|reflexivity].
Qed.

(** The vectors which are drawn. *)
Lemma visualize_field ts ps g times b b' fig : look ts ps g times true b = (b', Ok fig) ->
  exists out s c d, run (set_times None (Some (firstn 5 times)) b) = (b', Ok (RTensor out, s, c, d)) /\
  (twf out -> exists n k, tshape out = [S n; 21 * 21; S k; 2] /\
   forall i j, i < 21 -> j < 21 -> exists row p v x0 y0 x1 y1,
    nth_error (fig_field fig) i = Some row /\ nth_error row j = Some (p, v) /\ at_place i j p /\
    tget (samples num) [i * 21 + j; 0; 0] = Some (num (fst p)) /\ tget (samples num) [i * 21 + j; 0; 1] = Some (num (snd p)) /\
    tget out [0; i * 21 + j; 0; 0] = Some x0 /\ tget out [0; i * 21 + j; 0; 1] = Some y0 /\
    tget out [n; i * 21 + j; 0; 0] = Some x1 /\ tget out [n; i * 21 + j; 0; 1] = Some y1 /\
    points_along (val x1 - val x0) (val y1 - val y0) v).
Proof.
  intros E. destruct (visualize_inv _ _ _ _ _ _ _ _ E) as (_ & _ & out & s & c & d & R1 & F & _).
  exists out, s, c, d. split; [exact R1|]. intros W. destruct (field_ok val out _ W F) as (n & k & SO & G).
  exists n, k. split; [exact SO|]. intros i j I J.
  destruct (G i j I J) as (row & p & v & x0 & y0 & x1 & y1 & E1 & E2 & -> & Q).
  exists row, (coordinate j, coordinate i), v, x0, y0, x1, y1.
  split; [exact E1|]. split; [exact E2|]. split; [apply coordinate_at|].
  destruct (samples_get num i j I J) as (S0 & S1). split; [exact S0|]. split; [exact S1|exact Q].
Qed.

(** The block afterwards. *)
Lemma visualize_leaves ts ps g times higher b b' fig : look ts ps g times higher b = (b', Ok fig) ->
  b_time b' = None /\ b_time_vec b' = Some (firstn 5 times) /\ b_state b' = b_state b /\ b_costate b' = b_costate b /\
  b_registry b' = b_registry b /\ b_store b' = b_store b.
Proof.
  intros E. destruct (visualize_inv _ _ _ _ _ _ _ _ E) as (_ & _ & out & s & c & d & R1 & _ & _).
  destruct (apply_after _ _ _ _ _ _ _ _ _ R1) as (d0 & x0 & pl & _ & _ & ->). cbn. tauto.
Qed.

Lemma visualize_particles ts ps g times higher b b' fig : look ts ps g times higher b = (b', Ok fig) ->
  has_attr "q_params" = false -> ~ In "q_params" (map fst (b_registry b)) -> fig_particles fig = false.
Proof.
  intros E H N. destruct (visualize_leaves _ _ _ _ _ _ _ _ E) as (_ & _ & _ & _ & RG & _).
  destruct (visualize_inv _ _ _ _ _ _ _ _ E) as (_ & _ & out & s & c & d & _ & _ & ->).
  unfold attribute at 1. rewrite H, RG. cbn [orb].
  destruct (existsb _ _) eqn:X; [|reflexivity]. apply existsb_exists in X as (k & I & K). apply String.eqb_eq in K as <-. tauto.
Qed.

(** Other models than those of second order. *)
Lemma visualize_first_order ts ps g times b :
  (forall b1 out s c d, run (set_times None (Some (firstn 5 times)) b) = (b1, Ok (RTensor out, s, c, d)) ->
     twf out /\ exists n, tshape out = [S n; 21 * 21; 1; 2]) ->
  exists e, snd (look ts ps g times false b) = Raise e.
Proof.
  intros H. destruct (look ts ps g times false b) as [b' [fig|e]] eqn:E; [|exists e; reflexivity]. exfalso.
  destruct (visualize_inv _ _ _ _ _ _ _ _ E) as (_ & _ & out & s & c & d & R1 & F & _).
  destruct (H _ _ _ _ _ R1) as (W & n & SO). pose proof (first_order_field val out n W SO) as X. congruence.
Qed.

Lemma visualize_succeeds ts ps times b b1 out s c d n :
  curves (List.length times) ts ps false = Ok tt -> times <> [] ->
  run (set_times None (Some (firstn 5 times)) b) = (b1, Ok (RTensor out, s, c, d)) ->
  twf out -> tshape out = [S n; 21 * 21; 1; 2] ->
  (exists fig, look ts ps false times true b = (b1, Ok fig)) /\ look ts ps false times false b = (b1, Raise RuntimeError).
Proof.
  intros C T E W SO. destruct (higher_order_field val out n 0 W SO) as (f & F). pose proof (first_order_field val out n W SO) as G.
  unfold visualize, mbind, BlockModel.lift, set_integration_time_vector, modify. rewrite C.
  destruct times as [|t times]; [congruence|]. rewrite E. cbn [fst]. rewrite F, G. split; [eexists; reflexivity|reflexivity].
Qed.


Lemma visualize_grad t m k c ps times higher b :
  0 < m -> 0 < k -> 1 < c -> t = List.length times ->
  look [t; m; k; c] ps true times higher b = (b, Raise RuntimeError).
Proof.
  intros M K C ->. unfold visualize, mbind, BlockModel.lift, curves. cbn [list_item nth_error bind].
  destruct m as [|m]; [lia|]. cbn [seq foldM]. unfold curve at 1. cbn [Nat.ltb Nat.leb].
  destruct k as [|k]; [lia|]. destruct c as [|[|c]]; [lia|lia|]. cbn [Nat.ltb Nat.leb andb]. rewrite Nat.eqb_refl. reflexivity.
Qed.
End Any.

Variable add : list A -> list A -> list A.
Variable mul : Qc -> list A -> list A.
Variable rhs : option plans -> Qc -> list A -> list A.
Variable other : bool -> string -> opts -> list A -> list Qc -> result (list (list A)).
Variable odesolver : opts -> list A -> result (list A).

Notation sol hp i := (integrator_solve add mul rhs other odesolver hp i).

Lemma sorted_firstn k : forall l, StronglySorted Qclt l -> StronglySorted Qclt (firstn k l).
Proof.
  induction k as [|k IH]; intros l H; [constructor|]. destruct H as [|t l H F]; [constructor|]. cbn [firstn].
  constructor; [apply IH; exact H|]. apply Forall_forall. intros u U. apply (proj1 (Forall_forall _ _) F).
  rewrite <- (firstn_skipn k l). apply in_or_app. left. exact U.
Qed.

(** The vectors start at their places. *)
Lemma visualize_start h hp i ts ps g t0 t1 times (b b' : block) fig s0 c0 d0 :
  steps_of h hp i -> StronglySorted Qclt (t0 :: t1 :: times) ->
  b_state b = Some s0 -> good_dict s0 -> b_costate b = Some c0 -> good_dict c0 ->
  ig_initial_data ig (samples num) = Ok d0 -> good_dict d0 -> sd_get (ig_output_key ig) d0 = Some (samples num) ->
  visualize zero ig has_attr rnd (sol hp i) num val ts ps g (t0 :: t1 :: times) true b = (b', Ok fig) ->
  exists out s c d, apply_block zero ig has_attr rnd (sol hp i) (samples num)
      (set_times None (Some (t0 :: t1 :: firstn 3 times)) b) = (b', Ok (RTensor out, s, c, d)) /\
  (twf out -> exists n, List.length (tshape out) = 4 /\ nth_error (tshape out) 0 = Some (S n) /\
   forall r k, r < 21 -> k < 21 -> exists row p v x1 y1,
    nth_error (fig_field fig) r = Some row /\ nth_error row k = Some (p, v) /\ at_place r k p /\
    tget out [n; r * 21 + k; 0; 0] = Some x1 /\ tget out [n; r * 21 + k; 0; 1] = Some y1 /\
    points_along (val x1 - val (num (fst p))) (val y1 - val (num (snd p))) v).
Proof.
  intros SO SS ES GS EC GC ED GD EQ E. destruct (visualize_field _ _ _ _ _ _ _ _ E) as (out & s & c & d & R1 & G).
  exists out, s, c, d. split; [exact R1|]. intros W. destruct (G W) as (n & k0 & SH & Q). clear G.
  exists n. rewrite SH. split; [reflexivity|]. split; [reflexivity|].
  pose proof (sorted_firstn 5 _ SS) as SF. cbn [firstn] in SF.
  destruct (vector_start zero ig has_attr rnd add mul rhs other odesolver h hp i (samples num) t0 t1 (firstn 3 times) b b'
    (RTensor out) s c d s0 c0 d0 (samples num) SO SF ES GS EC GC ED GD EQ R1) as (O & _).
  cbn [output_at] in O.
  destruct (tselect_ok 0 out (S n) [21 * 21; S k0; 2] W SH ltac:(lia)) as (r0 & E0 & _ & _ & G0).
  rewrite O in E0. apply ok_inj in E0. subst r0.
  intros r k RR K. destruct (Q r k RR K) as (row & p & v & x0 & y0 & x1 & y1 & A1 & A2 & A3 & A4 & A5 & A6 & A7 & A8 & A9 & A10).
  assert (RK : r * 21 + k < 21 * 21) by lia.
  rewrite <- G0 in A6, A7 by (cbn [valid_idx]; lia). rewrite A4 in A6. rewrite A5 in A7. injection A6 as <-. injection A7 as <-.
  exists row, p, v, x1, y1. repeat (split; [assumption|]). assumption.
Qed.
End Visualize.

(** Properties C58, C59, C70, C71: chunked validation and sampled windows. *)
From Coq Require Import List ZArith Bool Lia.
From Verif Require Import Base SpiralModel SpiralSpec SpiralProofs.
Import ListNotations.

(** C58 is false for chunks of one point: chunking never ends. *)
Theorem C58_terminates_refuted :
  exists (t : list nat) chunk_time, 2 <= List.length t /\
    forall fuel from_zero, get_time_chunks fuel t chunk_time from_zero = None.
Proof.
  exists [0; 1; 2], 1%Z. split; [simpl; lia|]. intros fuel fz.
  exact (chunk_one_diverges [0; 1; 2] fz ltac:(simpl; lia) fuel).
Qed.
Print Assumptions C58_terminates_refuted.

(** C58 otherwise: chunking ends, the chunks have at least two points, share exactly their
    end points and together are the times; chunks started from zero are the
    initial pieces of the same lengths.  Missing: [chunk_time = 1] and
    trajectories of fewer than two points. *)
Theorem C58_cover_partial : forall (T : Type) (t : list T) chunk_time fuel,
  2 <= List.length t -> (2 <= chunk_time \/ chunk_time <= 0)%Z -> List.length t <= fuel ->
  exists chunks, get_time_chunks fuel t chunk_time false = Some chunks /\
    glue chunks = t /\ linked chunks /\ Forall (fun c => 2 <= List.length c) chunks /\
    get_time_chunks fuel t chunk_time true =
      Some (map (fun c => firstn (List.length c) t) chunks).
Proof. exact @chunks_cover. Qed.
Print Assumptions C58_cover_partial.

(** C58: the predictions are those of solving chunk after chunk, and every time index is
    filled. *)
Theorem C58_filled_partial : forall (T X : Type) (solve : list T -> X -> list X),
  (forall c x, List.length (solve c x) = List.length c) ->
  forall zero t y0 chunk_time from_zero fuel,
  2 <= List.length t -> (2 <= chunk_time \/ chunk_time <= 0)%Z -> List.length t <= fuel ->
  exists chunks, get_time_chunks fuel t chunk_time from_zero = Some chunks /\
    compute_validation_data solve zero fuel t y0 true chunk_time from_zero
      = Some (Ok (chain solve y0 chunks)) /\
    List.length (chain solve y0 chunks) = List.length t.
Proof. exact validation_filled. Qed.
Print Assumptions C58_filled_partial.

Example C58_case :
  get_time_chunks 7 [0; 1; 2; 3; 4; 5; 6] 3 false = Some [[0; 1; 2]; [2; 3; 4]; [4; 5; 6]] /\
  get_time_chunks 7 [0; 1; 2; 3; 4; 5; 6] 4 false = Some [[0; 1; 2; 3]; [3; 4; 5; 6]] /\
  get_time_chunks 7 [0; 1; 2; 3; 4; 5; 6] 5 true = Some [[0; 1; 2; 3; 4]; [0; 1; 2]] /\
  compute_validation_data (fun c x => map (fun s => x + s) c) 0 7 [0; 1; 2; 3; 4; 5; 6] 10 true 3 true
    = Some (Ok [10; 11; 12; 13; 14; 15; 16]).
Proof. repeat split. Qed.

(** C70: for the exact flow of a differential equation, chunked prediction and direct prediction
    agree; when each chunk is restarted at time zero, the flow must not depend on
    where on the time grid it starts. *)
Theorem C70_chunked_equals_direct : forall (T X : Type) (phi : T -> T -> X -> X),
  (forall a x, phi a a x = x) -> (forall a b c x, phi b c (phi a b x) = phi a c x) ->
  forall zero t y0 chunk_time from_zero fuel,
  2 <= List.length t -> (2 <= chunk_time \/ chunk_time <= 0)%Z -> List.length t <= fuel ->
  (from_zero = true -> forall d x i j, i + j < List.length t ->
     phi (nth 0 t d) (nth j t d) x = phi (nth i t d) (nth (i + j) t d) x) ->
  compute_validation_data (flow_solve T X phi) zero fuel t y0 true chunk_time from_zero =
  compute_validation_data (flow_solve T X phi) zero fuel t y0 false chunk_time from_zero.
Proof. exact chunked_equals_direct. Qed.
Print Assumptions C70_chunked_equals_direct.

(** A flow (constant speed two) on an equidistant grid meets the hypotheses. *)
Example C70_case :
  let phi := fun a b x : Z => (x + 2 * (b - a))%Z in
  let t := [0; 3; 6; 9; 12]%Z in
  (forall a x, phi a a x = x) /\ (forall a b c x, phi b c (phi a b x) = phi a c x) /\
  (forall d x i j, i + j < List.length t ->
     phi (nth 0 t d) (nth j t d) x = phi (nth i t d) (nth (i + j) t d) x) /\
  compute_validation_data (flow_solve Z Z phi) 0%Z 5 t 1%Z true 2 true
    = Some (Ok [1; 7; 13; 19; 25]%Z).
Proof.
  cbv zeta. split; [intros; lia|]. split; [intros; lia|]. split; [|reflexivity].
  intros d x i j H. simpl in H.
  assert (K : forall k, k < 5 -> nth k [0; 3; 6; 9; 12]%Z d = (3 * Z.of_nat k)%Z).
  { intros [|[|[|[|[|k]]]]] Hk; auto; lia. }
  rewrite !K by lia. lia.
Qed.

(** Without that condition restarting from zero changes the prediction. *)
Example C70_time_dependent :
  let phi := fun a b x : Z => (x + (b * b - a * a))%Z in
  let t := [0; 1; 2; 3]%Z in
  (forall a x, phi a a x = x) /\ (forall a b c x, phi b c (phi a b x) = phi a c x) /\
  compute_validation_data (flow_solve Z Z phi) 0%Z 5 t 0%Z true 2 true <>
  compute_validation_data (flow_solve Z Z phi) 0%Z 5 t 0%Z false 2 true.
Proof. cbv zeta. split; [intros; lia|]. split; [intros; lia|]. discriminate. Qed.

(** C59: whichever positions are drawn, all windows lie inside the trajectory, and the batch
    consists of the points of these windows (for either way of sampling).  [scale] is
    any rounding of the distances.  The hypothesis on the last line says that
    there is something to draw from. *)
Theorem C59_inside : forall (D X : Type) scale (dists : list D) (y : list X) batch_time idx draws
    (dist_based : bool) d,
  (forall l, List.length (scale l) = List.length l) ->
  (1 <= batch_time)%Z -> y <> [] -> List.length dists = List.length y - 1 ->
  (dist_based = true -> create_uniform_distance_selection_array scale dists batch_time = Ok idx) ->
  (if dist_based then idx <> [] else (batch_time < Z.of_nat (List.length y))%Z) ->
  exists s y0 ys, get_batch y (List.length y) idx batch_time dist_based draws = Ok (s, y0, ys) /\
    List.length s = List.length draws /\
    (forall k i, In k s -> i < Z.to_nat batch_time -> k + i + 1 < List.length y) /\
    y0 = map (fun k => nth k y d) s /\
    ys = map (fun i => map (fun k => nth (k + i) y d) s) (seq 0 (Z.to_nat batch_time)).
Proof. exact @batch_inside. Qed.
Print Assumptions C59_inside.

Example C59_case :
  let y := [10; 11; 12; 13; 14; 15] in
  let scale := map Z.of_nat in
  create_uniform_distance_selection_array scale [1; 3; 2; 1; 1] 3 = Ok [0; 1; 1; 1; 2; 2] /\
  get_batch y 6 [0; 1; 1; 1; 2; 2] 3 true [5; 2] =
    Ok ([2; 1], [12; 11], [[12; 11]; [13; 12]; [14; 13]]) /\
  get_batch y 6 [] 3 false [0; 2] = Ok ([0; 2], [10; 12], [[10; 12]; [11; 13]; [12; 14]]).
Proof. repeat split. Qed.

(** C71 asks that every window of the trajectory can be drawn.  False: the last window, and
    with it the last point, never is. *)
Theorem C71_all_windows_refuted :
  exists (y : list nat) batch_time k, k + Z.to_nat batch_time <= List.length y /\
    forall draws y0 ys s, get_batch y (List.length y) [] batch_time false draws = Ok (s, y0, ys) ->
      ~ In k s.
Proof.
  exists [0; 1; 2], 2%Z, 1. split; [simpl; lia|]. intros draws y0 ys s H I.
  destruct (batch_inside (map Z.of_nat) [0; 0] [0; 1; 2] 2 [] draws false 0)
    as [s' [y0' [ys' [E [_ [B _]]]]]].
  - intro. apply map_length.
  - lia.
  - discriminate.
  - reflexivity.
  - discriminate.
  - simpl. lia.
  - rewrite E in H. injection H as <- _ _. specialize (B 1 1 I). simpl in B. lia.
Qed.
Print Assumptions C71_all_windows_refuted.

(** C71 for all windows but the last, with uniform sampling. *)
Theorem C71_all_windows_partial : forall (X : Type) (y : list X) idx batch_time k,
  (1 <= batch_time)%Z -> (Z.of_nat k < Z.of_nat (List.length y) - batch_time)%Z ->
  exists y0 ys, get_batch y (List.length y) idx batch_time false [k] = Ok ([k], y0, ys).
Proof. exact @uniform_reaches. Qed.
Print Assumptions C71_all_windows_partial.

Example C71_case : get_batch [5; 6; 7; 8] 4 [] 2 false [1] = Ok ([1], [6], [[6]; [7]]).
Proof. reflexivity. Qed.

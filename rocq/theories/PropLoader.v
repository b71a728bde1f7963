(** C123: the batches of the spiral's data loaders. *)
From Coq Require Import List ZArith Bool.
From Verif Require Import Base SpiralModel LoaderModel LoaderSpec LoaderProofs.
Import ListNotations.
Open Scope nat_scope.

(** Whatever is drawn, every batch of the training loader consists of windows of the trajectory, start points, times
    and points per time belonging together; the evaluation loaders have one batch of windows each, which is the same
    in all epochs; with long-range validation the test batch is the whole trajectory. *)
Theorem C123_batches_are_windows :
  forall (T X G D : Type) (draw : nat -> G -> list nat * G) (dist : X -> X -> D) scale (solve : X -> list T -> list X) y0 t bt d,
  (forall n g, List.length (fst (draw n g)) = n) ->
  (forall l, List.length (scale l) = List.length l) -> (forall l, l <> [] -> exists z, In z (scale l) /\ (1 <= z)%Z) ->
  List.length (solve y0 t) = List.length t -> (1 <= bt)%Z ->
  generate_data T X dist scale solve y0 t bt = Ok d ->
  forall b dis lr tr te sh ts g, (0 < b)%Z -> 1 <= te -> 1 <= sh -> 1 <= ts ->
  let batch := batch_of_windows t (solve y0 t) (Z.to_nat bt) in
  let same := fun l x => forall order g', iterate T X G draw l order g' = (Ok ([x], l_dataset _ _ l), g') in
  exists train train_eval short test g1,
    get_function_data_loaders T X G draw bt b dis lr d tr te sh ts g = (Ok (train, train_eval, short, test), g1) /\
    (forall order g', List.length order = tr -> exists bs s' g'', iterate T X G draw train order g' = (Ok (bs, s'), g'') /\
      List.length bs = tr / Z.to_nat b /\ Forall (batch (Z.to_nat b)) bs) /\
    (exists x, same train_eval x /\ batch te x) /\
    (exists x, same short x /\ batch sh x) /\
    (exists x, same test x /\ if lr then x = ([y0], t, map (fun p => [p]) (solve y0 t)) else batch ts x).
Proof. exact @spiral_loaders. Qed.
Print Assumptions C123_batches_are_windows.

(** Six points, windows of three; the generator counts. *)
Example C123_case :
  let draw := fun n g => (seq g n, g + n) in
  let solve := fun (x : nat) (t : list nat) => map (fun s => x + 10 * s) t in
  let scale := map (fun _ : nat => 1%Z) in
  exists d, generate_data nat nat Nat.sub scale solve 7 (seq 0 6) 3 = Ok d /\
  exists train te sh ts, get_function_data_loaders nat nat nat draw 3 2 false true d 5 2 1 9 0 = (Ok (train, te, sh, ts), 3) /\
  fst (iterate nat nat nat draw train [4; 2; 0; 1; 3] 3) =
    Ok ([([7; 17], [0; 1; 2], [[7; 17]; [17; 27]; [27; 37]]); ([27; 7], [0; 1; 2], [[27; 7]; [37; 17]; [47; 27]])],
        mkDataset nat nat d false true true true 3 5 None (Some [0; 1; 2]) None) /\
  iterate nat nat nat draw te [] 8 = (Ok ([([7; 17], [0; 1; 2], [[7; 17]; [17; 27]; [27; 37]])], l_dataset _ _ te), 8).
Proof. eexists. split; [reflexivity|]. do 4 eexists. split; [reflexivity|]. split; reflexivity. Qed.

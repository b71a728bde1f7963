(** Witnesses and cases for seeds: simple generators, small data. *)
From Coq Require Import List String ZArith QArith Reals Bool Lia.
From Verif Require Import Base ArgparseModel ExperimentModel RecordModel FunctionalModel SpiralModel LoaderModel SeedModel.
Import ListNotations.
Open Scope string_scope.
Open Scope list_scope.
Open Scope nat_scope.

(** A generator for torch which counts: permutations are natural or reversed. *)
Definition count_perm (n g : nat) : list nat * nat := (if Nat.even g then seq 0 n else rev (seq 0 n), S g).
(** Options of sfm.py: two epochs after the first, given frequencies of evaluation. *)
Definition mapping_args (test_freq : Z) : fargs :=
  mkFargs 50 2 false false false false false false false false false (-1) false test_freq 25 false false.

(** A generator for numpy which counts up to 8. *)
Definition count_draw (n g : nat) : list nat * nat := (map (fun i => (g + i) mod 8) (seq 0 n), (g + n) mod 8).
(** A trajectory of ten points. *)
Definition line_data : data_dict nat nat := mkData nat nat 0 (seq 0 10) (seq 0 10) (seq 0 8).
(** Options of spiral.py. *)
Definition spiral_args (custom : bool) (particles : nat) (test_freq viz_freq : Z) : sargs :=
  mkSargs 2 50 false true custom particles 1 test_freq viz_freq.
(** Orders: natural or reversed. *)
Definition natural (_ : Z) : list nat := seq 0 100.
Definition reversed (_ : Z) : list nat := rev (seq 0 100).

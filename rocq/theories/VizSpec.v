(** Specification of stacked arrays, frames and animations, independent of the model's
    helpers. *)
From Coq Require Import String Ascii List Arith Bool Reals.
From Verif Require Import Base Tensor HooksModel FigureModel FigureSpec VizModel.
Import ListNotations.
Open Scope string_scope.
Open Scope nat_scope.
Open Scope list_scope.

(** [a] is the arrays of the list [l], all of shape [s], one behind the other. *)
Definition stack_of (s : list nat) (l : list (tensor R)) (a : tensor R) : Prop :=
  tshape a = List.length l :: s /\ twf a /\
  forall i v idx, nth_error l i = Some v -> valid_idx s idx -> tget a (i :: idx) = tget v idx.

(** An array of shape [v] can be repeated to shape [s] (last axis first): each axis has the extent wanted
    or extent one, missing axes are added, further axes have extent one. *)
Inductive repeatable : list nat -> list nat -> Prop :=
  | repeatable_none s : repeatable [] s
  | repeatable_further v : repeatable v [] -> repeatable (1 :: v) []
  | repeatable_one v m s : repeatable v s -> repeatable (1 :: v) (m :: s)
  | repeatable_same v m s : repeatable v s -> repeatable (m :: v) (m :: s).

(** The entry shown at index [idx] is the one at index [j] of the array of shape [v] (last axis first). *)
Inductive repeats : list nat -> list nat -> list nat -> list nat -> Prop :=
  | rep_none s idx : repeats [] s idx []
  | rep_further v j : repeats v [] [] j -> repeats (1 :: v) [] [] (0 :: j)
  | rep_one v m s i idx j : repeats v s idx j -> repeats (1 :: v) (m :: s) (i :: idx) (0 :: j)
  | rep_same v m s i idx j : repeats v s idx j -> repeats (m :: v) (m :: s) (i :: idx) (i :: j).

(** Under [k] the arrays [l] were recorded, all complete and of shape [s]. *)
Definition series_is (data : record) (k : string) (l : list (tensor R)) (s : list nat) : Prop :=
  sd_get k data = Some (map VTen l) /\ forall v, In v l -> tshape v = s /\ twf v.

(** What was recorded in [T] evaluations for a block of a second-order model: times, and
    particles, momenta and data of the states [q1] and [q2]. *)
Record evolution (data : record) (block : string) (T : nat) (t : list val)
    (q1 p1 q2 p2 d1 d2 : list (tensor R)) (nr_of_data : nat) : Prop := {
  ev_times : sd_get "t" data = Some t;
  ev_lengths : List.length t = T /\ Forall (fun l => List.length l = T) [q1; p1; q2; p2; d1; d2];
  ev_one : 1 <= T;
  ev_q1 : exists n m f, 1 <= n /\ 1 <= m /\ 2 <= f /\
    series_is data (block ++ ".state.q1") q1 [n; m; f] /\ series_is data (block ++ ".costate.p_q1") p1 [n; m; f];
  ev_q2 : exists n f, 1 <= n /\ 2 <= f /\
    series_is data (block ++ ".state.q2") q2 [n; 1; f] /\ series_is data (block ++ ".costate.p_q2") p2 [n; 1; f];
  ev_d1 : exists m f, 1 <= m /\ 2 <= f /\ series_is data (block ++ ".data.q1") d1 [nr_of_data; m; f];
  ev_d2 : exists s, series_is data (block ++ ".data.q2") d2 s }.

(** True trajectories that can be drawn beside the given number of computed ones. *)
Definition comparable (val_y : option (list nat)) (nr_of_data : nat) : Prop :=
  match val_y with
  | None => True
  | Some s => exists times n m f, s = [times; n; m; f] /\ n <= nr_of_data /\ 1 <= m /\ 2 <= f
  end.

(** The picture at the evaluation [i]: the trajectories up to it, the particles at it. *)
Definition is_frame (t : list val) (q1 p1 q2 p2 d1 : list (tensor R)) (i : nat) (p : picture) : Prop :=
  exists ti a b c d, p = Frame i ti (firstn (S i) d1) a b c d /\ nth_error t i = Some ti /\
    nth_error q1 i = Some a /\ nth_error p1 i = Some b /\ nth_error q2 i = Some c /\ nth_error p2 i = Some d.

(** The number with five digits. *)
Definition five_digits (i : nat) : string :=
  string_of_list_ascii (map (fun n => ascii_of_nat (48 + n mod 10)) [i / 10 ^ 4; i / 10 ^ 3; i / 10 ^ 2; i / 10; i]).

(** The name of the file of a frame. *)
Definition frame_file (prefix : string) (i : nat) : string := (prefix ++ "-" ++ five_digits i)%string.

(** No files in the directory can be taken for frames. *)
Definition no_frames (dir prefix : string) (s : files picture) : Prop :=
  forall x, file_at (in_directory dir (prefix ++ "-" ++ x) "png") s = None.

(** ** [basic_visualize] *)

(** What a second-order model with particles, and results to be drawn, look like. *)
Record drawable (a : basic_args) : Prop := {
  dr_val : exists n times times' m f m' f', 1 <= m /\ 2 <= f /\ 1 <= m' /\ 2 <= f' /\
    ba_val_y a = Some [times; n; m; f] /\ ba_val_pred_y a = Some [times'; n; m'; f'];
  dr_train : ba_train_y a = None \/
    exists n times times' m f m' f', 1 <= m /\ 2 <= f /\ 1 <= m' /\ 2 <= f' /\
    ba_train_y a = Some [times; n; m; f] /\ ba_train_pred_y a = Some [times'; n; m'; f'];
  dr_losses : forall l, ba_losses a = Some l -> forall k, In k ["model_name"; "loss"; "sim_loss"; "norm_loss"; "par_norm"] -> In k l;
  dr_pars : forall l, ba_nr_of_pars a = Some l -> forall k, In k ["overall"; "fixed"; "optimized"] -> In k l }.

(** A second-order model with at least one particle, and states of two or more numbers. *)
Definition second_order (state : sdict (list nat)) : Prop :=
  exists n f1 f2, 1 <= n /\ 2 <= f1 /\ 2 <= f2 /\
    sd_get "q1" state = Some [n; 1; f1] /\ sd_get "p_q1" state = Some [n; 1; f1] /\
    sd_get "q2" state = Some [n; 1; f2] /\ sd_get "p_q2" state = Some [n; 1; f2].

(** The number with four digits. *)
Definition four_digits (i : nat) : string :=
  string_of_list_ascii (map (fun n => ascii_of_nat (48 + n mod 10)) [i / 10 ^ 3; i / 10 ^ 2; i / 10; i]).

(** The name of the figure of an iteration. *)
Definition iteration_file (base : string) (itr : nat) : string := ("basic-viz-" ++ base ++ "-iter-" ++ four_digits itr)%string.

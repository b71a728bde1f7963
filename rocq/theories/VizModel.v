(** Model of the other functions of neuro_shooting/vector_visualization.py (cited as
    vv.py) that the demos use: stacking recorded arrays, drawing trajectories and
    particles, [basic_visualize], and the frames and the animation of
    [visualize_time_evolution].

    Simplifications as in FigureModel; drawing is modelled by the conditions on the
    shapes under which it raises; particles have three axes, trajectories four (other
    numbers of axes are an IndexError here); titles are modelled as far as they can
    raise; the principal component analysis of vv.py:45-51 does not raise; [convert]
    makes an animation of the files it is given; names of directories and prefixes have no
    characters the shell treats specially. *)
From Coq Require Import String Ascii List Arith Bool Reals.
From Verif Require Import Base Tensor BlockModel CommandModel InitModel HooksModel FigureModel.
Import ListNotations.
Open Scope string_scope.
Open Scope nat_scope.
Open Scope list_scope.

(** ** Stacking *)

(** Whether an array of shape [v] can be assigned to one of shape [s] (numpy; both
    reversed; vv.py:204): each axis fits or has extent one, further axes have extent one. *)
Fixpoint assignable_rev (v s : list nat) : bool :=
  match v, s with
  | [], _ => true
  | 1 :: v', [] => assignable_rev v' []
  | _ :: _, [] => false
  | n :: v', m :: s' => ((n =? m) || (n =? 1)) && assignable_rev v' s'
  end.

(** The value assigned at an index (numpy; vv.py:204): axes of extent one are repeated. *)
Definition assigned (v : tensor R) (idx : list nat) : option R :=
  let r := rev (tshape v) in
  tget v (rev (bc_idx_rev (firstn (List.length idx) r) (rev idx) ++
               repeat 0 (List.length r - List.length idx))).

(** vv.py:196-207 [convert_list_of_np_arrays_into_np_array] *)
Definition convert_list_of_np_arrays_into_np_array (lofnp : list (tensor R)) : result (tensor R) :=
  match lofnp with
  | [] => Raise IndexError
  | v0 :: _ =>
      let sz := tshape v0 in
      if forallb (fun v => assignable_rev (rev (tshape v)) (rev sz)) lofnp
      then Ok (tgather (List.length lofnp :: sz)
                 (fun i => match i with
                           | n :: idx => match nth_error lofnp n with Some v => assigned v idx | None => None end
                           | [] => None
                           end))
      else Raise ValueError
  end.

(** ** Drawing *)

(** [a[:, n, 0, 0]] and [a[:, n, 0, 1]] of an array with four axes, for all [n] below
    [number] (vv.py:74-76, 79-81). *)
Definition drawable_lines (number : nat) (a : list nat) : result unit :=
  match a with
  | [_; n; d; f] => if (number =? 0) || ((number <=? n) && (1 <=? d) && (2 <=? f)) then Ok tt else Raise IndexError
  | _ => Raise IndexError
  end.

(** [a.shape[1]] (vv.py:74, 79). *)
Definition second_axis (a : list nat) : result nat := list_item a 1.

(** One pair of true and predicted trajectories (vv.py:73-76, 78-81): without the true ones
    nothing is drawn; without predicted ones indexing [None] is a TypeError. *)
Definition draw_pair (y pred : option (list nat)) : result unit :=
  match y with
  | None => Ok tt
  | Some y =>
      n <- second_axis y ;;
      match pred with
      | Some pred => _ <- drawable_lines n y ;; drawable_lines n pred
      | None => if n =? 0 then Ok tt else _ <- drawable_lines n y ;; Raise TypeError
      end
  end.

(** The entries read for the titles (vv.py:86-92). *)
Definition loss_keys : list string := ["model_name"; "loss"; "sim_loss"; "norm_loss"; "par_norm"].
(** The entries read for the number of parameters (vv.py:97). *)
Definition par_keys : list string := ["overall"; "fixed"; "optimized"].

(** vv.py:71-102 [plot_trajectories]; the dictionaries by their keys. *)
Definition plot_trajectories (val_y val_pred_y train_y train_pred_y : option (list nat))
    (losses_to_print nr_of_pars : option (list string)) : result unit :=
  let has (d : option (list string)) (ks : list string) :=
    match d with
    | None => Ok tt
    | Some d => if forallb (fun k => existsb (String.eqb k) d) ks then Ok tt else Raise KeyError
    end in
  _ <- draw_pair val_y val_pred_y ;;
  _ <- draw_pair train_y train_pred_y ;;
  _ <- has losses_to_print loss_keys ;;
  has nr_of_pars par_keys.

(** Positions with arrows at them, in the plane: [ax.plot], [ax.quiver] and the extrema
    for the title (vv.py:21-27, 63-68): the second column must exist, sizes must agree
    (ValueError of quiver), and there is no minimum of nothing (ValueError). *)
Definition draw_arrows (n d n' d' : nat) : result unit :=
  if (d <? 2) || (d' <? 2) then Raise IndexError
  else if negb (n =? n') then Raise ValueError
  else if n =? 0 then Raise ValueError
  else Ok tt.

(** vv.py:13-27 [plot_particles], on shapes *)
Definition plot_particles (q1 p_q1 : list nat) : result unit :=
  match q1, p_q1 with
  | [n; m; d], [n'; m'; d'] => if (m =? 0) || (m' =? 0) then Raise IndexError else draw_arrows n d n' d'
  | _, _ => Raise IndexError
  end.

(** vv.py:29-68 [plot_higher_order_state], on shapes; after the projection there are two
    components, and adding arrays that do not fit is a ValueError. *)
Definition plot_higher_order_state (q2 p_q2 : list nat) : result unit :=
  match q2, p_q2 with
  | [n; m; d], [n'; m'; d'] =>
      if negb (m =? 1) then Raise ValueError
      else if m' =? 0 then Raise IndexError
      else if (2 <? d) && (1 <? n) then
        if ((n' =? n) || (n' =? 1)) && ((d' =? d) || (d' =? 1)) then Ok tt else Raise ValueError
      else draw_arrows n d n' d'
  | _, _ => Raise IndexError
  end.

(** ** Pictures *)

(** What is drawn (vv.py:143-160, 256-267, 218): the trajectories and particles of [basic_visualize] in iteration
    [itr], a frame of the evolution at the time with a number, or an animation. *)
Inductive picture : Type :=
| Basic (itr : nat) (with_particles : bool)
| Frame (to_time_pt : nat) (t : val) (data_q1 : list (tensor R)) (q1 p_q1 q2 p_q2 : tensor R)
| Animation (frames : list picture).

(** Settings, files and what was shown on screen (vv.py:113-282). *)
Record vworld : Type := mkVworld { v_settings : settings; v_files : files picture; v_shown : list picture }.

(** A change of the settings (vv.py:124, 171). *)
Definition on_v_settings {A} (m : st settings A) : st vworld A :=
  st_on v_settings (fun s w => mkVworld s (v_files w) (v_shown w)) m.
(** A change of the files (vv.py:163, 242-244, 272, 282). *)
Definition on_v_files {A} (m : st (files picture) A) : st vworld A :=
  st_on v_files (fun s w => mkVworld (v_settings w) s (v_shown w)) m.
(** [plt.show()] (vv.py:168, 275). *)
Definition v_show (p : picture) : st vworld unit := fun w =>
  (mkVworld (v_settings w) (v_files w) (v_shown w ++ [p]), Ok tt).

(** The last [width] decimal digits of a number (Python; for vv.py:164, 270). *)
Fixpoint digits (width n : nat) : string :=
  match width with
  | O => ""
  | S w => (digits w (n / 10) ++ String (ascii_of_nat (48 + n mod 10)) "")%string
  end.

(** ['{:0wd}'.format(n)] (Python; vv.py:164, 270): at least [width] digits. *)
Definition padded (width n : nat) : string :=
  if n <? 10 ^ width then digits width n else str_nat n.

(** ** [basic_visualize] *)

(** The arguments of vv.py:113-115 that are drawn, by their shapes. *)
Record basic_args : Type := mkBasic {
  ba_state_dict : sdict (list nat);
  ba_val_y : option (list nat); ba_val_pred_y : option (list nat);
  ba_train_y : option (list nat); ba_train_pred_y : option (list nat);
  ba_itr : option nat;
  ba_uses_particles : bool;
  ba_losses : option (list string);
  ba_nr_of_pars : option (list string) }.

(** vv.py:134-160: the drawing *)
Definition basic_drawing (a : basic_args) : result unit :=
  _ <- plot_trajectories (ba_val_y a) (ba_val_pred_y a) (ba_train_y a) (ba_train_pred_y a)
         (ba_losses a) (ba_nr_of_pars a) ;;
  if ba_uses_particles a then
    q1 <- sd_item "q1" (ba_state_dict a) ;;
    p_q1 <- sd_item "p_q1" (ba_state_dict a) ;;
    q2 <- sd_item "q2" (ba_state_dict a) ;;
    p_q2 <- sd_item "p_q2" (ba_state_dict a) ;;
    _ <- plot_particles q1 p_q1 ;;
    plot_higher_order_state q2 p_q2
  else Ok tt.

(** vv.py:113-171 [_basic_visualize]; formatting [None] as a number is a TypeError. *)
Definition basic_visualize_ (a : basic_args) (args : option out_args) (visualize print : bool) : st vworld unit :=
  if visualize && print then st_lift (Raise ValueError)
  else if negb visualize && negb print then st_ret tt
  else
    previous <~ (if print then p <~ on_v_settings setup_pgf_plotting ;; st_ret (Some p) else st_ret None) ;;
    _ <~ st_lift (basic_drawing a) ;;
    let pic := Basic (match ba_itr a with Some i => i | None => 0 end) (ba_uses_particles a) in
    _ <~ (if print then
            match args, ba_itr a with
            | None, _ => st_lift (Raise AttributeError)
            | Some _, None => st_lift (Raise TypeError)
            | Some (output_directory, output_basename), Some itr =>
                on_v_files (save_all_formats pic output_directory
                  ("basic-viz-" ++ output_basename ++ "-iter-" ++ padded 4 itr)%string)
            end
          else st_ret tt) ;;
    _ <~ (if visualize then v_show pic else st_ret tt) ;;
    match previous with
    | Some (backend, rcsettings) => on_v_settings (reset_pgf_plotting backend rcsettings)
    | None => st_ret tt
    end.

(** vv.py:174-194 [basic_visualize] *)
Definition basic_visualize (a : basic_args) (args : option viz_args) : st vworld unit :=
  match args with
  | None => basic_visualize_ a None true false
  | Some v =>
      _ <~ (if v_viz v then basic_visualize_ a (Some (v_out v)) true false else st_ret tt) ;;
      if v_save_figures v then basic_visualize_ a (Some (v_out v)) false true else st_ret tt
  end.

(** ** [visualize_time_evolution] *)

(** The arrays recorded under a name; numbers are arrays without axes
    (vv.py:229-235). *)
Definition arrays (k : string) (data : record) : list (tensor R) :=
  map (fun v => match v with VNum x => mkT [] [x] | VTen t => t end) (series k data).

(** [a[i, ...]] (vv.py:257-260) *)
Definition slice (i : nat) (a : tensor R) : result (tensor R) :=
  match tshape a with
  | n :: s => if i <? n then Ok (tgather s (fun idx => tget a (i :: idx))) else Raise IndexError
  | [] => Raise IndexError
  end.

(** [a[0:n, ...]] (vv.py:256), as the list of its rows. *)
Definition rows_until (n : nat) (a : tensor R) : result (list (tensor R)) :=
  match tshape a with
  | m :: _ => mapM (fun i => slice i a) (seq 0 (Nat.min n m))
  | [] => Raise IndexError
  end.

(** vv.py:256-267: one frame.  The title formats the time, a number. *)
Definition frame (val_y : option (list nat)) (t : list val) (q1 p_q1 q2 p_q2 data_q1 : tensor R) (to_time_pt : nat) :
    result picture :=
  current_data_q1 <- rows_until (S to_time_pt) data_q1 ;;
  current_q1 <- slice to_time_pt q1 ;;
  current_p_q1 <- slice to_time_pt p_q1 ;;
  current_q2 <- slice to_time_pt q2 ;;
  current_p_q2 <- slice to_time_pt p_q2 ;;
  time <- list_item t to_time_pt ;;
  _ <- plot_trajectories val_y (Some (List.length current_data_q1 :: tl (tshape data_q1))) None None None None ;;
  _ <- plot_particles (tshape current_q1) (tshape current_p_q1) ;;
  _ <- plot_higher_order_state (tshape current_q2) (tshape current_p_q2) ;;
  Ok (Frame to_time_pt time current_data_q1 current_q1 current_p_q1 current_q2 current_p_q2).

(** Inserting a name into a strictly increasing list (for the expansion of a pattern by
    the shell, vv.py:212, 218). *)
Fixpoint insert_name (n : string) (l : list string) : list string :=
  match l with
  | [] => [n]
  | m :: r => if str_ltb n m then n :: l else if String.eqb n m then l else m :: insert_name n r
  end.

(** Whether a name is [prefix-*.png] (shell; vv.py:282). *)
Definition matches (file_prefix name : string) : bool :=
  let head := (file_prefix ++ "-")%string in
  String.prefix head name &&
  (String.length head + 4 <=? String.length name) &&
  String.eqb (substring (String.length name - 4) 4 name) ".png".

(** The pattern [directory/prefix-*.png] expanded by the shell (vv.py:212, 218, 282): the
    names in the directory that match, in increasing order. *)
Definition expand (directory : path) (file_prefix : string) (s : files picture) : list string :=
  fold_right insert_name []
    (filter (matches file_prefix)
       (flat_map (fun f => if path_eqb (removelast (fst f)) directory then [last (fst f) ""] else []) (f_files s))).

(** Removing a file (operating system; vv.py:214-215). *)
Definition remove (p : path) (s : files picture) : files picture :=
  mkFiles (f_dirs s) (filter (fun f => negb (path_eqb p (fst f))) (f_files s)).

(** vv.py:208-220 [create_animated_gif]; [has_convert] tells whether the program [convert]
    exists; it writes no file if no picture matches. *)
Definition create_animated_gif (has_convert : bool) (directory : path) (file_prefix : string) (out_filename : path) :
    st (files picture) unit := fun s =>
  if has_convert then
    let s := remove out_filename s in
    let pictures := flat_map (fun n => match file_at (directory ++ [n]) s with Some c => [fst c] | None => [] end)
                      (expand directory file_prefix s) in
    match pictures with
    | [] => (s, Ok tt)
    | _ => (fst (write out_filename (Animation pictures, "gif") s), Ok tt)
    end
  else (s, Ok tt).

(** vv.py:248-278: the loop over the frames; on screen it ends when [max_display] is
    reached. *)
Fixpoint frames_loop (draw : nat -> result picture) (save_to_directory : option string) (file_prefix : string)
    (max_display : nat) (l : list nat) : st vworld unit :=
  match l with
  | [] => st_ret tt
  | itr :: r =>
      pic <~ st_lift (draw itr) ;;
      match save_to_directory with
      | Some d =>
          _ <~ on_v_files (savefig pic (path_join d (file_prefix ++ "-" ++ padded 5 itr ++ ".png")%string)) ;;
          frames_loop draw save_to_directory file_prefix max_display r
      | None =>
          _ <~ v_show pic ;;
          if max_display <=? itr then st_ret tt
          else frames_loop draw save_to_directory file_prefix max_display r
      end
  end.

(** vv.py:222-282 [visualize_time_evolution].  Stacking [data_q2] is only checked for
    exceptions, it is not used. *)
Definition visualize_time_evolution (has_convert : bool) (val_y : option (list nat)) (data : record) (block_name : string)
    (max_display : nat) (save_to_directory : option string) (file_prefix : string) : st vworld unit :=
  let stacked k := st_lift (convert_list_of_np_arrays_into_np_array (arrays k data)) in
  let t := series "t" data in
  q1 <~ stacked (block_name ++ ".state.q1")%string ;;
  p_q1 <~ stacked (block_name ++ ".costate.p_q1")%string ;;
  q2 <~ stacked (block_name ++ ".state.q2")%string ;;
  p_q2 <~ stacked (block_name ++ ".costate.p_q2")%string ;;
  data_q1 <~ stacked (block_name ++ ".data.q1")%string ;;
  data_q2 <~ stacked (block_name ++ ".data.q2")%string ;;
  _ <~ (match save_to_directory with
        | Some d => on_v_files (fun s => if path_exists d s then (s, Ok tt) else mkdir d s)
        | None => st_ret tt
        end) ;;
  _ <~ frames_loop (frame val_y t q1 p_q1 q2 p_q2 data_q1) save_to_directory file_prefix max_display
         (seq 0 (List.length t)) ;;
  match save_to_directory with
  | Some d => on_v_files (create_animated_gif has_convert (parse_path d) file_prefix
                            (parse_path ("animated-" ++ file_prefix ++ ".gif")%string))
  | None => st_ret tt
  end.

(** [basic_visualize]: what is shown, what is saved, and which settings remain. *)
From Coq Require Import String Ascii List Arith Bool Reals Lia.
From Verif Require Import Base Tensor HooksModel CommandModel FigureModel FigureSpec FigureFileProofs FigureTemporalProofs
  VizModel VizSpec VizNameProofs VizEvolutionProofs.
Import ListNotations.
Open Scope string_scope.
Open Scope nat_scope.
Open Scope list_scope.

Lemma pair_ok n times times' m f m' f' : 1 <= m -> 2 <= f -> 1 <= m' -> 2 <= f' ->
  draw_pair (Some [times; n; m; f]) (Some [times'; n; m'; f']) = Ok tt.
Proof.
  intros. unfold draw_pair, second_axis, list_item. cbn [nth_error bind].
  rewrite lines_ok by (assumption || lia). cbn [bind]. apply lines_ok; assumption || lia.
Qed.

Lemma keys_ok (d : list string) ks : (forall k, In k ks -> In k d) -> forallb (fun k => existsb (String.eqb k) d) ks = true.
Proof.
  intros H. apply forallb_forall. intros k K. apply existsb_exists. exists k. split; [apply H; exact K|apply String.eqb_refl].
Qed.

Lemma basic_drawing_ok a : drawable a -> (ba_uses_particles a = true -> second_order (ba_state_dict a)) ->
  basic_drawing a = Ok tt.
Proof.
  intros [V Tr Lo Pa] P. unfold basic_drawing, plot_trajectories.
  destruct V as (n & times & times' & m & f & m' & f' & A & B & C & D & -> & ->). rewrite pair_ok by assumption. cbn [bind].
  assert (X : draw_pair (ba_train_y a) (ba_train_pred_y a) = Ok tt).
  { destruct Tr as [->|(n1 & t1 & t1' & m1 & f1 & m1' & f1' & A1 & B1 & C1 & D1 & -> & ->)]; [reflexivity|].
    apply pair_ok; assumption. }
  rewrite X. cbn [bind].
  assert (L1 : match ba_losses a with None => Ok tt | Some d => if forallb (fun k => existsb (String.eqb k) d) loss_keys then Ok tt else Raise KeyError end = Ok tt).
  { destruct (ba_losses a) as [d|]; [|reflexivity]. rewrite keys_ok; [reflexivity|]. apply Lo. reflexivity. }
  assert (L2 : match ba_nr_of_pars a with None => Ok tt | Some d => if forallb (fun k => existsb (String.eqb k) d) par_keys then Ok tt else Raise KeyError end = Ok tt).
  { destruct (ba_nr_of_pars a) as [d|]; [|reflexivity]. rewrite keys_ok; [reflexivity|]. apply Pa. reflexivity. }
  rewrite L1. cbn [bind]. rewrite L2. cbn [bind].
  destruct (ba_uses_particles a); [|reflexivity].
  destruct (P eq_refl) as (n1 & f1 & f2 & N1 & F1 & F2 & G1 & G2 & G3 & G4).
  unfold sd_item. rewrite G1, G2, G3, G4. cbn [bind]. rewrite particles_ok by (assumption || lia). cbn [bind].
  apply higher_ok; assumption.
Qed.

Lemma basic_shown a args w : basic_drawing a = Ok tt ->
  basic_visualize_ a args true false w =
    (mkVworld (v_settings w) (v_files w)
       (v_shown w ++ [Basic (match ba_itr a with Some i => i | None => 0 end) (ba_uses_particles a)]), Ok tt).
Proof.
  intros D. unfold basic_visualize_. cbn [andb negb].
  rewrite (bind_run (st_ret None) _ _ w None eq_refl). rewrite (VizEvolutionProofs.bind_lift _ _ _ _ D). reflexivity.
Qed.

(** ** Settings *)

Lemma v_bind_ok {S A B} (m : st S A) (f : A -> st S B) w w' b :
  st_bind m f w = (w', Ok b) -> exists w1 a, m w = (w1, Ok a) /\ f a w1 = (w', Ok b).
Proof.
  unfold st_bind. destruct (m w) as [w1 [a|e]]; [|discriminate]. intros E. exists w1, a. split; [reflexivity|exact E].
Qed.

Lemma v_files_keep {A} (m : st (files picture) A) w : v_settings (fst (on_v_files m w)) = v_settings w.
Proof. unfold on_v_files, st_on. destruct (m (v_files w)). reflexivity. Qed.

Lemma basic_print_restores a args w w' : basic_visualize_ a args false true w = (w', Ok tt) ->
  same_settings (v_settings w) (v_settings w').
Proof.
  unfold basic_visualize_. cbn [andb negb]. intros E.
  apply v_bind_ok in E. destruct E as (w1 & prev & E1 & E).
  apply v_bind_ok in E1. destruct E1 as (w0 & pv & E0 & E1). injection E1 as <- <-.
  apply v_bind_ok in E. destruct E as (w2 & [] & E2 & E). injection E2 as <- _.
  apply v_bind_ok in E. destruct E as (w3 & [] & E3 & E).
  apply v_bind_ok in E. destruct E as (w4 & [] & E4 & E). injection E4 as <-.
  assert (K : v_settings w3 = v_settings w0).
  { destruct args as [[d b]|]; [|discriminate E3]. destruct (ba_itr a) as [itr|]; [|discriminate E3].
    pose proof (v_files_keep (save_all_formats (Basic itr (ba_uses_particles a)) d
      ("basic-viz-" ++ b ++ "-iter-" ++ padded 4 itr)%string) w0) as K. rewrite E3 in K. exact K. }
  unfold on_v_settings, st_on in E0. destruct (setup_pgf_plotting (v_settings w)) as [s1 r] eqn:SU. injection E0 as <- ->.
  destruct pv as [backend rc]. unfold on_v_settings, st_on in E. cbn [v_settings] in K. rewrite K in E.
  destruct (round_trip _ _ _ _ SU s1) as (s' & R & RB & RK & RO). rewrite R in E. injection E as <-.
  cbn [v_settings]. split; [exact RB|]. intros k.
  destruct (in_dec string_dec k pgf_keys) as [I|N]; [apply RK; exact I|].
  rewrite RO by exact N. destruct (setup_effect _ _ _ SU) as (_ & _ & O). apply O. exact N.
Qed.

Lemma basic_show_keeps a args w : v_settings (fst (basic_visualize_ a args true false w)) = v_settings w.
Proof.
  unfold basic_visualize_. cbn [andb negb]. rewrite (bind_run (st_ret None) _ _ w None eq_refl).
  unfold st_bind, st_lift. destruct (basic_drawing a); reflexivity.
Qed.

Lemma basic_restores a args w w' : basic_visualize a args w = (w', Ok tt) -> same_settings (v_settings w) (v_settings w').
Proof.
  assert (SH : forall o u u', basic_visualize_ a o true false u = (u', Ok tt) -> v_settings u' = v_settings u).
  { intros o u u' E. pose proof (basic_show_keeps a o u) as K. rewrite E in K. exact K. }
  unfold basic_visualize. destruct args as [v|]; [|intros E; rewrite (SH _ _ _ E); split; reflexivity].
  intros E. apply v_bind_ok in E. destruct E as (w1 & [] & E1 & E).
  assert (S1 : v_settings w1 = v_settings w).
  { destruct (v_viz v); [exact (SH _ _ _ E1)|]. injection E1 as <-. reflexivity. }
  rewrite <- S1. destruct (v_save_figures v); [exact (basic_print_restores _ _ _ _ E)|].
  injection E as <-. split; reflexivity.
Qed.

(** ** Saving *)

Lemma four i : i < 10 ^ 4 -> padded 4 i = four_digits i.
Proof.
  intros H. unfold padded. rewrite (proj2 (Nat.ltb_lt _ _) H). unfold four_digits.
  cbn [digits append map string_of_list_ascii]. rewrite !Nat.div_div by discriminate. reflexivity.
Qed.

Lemma iteration_simple base i : i < 10 ^ 4 -> ~ In "/"%char (list_ascii_of_string base) -> simple_name (iteration_file base i).
Proof.
  intros I N. unfold iteration_file. rewrite <- four by exact I. unfold padded. rewrite (proj2 (Nat.ltb_lt _ _) I). split.
  - rewrite !chars_app, !in_app_iff. intros [H|[H|[H|H]]]; [|exact (N H)| |exact (digits_no_slash _ _ H)];
      cbn in H; repeat destruct H as [H|H]; try discriminate H; contradiction.
  - exists "b"%char. split; [left; reflexivity|discriminate].
Qed.

Lemma setup_run s f sh s1 prev : setup_pgf_plotting s = (s1, Ok prev) ->
  (p <~ on_v_settings setup_pgf_plotting ;; st_ret (Some p)) (mkVworld s f sh) = (mkVworld s1 f sh, Ok (Some prev)).
Proof. intros H. unfold st_bind, on_v_settings, st_on. cbn [v_settings v_files v_shown]. rewrite H. reflexivity. Qed.

Lemma basic_saved a dir base itr w : basic_drawing a = Ok tt -> ba_itr a = Some itr -> itr < 10 ^ 4 ->
  dir <> "" -> ~ In "/"%char (list_ascii_of_string base) -> usable dir (v_files w) ->
  (forall f, In f ["png"; "pdf"; "pgf"] -> is_dir (in_directory dir (iteration_file base itr) f) (v_files w) = false) ->
  (forall k, In k pgf_keys -> exists v, sd_get k (s_rc (v_settings w)) = Some v) ->
  exists w', basic_visualize_ a (Some (dir, base)) false true w = (w', Ok tt) /\
    same_settings (v_settings w) (v_settings w') /\ v_shown w' = v_shown w /\
    saved (Basic itr (ba_uses_particles a)) dir (iteration_file base itr) (v_files w) (v_files w').
Proof.
  intros D I L NE NB U ND K.
  destruct (save_ok (Basic itr (ba_uses_particles a)) dir (iteration_file base itr) (v_files w) NE
              (iteration_simple base itr L NB) U ND) as (f' & E & Sv).
  destruct w as [s f sh]. cbn [v_settings v_files v_shown] in *.
  destruct (setup_cases s) as [[(k & Ik & Nk) _]|(x1 & x2 & x3 & x4 & x5 & _ & SU)].
  { destruct (K k Ik) as [v V]. congruence. }
  match type of SU with _ = (?s1, Ok (?b, ?rc)) => set (s1v := s1) in *; set (rcv := rc) in * end.
  destruct (round_trip _ _ _ _ SU s1v) as (s' & R & RB).
  assert (X : basic_visualize_ a (Some (dir, base)) false true (mkVworld s f sh) = (mkVworld s' f' sh, Ok tt)).
  { unfold basic_visualize_. cbn [andb negb].
    rewrite (bind_run _ _ _ _ _ (setup_run s f sh _ _ SU)).
    rewrite (VizEvolutionProofs.bind_lift _ _ _ _ D), I. erewrite bind_run.
    2: { apply on_files_run. rewrite four by exact L. exact E. }
    erewrite bind_run; [|reflexivity].
    unfold on_v_settings, st_on. cbn [v_settings v_files v_shown]. rewrite R. reflexivity. }
  exists (mkVworld s' f' sh). split; [exact X|]. cbn [v_settings v_files v_shown].
  split; [apply (basic_print_restores _ _ _ _ X)|]. split; [reflexivity|exact Sv].
Qed.

(** ** Models without a second state *)

Lemma missing_state a args w p q1 p1 : basic_drawing (mkBasic (ba_state_dict a) (ba_val_y a) (ba_val_pred_y a) (ba_train_y a) (ba_train_pred_y a)
    (ba_itr a) false (ba_losses a) (ba_nr_of_pars a)) = Ok tt ->
  ba_uses_particles a = true -> sd_get "q1" (ba_state_dict a) = Some q1 -> sd_get "p_q1" (ba_state_dict a) = Some p1 ->
  sd_get "q2" (ba_state_dict a) = None -> setup_pgf_plotting (v_settings w) = p ->
  snd (basic_visualize_ a args true false w) = Raise KeyError /\
  forall s1 prev, p = (s1, Ok prev) ->
    basic_visualize_ a args false true w = (mkVworld s1 (v_files w) (v_shown w), Raise KeyError).
Proof.
  intros D P G1 G2 G3 SU.
  assert (X : basic_drawing a = Raise KeyError).
  { unfold basic_drawing in *. cbn [ba_val_y ba_val_pred_y ba_train_y ba_train_pred_y ba_uses_particles ba_losses ba_nr_of_pars] in D.
    destruct (plot_trajectories _ _ _ _ _ _) as [[]|e]; cbn [bind] in *; [|discriminate].
    rewrite P. unfold sd_item. rewrite G1, G2, G3. reflexivity. }
  split.
  - unfold basic_visualize_. cbn [andb negb]. rewrite (bind_run (st_ret None) _ _ w None eq_refl).
    unfold st_bind, st_lift. rewrite X. reflexivity.
  - intros s1 prev Ep. subst p. unfold basic_visualize_. cbn [andb negb].
    destruct w as [s f sh]. cbn [v_settings v_files v_shown] in *. rewrite (bind_run _ _ _ _ _ (setup_run s f sh _ _ Ep)).
    unfold st_bind, st_lift. rewrite X. reflexivity.
Qed.

Lemma drawable_shown a args w : drawable a -> (ba_uses_particles a = true -> second_order (ba_state_dict a)) ->
  basic_visualize_ a args true false w =
    (mkVworld (v_settings w) (v_files w)
       (v_shown w ++ [Basic (match ba_itr a with Some i => i | None => 0 end) (ba_uses_particles a)]), Ok tt).
Proof. intros D P. apply basic_shown, basic_drawing_ok; assumption. Qed.

Lemma drawable_saved a dir base itr w : drawable a -> (ba_uses_particles a = true -> second_order (ba_state_dict a)) ->
  ba_itr a = Some itr -> itr < 10 ^ 4 ->
  dir <> "" -> ~ In "/"%char (list_ascii_of_string base) -> usable dir (v_files w) ->
  (forall f, In f ["png"; "pdf"; "pgf"] -> is_dir (in_directory dir (iteration_file base itr) f) (v_files w) = false) ->
  (forall k, In k pgf_keys -> exists v, sd_get k (s_rc (v_settings w)) = Some v) ->
  exists w', basic_visualize_ a (Some (dir, base)) false true w = (w', Ok tt) /\
    same_settings (v_settings w) (v_settings w') /\ v_shown w' = v_shown w /\
    saved (Basic itr (ba_uses_particles a)) dir (iteration_file base itr) (v_files w) (v_files w').
Proof. intros D P. apply basic_saved, basic_drawing_ok; assumption. Qed.

Lemma bind_ret {S} (m : st S unit) w : st_bind (st_ret tt) (fun _ => m) w = m w.
Proof. reflexivity. Qed.
Lemma ret_bind {S} (m : st S unit) w : st_bind m (fun _ => st_ret tt) w = m w.
Proof. unfold st_bind, st_ret. destruct (m w) as [w1 [[]|e]]; reflexivity. Qed.

Lemma basic_options a w :
  basic_visualize a None w = basic_visualize_ a None true false w /\
  (forall o, basic_visualize a (Some (mkViz false false o)) w = (w, Ok tt)) /\
  (forall o, basic_visualize a (Some (mkViz true false o)) w = basic_visualize_ a (Some o) true false w) /\
  (forall o, basic_visualize a (Some (mkViz false true o)) w = basic_visualize_ a (Some o) false true w).
Proof.
  split; [reflexivity|]. split; [reflexivity|].
  split; intros o; unfold basic_visualize; cbn [v_viz v_save_figures v_out]; [apply ret_bind|apply bind_ret].
Qed.

(** Property C135: a run trains exactly the parameters of its model. *)
From Coq Require Import List String ZArith QArith Bool Lia.
From Verif Require Import Base ArgparseModel ExperimentModel CirclesModel ImagesModel SetupModel SetupSpec TrainedModel TrainedSpec SweepModel TrainedProofs3 TrainedProofs4.
Import ListNotations.
Open Scope string_scope.
Open Scope list_scope.
Open Scope nat_scope.

(** C135 for spiral.py: Adam gets each parameter of the block once, frozen ones included, with the learning rate asked for. *)
Theorem C135_spiral : forall words ns end_,
  parse_args spiral_parser words = Some ns -> ~ both_modes ns -> positive_sizes ns ->
  exists m ps lr, spiral_setup ns end_ = Ok m /\ pd_get "lr" ns = Some (ANum lr) /\
    trains_with lr ([mkGroup ps lr 0], Plateau (1 # 10)) (spiral_training ns m) /\ block_trained ns 2 ps.
Proof. exact spiral_trained. Qed.
Print Assumptions C135_spiral.

(** C135 for simple_functional_mapping_example.py. *)
Theorem C135_mapping : forall words ns,
  parse_args mapping_parser words = Some ns -> ~ both_modes ns -> ~ model_is ns "universal" -> positive_sizes ns ->
  exists m ps lr, mapping_setup ns = Ok m /\ pd_get "lr" ns = Some (ANum lr) /\
    trains_with lr ([mkGroup ps lr 0], Plateau (1 # 2)) (mapping_training ns m) /\ block_trained ns 1 ps.
Proof. exact mapping_trained. Qed.
Print Assumptions C135_mapping.

(** C135 for cc.py: block and classifier, the weights of the latter decay as asked. *)
Theorem C135_circles : forall words ns,
  parse_args cc_parser words = Some ns -> positive_sizes ns ->
  exists m d ps lr decay n, image_setup true ns = Ok m /\ pd_get "shooting_dim" ns = Some (AInt d) /\ pd_get "lr" ns = Some (ANum lr) /\
    pd_get "cls_weight_decay" ns = Some (ANum decay) /\ pd_get "niters" ns = Some (AInt n) /\
    trains_with lr ([mkGroup (prefixed "blk." ps) lr 0;
                     mkGroup [("cls.0.weight", [2]); ("cls.0.bias", [2]); ("cls.1.weight", [1; 2])]%Z lr decay], Cosine n) (cc_training ns m) /\
    block_trained ns d ps.
Proof. exact cc_trained. Qed.
Print Assumptions C135_circles.

(** C135 for rot.py: encoder, decoder and block, each parameter once. *)
Theorem C135_rotation : forall words ns,
  parse_args rot_parser words = Some ns -> positive_sizes ns ->
  exists m d ps all lr n, image_setup false ns = Ok m /\ pd_get "shooting_dim" ns = Some (AInt d) /\ pd_get "lr" ns = Some (ANum lr) /\
    pd_get "niters" ns = Some (AInt n) /\ trains_with lr ([mkGroup all lr 0], Cosine n) (image_training 1 8 ns m) /\
    block_trained ns d ps /\ NoDup (map fst all) /\
    (forall x s, In (("blk." ++ x)%string, s) all <-> In (x, s) ps) /\
    entries all = (99985 + 1025 * d + entries ps)%Z.
Proof. exact rot_trained. Qed.
Print Assumptions C135_rotation.

(** C135 for balls.py. *)
Theorem C135_balls : forall words ns,
  parse_args balls_parser words = Some ns -> positive_sizes ns ->
  exists m d ps all lr n, image_setup true ns = Ok m /\ pd_get "shooting_dim" ns = Some (AInt d) /\ pd_get "lr" ns = Some (ANum lr) /\
    pd_get "niters" ns = Some (AInt n) /\ trains_with lr ([mkGroup all lr 0], Cosine n) (image_training 3 16 ns m) /\
    block_trained ns d ps /\ NoDup (map fst all) /\
    (forall x s, In (("blk." ++ x)%string, s) all <-> In (x, s) ps) /\
    entries all = (397633 + 2049 * d + entries ps)%Z.
Proof. exact balls_trained. Qed.
Print Assumptions C135_balls.

(** The numbers of parameters saved with the results: the overall number, of which the positions of particles count as
    fixed if they are still frozen at the end. *)
Theorem C135_spiral_saved : forall words ns end_,
  parse_args spiral_parser words = Some ns -> ~ both_modes ns -> positive_sizes ns ->
  exists m ps n fixed, spiral_setup ns end_ = Ok m /\ block_trained ns 2 ps /\ pd_get "nr_of_particles" ns = Some (AInt n) /\
    saved_numbers ns m = Ok (fixed, entries ps - fixed, entries ps)%Z /\
    (stays_frozen ns -> fixed = (n * 2)%Z) /\ (~ stays_frozen ns -> fixed = 0%Z).
Proof. exact spiral_saved. Qed.
Print Assumptions C135_spiral_saved.

Theorem C135_mapping_saved : forall words ns,
  parse_args mapping_parser words = Some ns -> ~ both_modes ns -> ~ model_is ns "universal" -> positive_sizes ns ->
  exists m ps n fixed, mapping_setup ns = Ok m /\ block_trained ns 1 ps /\ pd_get "nr_of_particles" ns = Some (AInt n) /\
    saved_numbers ns m = Ok (fixed, entries ps - fixed, entries ps)%Z /\
    (stays_frozen ns -> fixed = n) /\ (~ stays_frozen ns -> fixed = 0%Z).
Proof. exact mapping_saved. Qed.
Print Assumptions C135_mapping_saved.

(** A run of spiral.py with 15 particles, which stay where they are for the 3 epochs: 30 of 1020 values are fixed. *)
Example C135_case : exists ns m ps, parse_args spiral_parser
    ["--shooting_model"; "updown_universal"; "--nr_of_particles"; "15"; "--inflation_factor"; "16"; "--niters"; "3";
     "--custom_parameter_freezing"; "--unfreeze_parameters_at_iter"; "7"] = Some ns /\ ~ both_modes ns /\ positive_sizes ns /\ stays_frozen ns /\
  spiral_setup ns 10 = Ok m /\ saved_numbers ns m = Ok (30, 990, 1020)%Z /\
  spiral_training ns m = Ok ([mkGroup ps (5 # 100) 0], Plateau (1 # 10)) /\
  ps = [("q1", [15; 1; 2]); ("q2", [15; 1; 32]); ("p_q1", [15; 1; 2]); ("p_q2", [15; 1; 32])]%Z.
Proof.
  eexists. eexists. eexists. split; [vm_compute; reflexivity|]. split; [intros (H & _); vm_compute in H; discriminate|]. split.
  { intros o z [<-|[<-|[<-|[]]]] H; vm_compute in H; try discriminate; injection H as <-; lia. }
  split. { split; [reflexivity|]. split; [reflexivity|]. exists 7%Z, 3%Z. split; [reflexivity|]. split; [reflexivity|]. lia. }
  split; [vm_compute; reflexivity|]. split; [vm_compute; reflexivity|]. split; vm_compute; reflexivity.
Qed.

(** A particle-free run with two time steps and a linear map for the data: 2 * (2 * 2 * 4 + 2 + 4) + 12 values. *)
Example C135_case_free : exists ns m, parse_args spiral_parser
    ["--shooting_model"; "updown"; "--inflation_factor"; "2"; "--use_particle_free_time_dependent_mode";
     "--nr_of_particle_free_time_dependent_steps"; "2"; "--optimize_over_data_initial_conditions"] = Some ns /\ ~ both_modes ns /\ positive_sizes ns /\
  spiral_setup ns 10 = Ok m /\ saved_numbers ns m = Ok (0, 56, 56)%Z.
Proof.
  eexists. eexists. split; [vm_compute; reflexivity|]. split; [intros (H & _); vm_compute in H; discriminate|]. split.
  { intros o z [<-|[<-|[<-|[]]]] H; vm_compute in H; try discriminate; injection H as <-; lia. }
  split; vm_compute; reflexivity.
Qed.

(** The other scripts with the options they are run with by default (20-dimensional codes, 25 particles). *)
Example C135_case_images : exists ns m all, parse_args rot_parser [] = Some ns /\ positive_sizes ns /\ image_setup false ns = Ok m /\
  image_training 1 8 ns m = Ok ([mkGroup all (1 # 100) 0], Cosine 500) /\ entries all = (99985 + 1025 * 20 + 2 * 25 * 120)%Z.
Proof.
  eexists. eexists. eexists. split; [vm_compute; reflexivity|]. split.
  { intros o z [<-|[<-|[<-|[]]]] H; vm_compute in H; try discriminate; injection H as <-; lia. }
  split; [vm_compute; reflexivity|]. split; vm_compute; reflexivity.
Qed.
Example C135_case_circles : exists ns m, parse_args cc_parser ["--shooting_dim"; "2"] = Some ns /\ positive_sizes ns /\
  image_setup true ns = Ok m /\ exists t, cc_training ns m = Ok t.
Proof.
  eexists. eexists. split; [vm_compute; reflexivity|]. split.
  { intros o z [<-|[<-|[<-|[]]]] H; vm_compute in H; try discriminate; injection H as <-; lia. }
  split; [vm_compute; reflexivity|]. eexists. vm_compute. reflexivity.
Qed.
Example C135_case_mapping : exists ns m, parse_args mapping_parser ["--shooting_model"; "dampened_updown"] = Some ns /\ ~ both_modes ns /\
  ~ model_is ns "universal" /\ positive_sizes ns /\ mapping_setup ns = Ok m /\ exists t, mapping_training ns m = Ok t.
Proof.
  eexists. eexists. split; [vm_compute; reflexivity|]. split; [intros (H & _); vm_compute in H; discriminate|].
  split; [intros H; vm_compute in H; discriminate|]. split.
  { intros o z [<-|[<-|[<-|[]]]] H; vm_compute in H; try discriminate; injection H as <-; lia. }
  split; [vm_compute; reflexivity|]. eexists. vm_compute. reflexivity.
Qed.

(** The learning rate can be given in scientific notation, for all five scripts. *)
Theorem C135_learning_rate : forall p a k, In p [spiral_parser; mapping_parser; cc_parser; rot_parser; balls_parser] -> exists ns q,
  parse_args p ["--lr"; (dec_nat a ++ "e-" ++ dec_nat k)%string] = Some ns /\ pd_get "lr" ns = Some (ANum q) /\
  (q == inject_Z (Z.of_nat a) / 10 ^ Z.of_nat k)%Q.
Proof. exact learning_rates. Qed.
Print Assumptions C135_learning_rate.

Example C135_case_rate : (dec_nat 5 ++ "e-" ++ dec_nat 3)%string = "5e-3" /\ exists ns, parse_args cc_parser ["--lr"; "5e-3"] = Some ns /\
  pd_get "lr" ns = Some (ANum (5 # 1000)).
Proof. split; [reflexivity|]. eexists. split; vm_compute; reflexivity. Qed.
(** A negative rate on the command line. *)
Example C135_case_negative : exists ns m, parse_args spiral_parser ["--lr"; "-0.5"] = Some ns /\ spiral_setup ns 10 = Ok m /\
  pd_get "lr" ns = Some (ANum (-5 # 10)) /\ spiral_training ns m = Raise ValueError.
Proof. eexists. eexists. split; [vm_compute; reflexivity|]. split; [vm_compute; reflexivity|]. split; vm_compute; reflexivity. Qed.

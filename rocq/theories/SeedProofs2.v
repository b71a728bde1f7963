From Coq Require Import List String ZArith QArith Reals Bool Lia Lra.
From Verif Require Import Base BaseFacts ArgparseModel ExperimentModel RecordModel SphereModel CirclesModel
  SeedModel SeedSpec SeedProofs.
Import ListNotations.
Open Scope string_scope.
Open Scope list_scope.
Open Scope nat_scope.

(** Generators for the witness: Python's gives 0 first, then 1/4; torch's always ones. *)
Definition w_seed (s : Z) : nat := Z.to_nat s.
Definition w_uniform (g : nat) : R * nat := (match g with 0 => 0%R | _ => (1 / 4)%R end, S g).
Definition w_randn (n : nat) (g : nat) : list R * nat := (repeat 1%R n, g).
Notation wg := (gens nat nat nat).

Definition w_radius (u : R) : R := if Req_EM_T u 0 then 0%R else Rpower u (1 / INR 2).
Definition w_point (range : R * R) (u : R) : list R :=
  map (fun x => (((snd range - fst range) * w_radius u + fst range) * (x / norm2 [1; 1]))%R) [1%R; 1%R].

Lemma norm_ones : (0 < norm2 [1; 1])%R.
Proof. unfold norm2. cbn. apply sqrt_lt_R0. lra. Qed.

Lemma w_draw_point : forall range a b c,
  draw_point nat nat nat w_uniform w_randn 2 range (mkGens _ _ _ a b c)
  = (Ok (w_point range (fst (w_uniform a))), mkGens _ _ _ (S a) b c).
Proof.
  intros range a b c. unfold draw_point, then_, draw_py, draw_torch, pure, w_uniform, w_randn.
  cbn [g_py g_np g_torch root repeat fst]. unfold random_point_in_sphere. cbn [root bind].
  destruct (Req_EM_T (norm2 [1%R; 1%R]) 0) as [E|E]; [pose proof norm_ones; lra|]. reflexivity.
Qed.

Lemma w_draw_points : forall n range label a b c, exists l,
  draw_points nat nat nat w_uniform w_randn n 2 range label (mkGens _ _ _ a b c) = (Ok l, mkGens _ _ _ (a + n) b c)
  /\ (0 < n -> exists l', l = (w_point range (fst (w_uniform a)), label) :: l').
Proof.
  induction n as [|n IH]; intros range label a b c.
  - exists []. split; [cbn; rewrite Nat.add_0_r; reflexivity|lia].
  - destruct (IH range label (S a) b c) as [l [E _]].
    exists ((w_point range (fst (w_uniform a)), label) :: l). split.
    + cbn [draw_points]. unfold then_ at 1. rewrite w_draw_point. unfold then_. rewrite E.
      replace (S a + n) with (a + S n) by lia. reflexivity.
    + intros _. eexists. reflexivity.
Qed.

Lemma w_sphere : forall r1 r2 n1 n2 a b c, 0 < n1 -> exists l h,
  draw_sphere nat nat nat w_uniform w_randn 2 r1 r2 n1 n2 (mkGens _ _ _ a b c)
  = (Ok ((w_point r1 (fst (w_uniform a)), 0%R) :: l), h).
Proof.
  intros r1 r2 n1 n2 a b c N. unfold draw_sphere.
  destruct (w_draw_points n1 r1 0%R a b c) as [l1 [E1 F1]]. destruct (F1 N) as [l' ->].
  destruct (w_draw_points n2 r2 1%R (a + n1) b c) as [l2 [E2 _]].
  eexists. eexists. unfold then_ at 1. rewrite E1. unfold then_. rewrite E2. reflexivity.
Qed.

Lemma w_data : forall a b c, exists l t h,
  cc_data nat nat nat w_uniform w_randn (mkGens _ _ _ a b c) = (Ok ((w_point (0, 1 / 2)%R (fst (w_uniform a)), 0%R) :: l, t), h).
Proof.
  intros a b c. unfold cc_data.
  assert (N : 0 < Z.to_nat 1000) by lia.
  destruct (w_sphere (0, 1 / 2)%R (1, 3 / 2)%R (Z.to_nat 1000) (Z.to_nat 2000) a b c N) as [l [[a' b' c'] E]].
  destruct (w_sphere (0, 1 / 2)%R (1, 3 / 2)%R (Z.to_nat 1000) (Z.to_nat 2000) a' b' c' N) as [t [h E']].
  eexists. eexists. eexists. unfold then_ at 1. rewrite E. unfold then_. rewrite E'. reflexivity.
Qed.

Lemma w_points_differ : w_point (0, 1 / 2)%R 0%R <> w_point (0, 1 / 2)%R (1 / 4)%R.
Proof.
  unfold w_point, w_radius. cbn [map fst snd]. pose proof norm_ones as N.
  destruct (Req_EM_T 0 0) as [_|F]; [|lra]. destruct (Req_EM_T (1 / 4) 0) as [F|_]; [lra|].
  set (r := Rpower (1 / 4) (1 / INR 2)). assert (P : (0 < r)%R) by (apply exp_pos).
  intros E. injection E as E _.
  assert (Q : (0 < ((1 / 2 - 0) * r + 0) * (1 / norm2 [1; 1]))%R).
  { apply Rmult_lt_0_compat; [lra|]. apply Rdiv_lt_0_compat; lra. }
  rewrite <- E in Q. rewrite Rmult_0_r, Rplus_0_l, Rmult_0_l in Q. lra.
Qed.

Definition zeros : list string := ["--seed"; "0"].

(** What is done with the data: here they are shown. *)
Definition show_training (ns : pdict argval) (d : list (list R * R) * list (list R * R)) : eff (H := wg) (list (list R * R)) :=
  give (fst d).

Lemma zeros_parsed : exists ns, parse_args cc_parser zeros = Some ns /\ int_of "seed" ns = Ok 0%Z /\ int_of "batch_size" ns = Ok 25%Z.
Proof. eexists. repeat split; vm_compute; reflexivity. Qed.

Lemma circles_outcome : forall a b c, exists l,
  fst (start nat nat nat cc_parser (cc_main nat nat nat w_seed w_seed w_seed w_uniform w_randn show_training) zeros (mkGens _ _ _ a b c))
  = Ok (Some ((w_point (0, 1 / 2)%R (fst (w_uniform a)), 0%R) :: l)).
Proof.
  intros a b c. destruct zeros_parsed as [ns [P [S B]]].
  rewrite (start_accepted _ _ _ _ P).
  destruct (w_data a b c) as [l [t [h E]]]. exists l.
  cbv beta delta [cc_main then_ pure]. rewrite E. rewrite B. cbn [bind Z.leb Z.compare].
  rewrite S. rewrite (seeding_usable w_seed w_seed w_seed 0%Z) by (split; [lia|reflexivity]). reflexivity.
Qed.

Lemma circles_differ :
  fst (start nat nat nat cc_parser (cc_main nat nat nat w_seed w_seed w_seed w_uniform w_randn show_training) zeros (mkGens _ _ _ 0 0 0))
  <> fst (start nat nat nat cc_parser (cc_main nat nat nat w_seed w_seed w_seed w_uniform w_randn show_training) zeros (mkGens _ _ _ 1 0 0)).
Proof.
  destruct (circles_outcome 0 0 0) as [l E]. destruct (circles_outcome 1 0 0) as [l' E'].
  rewrite E, E'. intros F. apply w_points_differ. cbn [w_uniform fst] in F. congruence.
Qed.

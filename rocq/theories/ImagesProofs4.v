(** Lemmas for balls.py: epochs and main program. *)
From Coq Require Import List String ZArith QArith Qcanon Bool Lia Arith Permutation.
From Verif Require Import Base BaseFacts Tensor TensorFacts SchedulerModel LoopModel DataModel DataProofs ResNetProofs ArgparseModel ArgparseProofs
  ExperimentModel ExperimentProofs2 AutoencoderModel AutoencoderSpec AutoencoderProofs AutoencoderProofs2 ImagesModel ImagesSpec ImagesProofs ImagesProofs2 ImagesProofs3.
From Verif Require CirclesModel CirclesSpec.
Import ListNotations.
Open Scope string_scope.
Open Scope list_scope.
Open Scope nat_scope.

Lemma images_batches X M T order : images X M T -> Permutation order (seq 0 M) ->
  Forall (fun b => exists m, 1 <= m /\ (no_single M -> 2 <= m) /\ images b m T) (batches25 X order) /\
  (M mod 25 = 1 -> exists b, In b (batches25 X order) /\ images b 1 T) /\
  (0 < M -> batches25 X order <> []) /\ (M = 0 -> batches25 X order = []).
Proof.
  intros (W & S) P. assert (Z : M = 0 -> batches25 X order = []).
  { intros ->. cbn [seq] in P. apply Permutation_sym, Permutation_nil in P. subst order. reflexivity. }
  destruct S as [S|S]; destruct (batches25_ok X M _ order W S P) as (F & G & N & _); (split; [|split; [|split; [exact N|exact Z]]]).
  1, 3: eapply Forall_impl; [|exact F]; intros b (m & m1 & m2 & Wb & Sb); exists m; split; [exact m1|split; [exact m2|split; auto]].
  1, 2: intros H; destruct (G H) as (b & I & Wb & Sb); exists b; split; [exact I|split; auto].
Qed.

Lemma leb_refl x : num_leb (Fin x) (Fin x) = true.
Proof. cbn. unfold qltb. rewrite (proj1 (Qceq_alt x x) eq_refl). reflexivity. Qed.

Section Balls.
Variable value : nat -> nat -> tensor Qc -> list nat -> Qc.
Variable blk : nat -> tensor Qc -> result (tensor Qc).
Variable order : nat -> list nat.
Variable d : nat.
Variable ahead : Z.
Variables train test val : tensor Qc.
Variables M1 M2 M3 T1 T2 T3 : nat.
Hypothesis B : forall k m, 1 <= m -> block_gives (blk k) d 20 m.
Hypothesis OR : orders M1 order.
Hypothesis I1 : images train M1 T1.
Hypothesis I2 : images test M2 T2.
Hypothesis I3 : images val M3 T3.
Hypothesis L1 : 20 <= T1.
Hypothesis L2 : 20 <= T2.
Hypothesis L3 : 20 <= T3.
Hypothesis P1 : 0 < M1.
Notation epochs := (balls_epochs value blk order d ahead train test val).

Lemma samples_images X M T : images X M T -> samples X = M.
Proof. intros (_ & [S|S]); unfold samples; rewrite S; reflexivity. Qed.

(** Errors of an evaluation: a row of finite numbers for each sample, as long as there are compared images. *)
Definition rows_ok (rows : list (list num)) : Prop :=
  Forall (fun row => finite row /\ List.length row = List.length (compared ahead)) rows.

Lemma evaluate_ok X M T k : images X M T -> 20 <= T -> 0 < M -> no_single M -> 2 <= d ->
  exists rows, balls_evaluate value blk d ahead k (batches25 X (seq 0 (samples X))) = Ok rows /\ rows <> [] /\ rows_ok rows.
Proof.
  intros I L P NS d2. rewrite (samples_images X M T I).
  destruct (images_batches X M T (seq 0 M) I (Permutation_refl _)) as (F & _ & NE & _). specialize (NE P).
  unfold balls_evaluate. destruct (passes_ok (balls_errors value blk d ahead) (fun _ r => r <> [] /\ rows_ok r) (batches25 X (seq 0 M))) with (k := k) as (l & -> & F2).
  { intros j b J. destruct (proj1 (Forall_forall _ _) F b J) as (m & m1 & m2 & Ib). specialize (m2 NS).
    destruct (balls_errors_ok value blk d j m T b Ib L m2 d2 (B j m m1) ahead) as (x & out & r & _ & _ & _ & _ & ->).
    eexists. split; [reflexivity|]. split.
    - intros H. apply map_eq_nil in H. destruct m; [lia|discriminate H].
    - apply Forall_forall. intros row R. apply in_map_iff in R as (n & <- & _). split.
      + exists (map (frame_error r b n) (compared ahead)). rewrite map_map. reflexivity.
      + apply map_length. }
  cbn [bind]. exists (List.concat l).
  assert (Q : List.concat l <> [] /\ rows_ok (List.concat l)).
  { destruct F2 as [|b r bs l' (R1 & R2) F2]; [contradiction|]. cbn [List.concat]. split; [destruct r; [contradiction|discriminate]|].
    apply Forall_app. split; [exact R2|]. clear - F2. induction F2 as [|b r bs l (_ & R) F2 IH]; [constructor|]. cbn [List.concat]. apply Forall_app. auto. }
  destruct Q as (Q1 & Q2). destruct (List.concat l) eqn:E; [contradiction|]. auto.
Qed.

Lemma mean_none rows : rows_ok rows -> compared ahead = [] -> np_mean (List.concat rows) = NaN.
Proof.
  intros R C. assert (E : List.concat rows = []); [|rewrite E; reflexivity]. unfold rows_ok in R. rewrite C in R.
  induction R as [|row rows (_ & L) R IH]; [reflexivity|]. cbn [List.concat]. rewrite IH. destruct row; [reflexivity|discriminate L].
Qed.

Lemma mean_some rows : rows_ok rows -> rows <> [] -> compared ahead <> [] -> exists q, np_mean (List.concat rows) = Fin q.
Proof.
  intros R N C. destruct (finite_concat rows) as (qs & Q).
  { eapply Forall_impl; [|exact R]. cbn. tauto. }
  exists (mean qs). rewrite Q. apply np_mean_fin. intros ->. destruct R as [|row rows (_ & L) R]; [contradiction|].
  cbn [List.concat map] in Q. destruct row; [|discriminate Q]. cbn in L. destruct (compared ahead); [contradiction|discriminate L].
Qed.

Lemma train_ok k e : no_single M1 -> 2 <= d -> exists l, passes (balls_train value blk d) k (batches25 train (order e)) = Ok l.
Proof.
  intros NS d2. destruct (images_batches train M1 T1 (order e) I1 (OR e)) as (F & _).
  destruct (passes_ok (balls_train value blk d) (fun _ _ => True) (batches25 train (order e))) with (k := k) as (l & E & _); [|exists l; exact E].
  intros j b J. destruct (proj1 (Forall_forall _ _) F b J) as (m & m1 & m2 & Ib). specialize (m2 NS).
  destruct (balls_train_ok value blk d j m T1 b Ib L1 m2 d2 (B j m m1)) as (t & E). exists t. auto.
Qed.

Section Good.
Hypothesis d2 : 2 <= d.
Hypothesis N1 : no_single M1.
Hypothesis N2 : no_single M2.
Hypothesis N3 : no_single M3.
Hypothesis P2 : 0 < M2.
Hypothesis P3 : 0 < M3.

Lemma balls_epochs_ok : forall n e k best file, exists file', epochs n e k best file = (Ok tt, file') /\
  (compared ahead = [] -> file' = file) /\
  (compared ahead <> [] -> file <> None \/ (best = None /\ 0 < n) -> file' <> None).
Proof.
  induction n as [|n IH]; intros e k best file.
  { exists file. split; [reflexivity|]. split; [reflexivity|]. intros _ [H|(_ & H)]; [exact H|lia]. }
  cbn [balls_epochs]. destruct (train_ok k e N1 d2) as (l & ->). cbn [bind].
  destruct (evaluate_ok test M2 T2 (k + List.length (batches25 train (order e))) I2 L2 P2 N2 d2) as (te & -> & TE0 & TE1). cbn [bind].
  match goal with |- context [balls_evaluate value blk d ahead ?kk (batches25 val _)] =>
    destruct (evaluate_ok val M3 T3 kk I3 L3 P3 N3 d2) as (ve & -> & VE0 & VE1) end. cbn [bind].
  destruct (images_batches train M1 T1 (order e) I1 (OR e)) as (_ & _ & NE & _). specialize (NE P1).
  destruct (batches25 train (order e)) as [|b0 bs] eqn:EB; [contradiction|].
  destruct (compared ahead) as [|c cs] eqn:C.
  - rewrite (mean_none ve VE1 C). cbn [num_leb].
    match goal with |- context [epochs n (S e) ?kk ?bb file] => destruct (IH (S e) kk bb file) as (file' & E & H1 & H2) end.
    exists file'. split; [exact E|]. split; [exact H1|]. intros H. contradiction.
  - destruct (mean_some ve VE1 VE0) as (q & Q); [rewrite C; discriminate|]. rewrite Q. clear Q.
    destruct best as [b|].
    + destruct (num_leb (Fin q) b);
      match goal with |- context [epochs n (S e) ?kk ?bb ?ff] => destruct (IH (S e) kk bb ff) as (file' & E & H1 & H2) end;
      exists file'; (split; [exact E|]); (split; [discriminate|]); intros _ [H|(H & _)]; try discriminate H;
      (apply H2; [discriminate|left; try exact H; discriminate]).
    + rewrite leb_refl.
      match goal with |- context [epochs n (S e) ?kk ?bb ?ff] => destruct (IH (S e) kk bb ff) as (file' & E & H1 & H2) end.
      exists file'. split; [exact E|]. split; [discriminate|]. intros _ _. apply H2; [discriminate|left; discriminate].
Qed.
End Good.

Lemma balls_epochs_bad n e k best file : 1 <= d -> 0 < n ->
  ~ (2 <= d /\ no_single M1 /\ no_single M2 /\ no_single M3 /\ 0 < M2 /\ 0 < M3) -> exists x f, epochs n e k best file = (Raise x, f).
Proof.
  intros d1 Hn H. destruct n as [|n]; [lia|]. cbn [balls_epochs].
  destruct (images_batches train M1 T1 (order e) I1 (OR e)) as (F & G & NE & _). specialize (NE P1).
  assert (TB : forall b, In b (batches25 train (order e)) -> (forall j, exists x, balls_train value blk d j b = Raise x) ->
    exists x, passes (balls_train value blk d) k (batches25 train (order e)) = Raise x).
  { intros b I R. exact (passes_raise _ _ b I R k). }
  destruct (Nat.eq_dec (M1 mod 25) 1) as [Q1|Q1].
  { destruct (G Q1) as (b & I & Ib). destruct (TB b I) as (x & ->); [|exists x, file; reflexivity].
    intros j. exists RuntimeError. apply (balls_lost value blk d j T1 b Ib L1). }
  destruct (Nat.eq_dec d 1) as [D|D].
  { destruct (batches25 train (order e)) as [|b bs] eqn:EB; [contradiction|].
    destruct (proj1 (Forall_forall _ _) F b (or_introl eq_refl)) as (m & m1 & m2 & Ib).
    destruct (TB b (or_introl eq_refl)) as (x & ->); [|exists x, file; reflexivity]. intros j. exists RuntimeError. subst d.
    apply (balls_dim1 value blk j m T1 b Ib L1 (m2 Q1) (B j m m1)). }
  assert (d2 : 2 <= d) by lia. destruct (train_ok k e Q1 d2) as (l & ->). cbn [bind].
  assert (EV : forall X M T k, images X M T -> 20 <= T -> ~ (no_single M /\ 0 < M) ->
    exists x, balls_evaluate value blk d ahead k (batches25 X (seq 0 (samples X))) = Raise x).
  { intros X M T kk I L HM. rewrite (samples_images X M T I).
    destruct (images_batches X M T (seq 0 M) I (Permutation_refl _)) as (_ & G' & _ & Z). unfold balls_evaluate.
    destruct (Nat.eq_dec (M mod 25) 1) as [Q|Q].
    - destruct (G' Q) as (b & Ib & Jb). destruct (passes_raise (balls_errors value blk d ahead) _ b Ib) with (k := kk) as (x & ->); [|exists x; reflexivity].
      intros j. exists RuntimeError. apply (balls_lost value blk d j T b Jb L).
    - rewrite Z by (unfold no_single in HM; lia). exists RuntimeError. reflexivity. }
  destruct (Nat.eq_dec (M2 mod 25) 1) as [Q2|Q2].
  { match goal with |- context [balls_evaluate _ _ _ _ ?kk (batches25 test _)] => destruct (EV test M2 T2 kk I2 L2) as (x & ->) end;
    [unfold no_single; tauto|]. exists x, file. reflexivity. }
  destruct (Nat.eq_dec M2 0) as [Z2|Z2].
  { match goal with |- context [balls_evaluate _ _ _ _ ?kk (batches25 test _)] => destruct (EV test M2 T2 kk I2 L2) as (x & ->) end;
    [lia|]. exists x, file. reflexivity. }
  match goal with |- context [balls_evaluate _ _ _ _ ?kk (batches25 test _)] =>
    destruct (evaluate_ok test M2 T2 kk I2 L2 ltac:(lia) Q2 d2) as (te & -> & _) end. cbn [bind].
  match goal with |- context [balls_evaluate _ _ _ _ ?kk (batches25 val _)] => destruct (EV val M3 T3 kk I3 L3) as (x & ->) end.
  { intros (R1 & R2). apply H. repeat (split; [first [assumption|lia]|]). exact R2. }
  exists x, file. reflexivity.
Qed.
End Balls.

Section BallsMain.
Variable value : nat -> nat -> tensor Qc -> list nat -> Qc.
Variable blocks : pdict argval -> nat -> tensor Qc -> result (tensor Qc).
Variable order : nat -> list nat.
Variable unusual : result unit * option balls_file.
Variables train test val : tensor Qc.
Variables M1 M2 M3 T1 T2 T3 : nat.
Variable exists_ : string -> bool.
Variables (words : list string) (ns : pdict argval) (d N f n ahead : Z) (out : string).
Hypothesis E : parse_args balls_parser words = Some ns.
Hypothesis U : CirclesSpec.usual ns d N f.
Hypothesis O1 : CirclesSpec.option_is ns "niters" (AInt n).
Hypothesis O2 : CirclesSpec.option_is ns "evaluate_ahead" (AInt ahead).
Hypothesis O3 : CirclesSpec.option_is ns "save_to" (AText out).
Notation program := (balls value blocks order unusual train test val exists_ words).

Lemma balls_value : program =
  Some (if exists_ out then (Raise OSError, None)
        else if samples train =? 0 then (Raise ValueError, None)
        else balls_epochs value (blocks ns) order (Z.to_nat d) ahead train test val (Z.to_nat n) 0 0 None None).
Proof.
  unfold balls. rewrite E. cbn [option_map]. f_equal. destruct U as (U1 & U2 & U3 & D1 & N1 & F1 & _ & SE).
  assert (K := parsed_kinds balls_parser _ _ ltac:(nodup_keys) balls_defaults E).
  destruct (K "seed" _ ltac:(discriminate) eq_refl) as ([z| | |] & A2 & B2); try contradiction.
  unfold balls_main, sizes, int_of, text_of. unfold CirclesSpec.option_is in *. rewrite A2. cbn [bind]. rewrite (seed_ok z (SE z A2)). cbn [bind].
  rewrite U1, U2, U3, O1, O2, O3. cbn [bind].
  replace ((d <? 1) || (N <? 1) || (f <? 1))%Z with false; [reflexivity|]. symmetry.
  apply orb_false_iff. split; [apply orb_false_iff; split|]; apply Z.ltb_ge; assumption.
Qed.

Lemma balls_existing : exists_ out = true -> program = Some (Raise OSError, None).
Proof. intros H. rewrite balls_value, H. reflexivity. Qed.

Hypothesis B : forall k m, 1 <= m -> block_gives (blocks ns k) (Z.to_nat d) 20 m.
Hypothesis OR : orders M1 order.
Hypothesis I1 : images train M1 T1.
Hypothesis I2 : images test M2 T2.
Hypothesis I3 : images val M3 T3.
Hypothesis L1 : 20 <= T1.
Hypothesis L2 : 20 <= T2.
Hypothesis L3 : 20 <= T3.
Hypothesis n1 : (1 <= n)%Z.

Lemma balls_saves file : program = Some (Ok tt, file) -> file = None <-> compared ahead = [].
Proof.
  rewrite balls_value. destruct (exists_ out); [discriminate|]. rewrite (samples_images train M1 T1 I1).
  destruct (Nat.eqb_spec M1 0) as [Z|Z]; [discriminate|]. intros H. injection H as H. assert (P1 : 0 < M1) by lia. clear Z.
  destruct U as (_ & _ & _ & D1 & _).
  destruct (Z_le_dec 2 d) as [d2|d2]; [destruct (Nat.eq_dec (M1 mod 25) 1) as [Q1|Q1]; [|destruct (Nat.eq_dec (M2 mod 25) 1) as [Q2|Q2]; [|
    destruct (Nat.eq_dec (M3 mod 25) 1) as [Q3|Q3]; [|destruct (Nat.eq_dec M2 0) as [Z2|Z2]; [|destruct (Nat.eq_dec M3 0) as [Z3|Z3]]]]]|].
  6: { destruct (balls_epochs_ok value (blocks ns) order (Z.to_nat d) ahead train test val M1 M2 M3 T1 T2 T3 B OR I1 I2 I3 L1 L2 L3 P1
         ltac:(lia) Q1 Q2 Q3 ltac:(lia) ltac:(lia) (Z.to_nat n) 0 0 None None) as (file' & EF & H1 & H2).
       rewrite EF in H. injection H as <-. split; [|exact H1]. intros EN. destruct (compared ahead); [reflexivity|].
       exfalso. apply H2; [discriminate| |exact EN]. right. split; [reflexivity|lia]. }
  all: exfalso; destruct (balls_epochs_bad value (blocks ns) order (Z.to_nat d) ahead train test val M1 M2 M3 T1 T2 T3 B OR I1 I2 I3 L1 L2 L3 P1
         (Z.to_nat n) 0 0 None None ltac:(lia) ltac:(lia)) as (x & ff & EF); [unfold no_single; lia|rewrite EF in H; discriminate H].
Qed.

Lemma balls_exactly : (exists file, program = Some (Ok tt, file)) <->
  exists_ out = false /\ 0 < M1 /\ 0 < M2 /\ 0 < M3 /\ (2 <= d)%Z /\ no_single M1 /\ no_single M2 /\ no_single M3.
Proof.
  rewrite balls_value. destruct U as (_ & _ & _ & D1 & _). split.
  - intros (file & H). destruct (exists_ out); [discriminate|]. rewrite (samples_images train M1 T1 I1) in H.
    destruct (Nat.eqb_spec M1 0) as [Z|Z]; [discriminate|]. injection H as H. assert (P1 : 0 < M1) by lia. clear Z.
    split; [reflexivity|]. split; [exact P1|].
    destruct (Z_le_dec 2 d) as [d2|d2]; [destruct (Nat.eq_dec (M1 mod 25) 1) as [Q1|Q1]; [|destruct (Nat.eq_dec (M2 mod 25) 1) as [Q2|Q2]; [|
      destruct (Nat.eq_dec (M3 mod 25) 1) as [Q3|Q3]; [|destruct (Nat.eq_dec M2 0) as [Z2|Z2]; [|destruct (Nat.eq_dec M3 0) as [Z3|Z3]]]]]|].
    6: { unfold no_single. repeat (split; [first [assumption|lia]|]). exact Q3. }
    all: exfalso; destruct (balls_epochs_bad value (blocks ns) order (Z.to_nat d) ahead train test val M1 M2 M3 T1 T2 T3 B OR I1 I2 I3 L1 L2 L3 P1
         (Z.to_nat n) 0 0 None None ltac:(lia) ltac:(lia)) as (x & ff & EF); [unfold no_single; lia|rewrite EF in H; discriminate H].
  - intros (-> & P1 & P2 & P3 & d2 & Q1 & Q2 & Q3). rewrite (samples_images train M1 T1 I1), (proj2 (Nat.eqb_neq M1 0)) by lia.
    destruct (balls_epochs_ok value (blocks ns) order (Z.to_nat d) ahead train test val M1 M2 M3 T1 T2 T3 B OR I1 I2 I3 L1 L2 L3 P1
         ltac:(lia) Q1 Q2 Q3 P2 P3 (Z.to_nat n) 0 0 None None) as (file' & EF & _ & _). rewrite EF. exists file'. reflexivity.
Qed.
End BallsMain.

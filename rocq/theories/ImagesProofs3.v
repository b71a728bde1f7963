(** Lemmas for the demos with images: the main programs. *)
From Coq Require Import List String ZArith QArith Qcanon Bool Lia Arith Permutation.
From Verif Require Import Base BaseFacts Tensor TensorFacts SchedulerModel LoopModel DataModel DataProofs ResNetProofs ArgparseModel ArgparseProofs
  ExperimentModel AutoencoderModel AutoencoderSpec AutoencoderProofs AutoencoderProofs2 ImagesModel ImagesSpec ImagesProofs ImagesProofs2.
From Verif Require Import ExperimentProofs2.
From Verif Require CirclesModel CirclesSpec.
Import ListNotations.
Open Scope string_scope.
Open Scope list_scope.
Open Scope nat_scope.

Lemma prod_frames n : prod [n; 16; 1; 28; 28] = n * (16 * 784).
Proof. rewrite !prod_cons, prod_nil. lia. Qed.
Lemma prod_rows n : prod [n; 16; 784] = n * (16 * 784).
Proof. rewrite !prod_cons, prod_nil. lia. Qed.

Lemma load_data_ok X M : twf X -> tshape X = [M; 16; 784] -> 500 < M ->
  exists train test, load_data X = Ok (train, test) /\ (twf train /\ tshape train = [500; 16; 1; 28; 28]) /\
    (twf test /\ tshape test = [M - 500; 16; 1; 28; 28]).
Proof.
  intros W S H. assert (N0 : nth_error (tshape X) 0 = Some M) by (rewrite S; reflexivity).
  destruct (tslice_ok 0 0 500 X M W N0 ltac:(lia) ltac:(lia)) as (a & Ea & Wa & Sa & _).
  destruct (tslice_ok 0 500 M X M W N0 ltac:(lia) ltac:(lia)) as (b & Eb & Wb & Sb & _).
  rewrite S in Sa, Sb. cbn [set_nth] in Sa, Sb. rewrite Nat.sub_0_r in Sa. unfold twf in Wa, Wb. rewrite Sa, prod_rows in Wa. rewrite Sb, prod_rows in Wb.
  exists (mkT [500; 16; 1; 28; 28] (tdata a)), (mkT [M - 500; 16; 1; 28; 28] (tdata b)).
  assert (P : prod [16; 1; 28; 28] = 16 * 784) by (rewrite !prod_cons, prod_nil; lia).
  unfold load_data. rewrite S, Ea. cbn [bind]. rewrite (tview_eq (tdata a) [500; 16; 1; 28; 28]) by (rewrite prod_frames; exact Wa). cbn [bind].
  rewrite Eb. cbn [bind]. rewrite P, Wb. rewrite Nat.div_mul by lia.
  rewrite (proj2 (Nat.eqb_neq _ 0)) by lia.
  rewrite (tview_eq (tdata b) [M - 500; 16; 1; 28; 28]) by (rewrite prod_frames; exact Wb). cbn [bind].
  split; [reflexivity|]. unfold twf. cbn [tshape tdata]. rewrite !prod_frames. auto.
Qed.

Lemma load_data_bad X M : twf X -> tshape X = [M; 16; 784] -> M <= 500 -> load_data X = Raise RuntimeError.
Proof.
  intros W S H. assert (N0 : nth_error (tshape X) 0 = Some M) by (rewrite S; reflexivity).
  destruct (tslice_gen 0 0 500 X M W N0) as (a & Ea & Wa & Sa & _).
  destruct (tslice_gen 0 500 M X M W N0) as (b & Eb & Wb & Sb & _).
  rewrite S in Sa, Sb. cbn [set_nth] in Sa, Sb. unfold twf in Wa, Wb. rewrite Sa, prod_rows in Wa. rewrite Sb, prod_rows in Wb.
  unfold load_data. rewrite S, Ea. cbn [bind]. destruct (Nat.eq_dec M 500) as [E|E].
  - rewrite (tview_eq (tdata a) [500; 16; 1; 28; 28]) by (rewrite prod_frames, Wa; f_equal; lia). cbn [bind].
    rewrite Eb. cbn [bind]. rewrite Wb. replace (Nat.min M M - Nat.min 500 M) with 0 by lia. reflexivity.
  - rewrite (tview_ne (tdata a) [500; 16; 1; 28; 28]) by (rewrite prod_frames, Wa; lia). reflexivity.
Qed.

Lemma seed_ok z : z = (-1)%Z \/ (0 <= z < 2 ^ 32)%Z -> CirclesModel.check_seed z = Ok tt.
Proof.
  intros H. unfold CirclesModel.check_seed. destruct (Z.eqb_spec z (-1)); [reflexivity|]. destruct H as [?|[S1 S2]]; [contradiction|].
  apply Z.leb_le in S1. apply Z.ltb_lt in S2. rewrite S1, S2. reflexivity.
Qed.

Lemma rot_defaults : forall m k, pd_get m rot_parser = Some k -> has_kind k (pd_get m (defaults rot_parser)).
Proof.
  intros m k H. unfold pd_get in H. cbn [rot_parser sd_get] in H. find_key; cbn; try (eexists; split; [reflexivity|cbn; auto 10]); eexists; reflexivity.
Qed.
Lemma balls_defaults : forall m k, pd_get m balls_parser = Some k -> has_kind k (pd_get m (defaults balls_parser)).
Proof.
  intros m k H. unfold pd_get in H. cbn [balls_parser sd_get] in H. find_key; cbn; try (eexists; split; [reflexivity|cbn; auto 10]); eexists; reflexivity.
Qed.

(** ** rot.py *)
Section RotMain.
Variable value : nat -> nat -> tensor Qc -> list nat -> Qc.
Variable blocks : pdict argval -> nat -> tensor Qc -> result (tensor Qc).
Variable shuffle : nat -> nat -> list Z -> list Z.
Variable order : nat -> list nat.
Variable unusual : result (list (string * rot_file)).
Variables (X : tensor Qc) (M : nat) (directory : option string) (words : list string) (ns : pdict argval).
Variables d N f n n_skip i_eval : Z.
Variable save : bool.
Hypothesis E : parse_args rot_parser words = Some ns.
Hypothesis U : CirclesSpec.usual ns d N f.
Hypothesis O1 : CirclesSpec.option_is ns "niters" (AInt n).
Hypothesis O2 : CirclesSpec.option_is ns "n_skip" (AInt n_skip).
Hypothesis O3 : CirclesSpec.option_is ns "i_eval" (AInt i_eval).
Hypothesis O4 : CirclesSpec.option_is ns "save" (AFlag save).
Hypothesis B : forall k m, 1 <= m -> block_gives (blocks ns k) (Z.to_nat d) 16 m.
Hypothesis SH : forall k, shuffles (shuffle k).
Hypothesis OR : orders 500 order.
Hypothesis W : twf X.
Hypothesis S : tshape X = [M; 16; 784].
Notation program := (rot value blocks shuffle order unusual X directory words).

Lemma rot_value : program = Some (rot_run value (blocks ns) shuffle order (Z.to_nat d) n_skip i_eval X (Z.to_nat n) save ns directory).
Proof.
  unfold rot. rewrite E. cbn [option_map]. f_equal. destruct U as (U1 & U2 & U3 & D1 & N1 & F1 & _ & SE).
  assert (K := parsed_kinds rot_parser _ _ ltac:(nodup_keys) rot_defaults E).
  destruct (K "seed" _ ltac:(discriminate) eq_refl) as ([z| | |] & A2 & B2); try contradiction.
  unfold rot_main, sizes, int_of, flag_of. unfold CirclesSpec.option_is in *. rewrite A2. cbn [bind]. rewrite (seed_ok z (SE z A2)). cbn [bind].
  rewrite U1, U2, U3, O1, O2, O3, O4. cbn [bind].
  replace ((d <? 1) || (N <? 1) || (f <? 1))%Z with false; [reflexivity|]. symmetry.
  apply orb_false_iff. split; [apply orb_false_iff; split|]; apply Z.ltb_ge; assumption.
Qed.

Lemma epochs_end train test : twf train /\ tshape train = [500; 16; 1; 28; 28] -> twf test /\ tshape test = [M - 500; 16; 1; 28; 28] ->
  500 < M -> (2 <= d)%Z -> no_single (M - 500) -> ((1 <= n)%Z -> (0 <= n_skip <= 14)%Z /\ (0 <= i_eval <= 15)%Z) ->
  exists tr k, rot_epochs value (blocks ns) shuffle order (Z.to_nat d) n_skip i_eval train test (Z.to_nat n) 0 0 = Ok (tr, k) /\
    List.length tr = Z.to_nat n /\ forall i t, nth_error tr i = Some t -> good_entry (M - 500) i t.
Proof.
  intros TR TE HM Hd NS H. destruct (Z_le_dec 1 n) as [G|G].
  - destruct (H G) as (Hn & Hi).
    exact (rot_epochs_ok value (blocks ns) shuffle (Z.to_nat d) B SH order train test (M - 500) OR TR TE ltac:(lia) n_skip i_eval ltac:(lia) NS Hn Hi (Z.to_nat n) 0 0).
  - replace (Z.to_nat n) with 0 by lia. exists [], 0. split; [reflexivity|]. split; [reflexivity|]. intros [|i] t Q; discriminate Q.
Qed.

Lemma rot_runs : 500 < M -> (2 <= d)%Z -> no_single (M - 500) -> ((1 <= n)%Z -> (0 <= n_skip <= 14)%Z /\ (0 <= i_eval <= 15)%Z) -> save = true ->
  forall p, directory = Some p -> exists tr images, program =
    Some (Ok [((p ++ "/model.pt")%string, RModel); ((p ++ "/tracker.pkl")%string, RTracker tr);
              ((p ++ "/args.pkl")%string, RArgs ns); ((p ++ "/images.pkl")%string, RImages images)]) /\
    List.length tr = Z.to_nat n /\ forall i t, nth_error tr i = Some t -> good_entry (M - 500) i t.
Proof.
  intros HM Hd NS Hn Sv p P. rewrite rot_value. destruct (load_data_ok X M W S HM) as (train & test & EL & TR & TE).
  unfold rot_run. rewrite EL. cbn [bind].
  destruct (epochs_end train test TR TE HM Hd NS Hn)
    as (tr & k & -> & L & G). cbn [bind].
  destruct (rot_images_ok value (blocks ns) shuffle (Z.to_nat d) B SH test (M - 500) TE ltac:(lia) n_skip i_eval ltac:(lia) NS k) as (im & -> & _). cbn [bind].
  rewrite Sv, P. exists tr, im. split; [reflexivity|]. split; [exact L|]. exact G.
Qed.

Lemma rot_no_directory : 500 < M -> (2 <= d)%Z -> no_single (M - 500) -> ((1 <= n)%Z -> (0 <= n_skip <= 14)%Z /\ (0 <= i_eval <= 15)%Z) -> directory = None ->
  program = Some (if save then Raise OSError else Ok []).
Proof.
  intros HM Hd NS Hn P. rewrite rot_value. destruct (load_data_ok X M W S HM) as (train & test & EL & TR & TE).
  unfold rot_run. rewrite EL. cbn [bind].
  destruct (epochs_end train test TR TE HM Hd NS Hn)
    as (tr & k & -> & L & G). cbn [bind].
  destruct (rot_images_ok value (blocks ns) shuffle (Z.to_nat d) B SH test (M - 500) TE ltac:(lia) n_skip i_eval ltac:(lia) NS k) as (im & -> & _). cbn [bind].
  rewrite P. reflexivity.
Qed.

Lemma rot_exactly : directory <> None ->
  (exists files, program = Some (Ok files)) <->
  500 < M /\ (2 <= d)%Z /\ no_single (M - 500) /\ ((1 <= n)%Z -> (0 <= n_skip <= 14)%Z /\ (0 <= i_eval <= 15)%Z).
Proof.
  intros DN. rewrite rot_value. split.
  - intros (files & H). injection H as H. unfold rot_run in H.
    destruct (Nat.le_gt_cases M 500) as [L|L]; [rewrite (load_data_bad X M W S L) in H; discriminate|].
    destruct (load_data_ok X M W S L) as (train & test & EL & TR & TE). rewrite EL in H. cbn [bind] in H.
    destruct U as (_ & _ & _ & D1 & _).
    assert (R : (1 <= n)%Z -> (2 <= d)%Z /\ no_single (M - 500) /\ (0 <= n_skip <= 14)%Z /\ (0 <= i_eval <= 15)%Z).
    { intros n1. destruct (Z_le_dec 2 d) as [d2|d2]; [destruct (Nat.eq_dec ((M - 500) mod 25) 1) as [Q|Q]; [|destruct (Z_le_dec 0 n_skip) as [A1|A1]; [destruct (Z_le_dec n_skip 14) as [A2|A2];
        [destruct (Z_le_dec 0 i_eval) as [A3|A3]; [destruct (Z_le_dec i_eval 15) as [A4|A4]|]|]|]]|].
      2: { split; [exact d2|]. split; [exact Q|]. auto. }
      all: exfalso; destruct (rot_epochs_bad value (blocks ns) shuffle (Z.to_nat d) B SH order train test (M - 500) OR TR TE ltac:(lia) n_skip i_eval (Z.to_nat n) 0 0
          ltac:(lia) ltac:(lia)) as (x & EX); [unfold no_single; lia|rewrite EX in H; discriminate H]. }
    destruct (Z_le_dec 1 n) as [n1|n1]; [destruct (R n1) as (R1 & R2 & R3); auto|].
    replace (Z.to_nat n) with 0 in H by lia. cbn [rot_epochs bind] in H.
    destruct (test_batches test (M - 500) TE ltac:(lia)) as (G & SG & NE & _).
    split; [exact L|]. destruct (Z_le_dec 2 d) as [d2|d2].
    + split; [exact d2|]. split; [|intros Q; contradiction]. intros Q. destruct (SG Q) as (b & I & Sb).
      destruct (passes_raise (rot_pass value (blocks ns) shuffle (Z.to_nat d) n_skip i_eval) (batches25 test (seq 0 (samples test))) b I) with (k := 0) as (x & EX).
      { intros j. exists RuntimeError. apply (rot_small value (blocks ns) shuffle (Z.to_nat d) B SH j n_skip i_eval b 1 Sb); lia. }
      rewrite EX in H. discriminate H.
    + exfalso. destruct (batches25 test (seq 0 (samples test))) as [|b bs] eqn:EB; [contradiction|]. rewrite <- EB in *.
      assert (I : In b (batches25 test (seq 0 (samples test)))) by (rewrite EB; left; reflexivity).
      destruct (proj1 (Forall_forall _ _) G b I) as (m & m1 & _ & Sb).
      destruct (passes_raise (rot_pass value (blocks ns) shuffle (Z.to_nat d) n_skip i_eval) (batches25 test (seq 0 (samples test))) b I) with (k := 0) as (x & EX).
      { intros j. exists RuntimeError. apply (rot_small value (blocks ns) shuffle (Z.to_nat d) B SH j n_skip i_eval b m Sb); lia. }
      rewrite EX in H. discriminate H.
  - intros (HM & Hd & NS & Hn). destruct (load_data_ok X M W S HM) as (train & test & EL & TR & TE).
    unfold rot_run. rewrite EL. cbn [bind].
    destruct (epochs_end train test TR TE HM Hd NS Hn)
      as (tr & k & -> & L & G). cbn [bind].
    destruct (rot_images_ok value (blocks ns) shuffle (Z.to_nat d) B SH test (M - 500) TE ltac:(lia) n_skip i_eval ltac:(lia) NS k) as (im & -> & _). cbn [bind].
    destruct save; [|eexists; reflexivity]. destruct directory; [|contradiction]. eexists. reflexivity.
Qed.
End RotMain.

(** [--batch_size] is not used. *)
Lemma rot_batch_unused value blk shuffle order unusual X directory ns ns' :
  (forall name, name <> "batch_size" -> pd_get name ns = pd_get name ns') ->
  let run := rot_main value (fun _ => blk) shuffle order unusual X directory in
  match run ns, run ns' with
  | Ok l, Ok l' => map (fun f => match snd f with RArgs _ => None | _ => Some f end) l = map (fun f => match snd f with RArgs _ => None | _ => Some f end) l'
  | Raise x, Raise y => x = y
  | _, _ => False
  end.
Proof.
  intros Q. cbv zeta. unfold rot_main, sizes, int_of, flag_of.
  rewrite <- !Q by discriminate. destruct (pd_get "seed" ns) as [[]|]; cbn [bind]; try reflexivity.
  destruct (CirclesModel.check_seed z); cbn [bind]; [|reflexivity].
  destruct (pd_get "shooting_dim" ns) as [[dd| | |]|]; cbn [bind]; try reflexivity.
  destruct (pd_get "nr_of_particles" ns) as [[NN| | |]|]; cbn [bind]; try reflexivity.
  destruct (pd_get "inflation_factor" ns) as [[ff| | |]|]; cbn [bind]; try reflexivity.
  destruct (pd_get "n_skip" ns) as [[z1| | |]|]; cbn [bind]; try reflexivity.
  destruct (pd_get "i_eval" ns) as [[z2| | |]|]; cbn [bind]; try reflexivity.
  destruct (pd_get "niters" ns) as [[z3| | |]|]; cbn [bind]; try reflexivity.
  destruct (pd_get "save" ns) as [[| | |sv]|]; cbn [bind]; try reflexivity.
  destruct (_ || _); [destruct unusual; reflexivity|]. unfold rot_run.
  destruct (load_data X) as [(train, test)|]; cbn [bind]; [|reflexivity].
  destruct (rot_epochs _ _ _ _ _ _ _ _ _ _ _ _) as [(tr, k)|]; cbn [bind]; [|reflexivity].
  destruct (passes _ _ _); cbn [bind]; [|reflexivity]. destruct sv; [|reflexivity]. destruct directory; reflexivity.
Qed.

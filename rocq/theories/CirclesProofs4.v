(** Files of cc.py which cannot be written. *)
From Coq Require Import List String ZArith QArith Reals Bool Lia.
From Verif Require Import Base VecModel VecFlow ArgparseModel ExperimentModel CirclesModel CirclesSpec CirclesProofs3.
Import ListNotations.
Open Scope string_scope.
Open Scope list_scope.
Open Scope nat_scope.

Lemma write_anything l : write_files (fun _ => true) l = (Ok tt, l).
Proof. induction l as [|f l IH]; cbn; [reflexivity|]. rewrite IH. reflexivity. Qed.

Lemma write_until writable l i f : nth_error l i = Some f -> (forall j g, j < i -> nth_error l j = Some g -> writable (fst g) = true) ->
  writable (fst f) = false -> write_files writable l = (Raise OSError, firstn i l).
Proof.
  revert i. induction l as [|a l IH]; intros [|i] H B F; try discriminate H; cbn [write_files firstn].
  - injection H as ->. rewrite F. reflexivity.
  - rewrite (B 0 a) by (try lia; reflexivity). rewrite (IH i H); [reflexivity| |exact F].
    intros j g J G. apply (B (S j) g); [lia|exact G].
Qed.

(** The run is the same up to the writing. *)
Lemma main_files nonlinearity all writable unusual ns d N f files : usual ns d N f ->
  main nonlinearity all (fun _ => true) unusual ns = (Ok tt, files) ->
  main nonlinearity all writable unusual ns = write_files writable files.
Proof.
  intros (U1 & U2 & U3 & D & NN & F & _). unfold main, int_of. rewrite U1, U2, U3.
  match goal with |- (match ?X with _ => _ end = _) -> _ => destruct X as [[[[[[[bs [[d' N'] f']] b] [nl dnl]] n] out] pw]|x] eqn:E end; [|discriminate].
  assert (Q : d' = d /\ N' = N /\ f' = f).
  { revert E. clear. unfold bind.
    repeat match goal with |- context [match ?X with Ok _ => _ | Raise _ => _ end] =>
      lazymatch X with match _ with _ => _ end => fail | _ => destruct X; try discriminate end end.
    all: repeat match goal with |- context [match ?X with _ => _ end] => destruct X; try discriminate end; intros [= <- <- <-]; auto. }
  destruct Q as (-> & -> & ->).
  replace ((d <? 1) || (N <? 1) || (f <? 1))%Z with false
    by (symmetry; apply orb_false_iff; split; [apply orb_false_iff; split|]; apply Z.ltb_ge; assumption).
  match goal with |- (match ?X with _ => _ end = _) -> _ => destruct X as [tr|x]; [|discriminate] end.
  rewrite write_anything. intros [= <-]. reflexivity.
Qed.

Lemma unwritable : forall nonlinearity all unusual words ns d N f files, parse_args cc_parser words = Some ns -> usual ns d N f ->
  cc nonlinearity all (fun _ => true) unusual words = Some (Ok tt, files) ->
  forall writable i file, nth_error files i = Some file -> writable (fst file) = false ->
  (forall j g, j < i -> nth_error files j = Some g -> writable (fst g) = true) ->
  cc nonlinearity all writable unusual words = Some (Raise OSError, firstn i files).
Proof.
  intros nonlinearity all unusual words ns d N f files P U. unfold cc. rewrite P. cbn [option_map]. intros [= H] writable i file I W B.
  rewrite (main_files _ _ _ _ _ _ _ _ _ U H). f_equal. exact (write_until _ _ _ _ I B W).
Qed.

(** Proofs about the discrete networks: numbers of parameters, parameters across
    layers. *)
From Coq Require Import String Ascii.
From Coq Require Import List Bool Arith Lia ZArith.
From Verif Require Import Base BaseFacts UtilsModel CommandModel BlockModel BlockProofs3 VecModel IntegratorProofs
  DiscreteNetModel DiscreteNetSpec DiscreteNetProofs.
Import ListNotations.
Open Scope list_scope.
Open Scope string_scope.

(** ** Splitting at dots *)
Lemma split_ne c s : split_on c s <> [].
Proof. destruct s as [|a r]; cbn; [discriminate|]. destruct (Ascii.eqb a c); [discriminate|]. destruct (split_on c r); discriminate. Qed.

Lemma split_after p r : no_dots p -> split_on "." (p ++ "." ++ r) = p :: split_on "." r.
Proof.
  change ("." ++ r) with (String "." r).
  induction p as [|c p IH]; intros N; [reflexivity|]. cbn [append split_on].
  destruct (Ascii.eqb_spec c ".") as [->|D].
  - exfalso. apply (N "" p). reflexivity.
  - rewrite IH; [reflexivity|].
    intros u v E. apply (N (String c u) v). cbn. now rewrite E.
Qed.

Lemma join_split s : String.concat "." (split_on "." s) = s.
Proof.
  induction s as [|c s IH]; [reflexivity|]. cbn [split_on]. pose proof (split_ne "." s) as NE.
  destruct (Ascii.eqb_spec c ".") as [->|D].
  - destruct (split_on "." s) as [|p ps]; [congruence|].
    change (String.concat "." ("" :: p :: ps)) with ("" ++ "." ++ String.concat "." (p :: ps)). rewrite IH. reflexivity.
  - destruct (split_on "." s) as [|p ps]; [congruence|]. destruct ps as [|q ps].
    + cbn in *. congruence.
    + change (String.concat "." (String c p :: q :: ps)) with (String c (String.concat "." (p :: q :: ps))). now rewrite IH.
Qed.

Lemma layer_of_name a l p : no_dots a -> no_dots l -> layer_of (a ++ "." ++ l ++ "." ++ p) = Ok l.
Proof. intros A L. unfold layer_of. rewrite split_after by exact A. rewrite split_after by exact L. reflexivity. Qed.

Lemma par_of_name a l p : no_dots a -> no_dots l -> par_of (a ++ "." ++ l ++ "." ++ p) = p.
Proof.
  intros A L. unfold par_of. rewrite split_after by exact A. rewrite split_after by exact L. cbn [skipn]. apply join_split.
Qed.

Local Notation path a l p := (a ++ "." ++ l ++ "." ++ p)%string.

Section Collecting.
  Context {V : Type}.
  Variable size : V -> list nat.
  Variables (a : string) (layers : list (string * list (string * V))) (ps : list string) (sz : list (list nat)).
  Hypothesis Ha : no_dots a.
  Hypothesis Hps : NoDup ps.
  Hypothesis Hne : ps <> [].
  Hypothesis Hl : forall l, In l layers -> no_dots (fst l) /\ map fst (snd l) = ps /\ map (fun pv => size (snd pv)) (snd l) = sz.
  Hypothesis Hd : neighbours_differ (map fst layers).

  Let full (l : string * list (string * V)) : list (string * V) :=
    map (fun pv => (path a (fst l) (fst pv), snd pv)) (snd l).

  Lemma first_block_here l bl rest : no_dots l ->
    first_block size l (map (fun pv => (path a (l) (fst pv), snd pv)) bl ++ rest)%list
    = (b <- first_block size l rest ;; Ok (map (fun pv => (fst pv, size (snd pv))) bl ++ b)%list).
  Proof.
    intros L. induction bl as [|[p v] bl IH]; cbn [map app first_block fst snd].
    - destruct (first_block size l rest); reflexivity.
    - rewrite layer_of_name, par_of_name by assumption. cbn [bind]. rewrite String.eqb_refl, IH.
      destruct (first_block size l rest); reflexivity.
  Qed.

  Lemma first_block_ok l r : layers = l :: r ->
    first_block size (fst l) (network_parameters a layers) = Ok (map (fun pv => (fst pv, size (snd pv))) (snd l)).
  Proof.
    intros E. pose proof (Hl l ltac:(rewrite E; left; reflexivity)) as (L & _ & _).
    rewrite E. unfold network_parameters. cbn [flat_map]. rewrite first_block_here by exact L.
    assert (Z : first_block size (fst l) (flat_map full r) = Ok []).
    { destruct r as [|l' r]; [reflexivity|].
      destruct (Hl l' ltac:(rewrite E; right; left; reflexivity)) as (L' & P' & _).
      cbn [flat_map]. unfold full at 1. destruct (snd l') as [|[p v] bl]; [cbn in P'; congruence|].
      cbn [map app first_block fst snd]. rewrite layer_of_name by assumption. cbn [bind].
      rewrite E in Hd. cbn in Hd. destruct Hd as [D _].
      destruct (String.eqb_spec (fst l) (fst l')); [congruence|reflexivity]. }
    unfold full in Z. rewrite Z. cbn [bind]. now rewrite app_nil_r.
  Qed.

  Lemma named_length : List.length (network_parameters a layers) = (List.length layers * List.length ps)%nat.
  Proof.
    unfold network_parameters. clear Hd. induction layers as [|l r IH]; [reflexivity|]. cbn [flat_map List.length].
    rewrite app_length, map_length, IH by (intros; apply Hl; now right).
    destruct (Hl l ltac:(left; reflexivity)) as (_ & P & _). rewrite <- P, map_length. lia.
  Qed.

  Lemma initial_stacks N (block : list (string * list nat)) d : NoDup (map fst block) ->
    (forall k, In k (map fst block) -> ~ In k (map fst d)) ->
    fold_left (fun d ps => pd_set (fst ps) (mkStack (V := V) (snd ps) (repeat None N)) d) block d
    = (d ++ map (fun ps => (fst ps, mkStack (snd ps) (repeat None N))) block)%list.
  Proof.
    revert d. induction block as [|[k s] block IH]; intros d ND F; cbn [fold_left map fst snd]; [now rewrite app_nil_r|].
    inversion ND; subst. rewrite pd_set_new by (apply F; left; reflexivity). rewrite IH.
    - rewrite <- app_assoc. reflexivity.
    - assumption.
    - intros k' Hk'. rewrite map_app, in_app_iff. cbn. intros [I|[E|[]]]; [apply (F k'); [now right|exact I]|]. subst. contradiction.
  Qed.

  (** What holds before parameter [j] of layer [i] is handled. *)
  Definition collected (i j : nat) (d : pdict (stack (V := V))) : Prop :=
    map fst d = ps /\
    forall k q p v l, nth_error layers k = Some l -> nth_error (snd l) q = Some (p, v) ->
      exists st, sd_get p d = Some st /\ s_size st = size v /\ List.length (s_rows st) = List.length layers /\
        (k < i \/ (k = i /\ q < j) -> nth_error (s_rows st) k = Some (Some v))%nat.

  Lemma pd_set_keys_same (k : string) (v : stack (V := V)) d : In k (map fst d) -> map fst (pd_set k v d) = map fst d.
  Proof.
    induction d as [|[k' v'] d IH]; cbn; [tauto|]. destruct (String.eqb_spec k k') as [->|D]; [reflexivity|].
    intros [E|I]; [congruence|]. cbn. now rewrite IH.
  Qed.

  Lemma par_at l j p v : In l layers -> nth_error (snd l) j = Some (p, v) -> nth_error ps j = Some p /\ nth_error sz j = Some (size v).
  Proof.
    intros I E. destruct (Hl l I) as (_ & P & Z). rewrite <- P, <- Z. split.
    - exact (map_nth_error fst _ _ E).
    - exact (map_nth_error (fun pv => size (snd pv)) _ _ E).
  Qed.

  Lemma replace_nth {A} (l : list A) i x k : (i < List.length l)%nat ->
    nth_error (firstn i l ++ [x] ++ skipn (S i) l)%list k = if Nat.eqb k i then Some x else nth_error l k.
  Proof.
    intros Hi. destruct (Nat.eqb_spec k i) as [->|D].
    - rewrite nth_error_app2 by (rewrite firstn_length; lia). rewrite firstn_length.
      replace (i - Nat.min i (List.length l))%nat with O by lia. reflexivity.
    - destruct (Nat.lt_ge_cases k i).
      + rewrite nth_error_app1 by (rewrite firstn_length; lia). clear Hi D. revert k l H.
        induction i as [|i IH]; intros [|k] [|y l] H; cbn; try lia; try reflexivity. apply IH. lia.
      + rewrite app_assoc. rewrite nth_error_app2 by (rewrite app_length, firstn_length; cbn; lia).
        rewrite app_length, firstn_length. cbn [List.length].
        transitivity (nth_error (firstn (S i) l ++ skipn (S i) l)%list k); [|now rewrite firstn_skipn].
        rewrite nth_error_app2 by (rewrite firstn_length; lia). rewrite firstn_length. f_equal. lia.
  Qed.

  Lemma replace_length {A} (l : list A) i x : (i < List.length l)%nat ->
    List.length (firstn i l ++ [x] ++ skipn (S i) l)%list = List.length l.
  Proof. intros. rewrite !app_length, firstn_length, skipn_length. cbn. lia. Qed.

  Lemma collect_par i j d l p v cur nr : nth_error layers i = Some l -> nth_error (snd l) j = Some (p, v) ->
    collected i j d -> (cur = fst l /\ nr = i) \/ (cur <> fst l /\ S nr = i) ->
    exists d', collect_step size (cur, nr, d) (path a (fst l) (p), v) = Ok (fst l, i, d') /\ collected i (S j) d'.
  Proof.
    intros El Ep [Kd Hc] Hcur. pose proof (nth_error_In _ _ El) as Il. destruct (Hl l Il) as (L & P & Z).
    unfold collect_step. cbn [fst snd]. rewrite layer_of_name, par_of_name by assumption. cbn [bind].
    assert (Ec : (if String.eqb cur (fst l) then (cur, nr) else (fst l, S nr)) = (fst l, i)).
    { destruct Hcur as [[-> ->]|[D E]]; [now rewrite String.eqb_refl|].
      destruct (String.eqb_spec cur (fst l)); [contradiction|]. now rewrite E. }
    rewrite Ec. destruct (Hc i j p v l El Ep) as (st & G & Sz & Ln & _).
    unfold sd_item. rewrite G. cbn [bind]. unfold assign_row.
    assert (Hi : (i < List.length (s_rows st))%nat) by (rewrite Ln; apply nth_error_Some; congruence).
    rewrite (proj2 (Nat.ltb_lt _ _) Hi). cbn [negb].
    destruct (list_eq_dec Nat.eq_dec (size v) (s_size st)) as [_|N]; [|congruence]. cbn [bind].
    eexists. split; [reflexivity|]. split.
    - rewrite pd_set_keys_same; [exact Kd|]. rewrite Kd. apply (nth_error_In _ j). now apply (par_at l j p v Il).
    - intros k q p' v' l' Ek Eq. destruct (Hc k q p' v' l' Ek Eq) as (st' & G' & Sz' & Ln' & R').
      destruct (string_dec p' p) as [->|D].
      + rewrite G in G'. injection G' as <-.
        exists (mkStack (s_size st) (firstn i (s_rows st) ++ [Some v] ++ skipn (S i) (s_rows st))%list).
        split; [apply pd_get_set_same'|]. cbn [s_size s_rows]. split; [exact Sz'|].
        split; [rewrite replace_length by exact Hi; exact Ln|]. intros HH. rewrite replace_nth by exact Hi.
        assert (Eqj : q = j).
        { apply (proj1 (NoDup_nth_error ps) Hps).
          - apply nth_error_Some. rewrite (proj1 (par_at l' q p v' (nth_error_In _ _ Ek) Eq)). discriminate.
          - rewrite (proj1 (par_at l' q p v' (nth_error_In _ _ Ek) Eq)). now rewrite (proj1 (par_at l j p v Il Ep)). }
        destruct (Nat.eqb_spec k i) as [->|Dk].
        * rewrite El in Ek. injection Ek as <-. rewrite Eqj, Ep in Eq. now injection Eq as <-.
        * apply R'. lia.
      + exists st'. split; [rewrite pd_get_set_other' by exact D; exact G'|]. split; [exact Sz'|]. split; [exact Ln'|].
        intros HH. apply R'. destruct HH as [H|[E H]]; [now left|]. right. split; [exact E|].
        assert (q <> j); [|lia]. intros ->. subst k. rewrite El in Ek. injection Ek as <-. rewrite Ep in Eq. injection Eq as E _. congruence.
  Qed.

  Lemma collect_rest i j d l : nth_error layers i = Some l -> collected i j d ->
    exists d', foldM (collect_step size) (skipn j (full l)) (fst l, i, d) = Ok (fst l, i, d') /\
      collected i (List.length (snd l)) d'.
  Proof.
    intros El. remember (List.length (snd l) - j)%nat as m eqn:Em. revert j d Em.
    induction m as [|m IH]; intros j d Em C.
    - exists d. rewrite skipn_all2 by (unfold full; rewrite map_length; lia). split; [reflexivity|].
      destruct C as [K C]. split; [exact K|]. intros k q p v l' Ek Eq. destruct (C k q p v l' Ek Eq) as (st & A1 & A2 & A3 & A4).
      exists st. repeat split; try assumption. intros HH. apply A4. lia.
    - destruct (nth_error (snd l) j) as [[p v]|] eqn:Ep; [|apply nth_error_None in Ep; lia].
      destruct (collect_par i j d l p v (fst l) i El Ep C ltac:(left; split; reflexivity)) as (d' & E & C').
      destruct (IH (S j) d' ltac:(lia) C') as (d'' & E' & C''). exists d''. split; [|exact C''].
      assert (Sk : skipn j (full l) = (path a (fst l) (p), v) :: skipn (S j) (full l)).
      { assert (Ef : nth_error (full l) j = Some (path a (fst l) (p), v)).
        { unfold full. exact (map_nth_error (fun pv => (path a (fst l) (fst pv), snd pv)) _ _ Ep). }
        clear - Ef. revert j Ef. induction (full l) as [|x f IH]; intros [|j] Ef; cbn in *; try discriminate.
        - congruence.
        - now apply IH. }
      rewrite Sk. cbn [foldM]. rewrite E. cbn [bind]. exact E'.
  Qed.

  Lemma collected_next i l d : nth_error layers i = Some l -> collected i (List.length (snd l)) d -> collected (S i) 0 d.
  Proof.
    intros El [K C]. split; [exact K|]. intros k q p v l' Ek Eq. destruct (C k q p v l' Ek Eq) as (st & A1 & A2 & A3 & A4).
    exists st. repeat split; try assumption. intros HH. apply A4. destruct (Nat.eq_dec k i) as [->|]; [right|left; lia].
    split; [reflexivity|]. rewrite El in Ek. injection Ek as <-. apply nth_error_Some. congruence.
  Qed.

  Lemma differ_at : forall (names : list string), neighbours_differ names ->
    forall k x y, nth_error names k = Some x -> nth_error names (S k) = Some y -> x <> y.
  Proof.
    induction names as [|n names IH]; intros N [|k] x y E1 E2; cbn in E1, E2; try discriminate.
    - destruct names; cbn in E2; [discriminate|]. cbn in N. destruct N as [N _]. congruence.
    - destruct names as [|n' names]; [destruct k; discriminate|]. cbn in N. destruct N as [_ N]. exact (IH N k x y E1 E2).
  Qed.

  Lemma collect_layers i d cur nr : (i <= List.length layers)%nat -> collected i 0 d ->
    (i = O -> exists l r, layers = l :: r /\ cur = fst l /\ nr = O) ->
    (forall m, i = S m -> exists l, nth_error layers m = Some l /\ cur = fst l /\ nr = m) ->
    exists cur' nr' d', foldM (collect_step size) (flat_map full (skipn i layers)) (cur, nr, d) = Ok (cur', nr', d') /\
      collected (List.length layers) 0 d'.
  Proof.
    remember (List.length layers - i)%nat as m eqn:Em. revert i d cur nr Em.
    induction m as [|m IH]; intros i d cur nr Em Hi C H0 HS.
    - replace i with (List.length layers) in * by lia. rewrite skipn_all. exists cur, nr, d. split; [reflexivity|exact C].
    - destruct (nth_error layers i) as [l|] eqn:El; [|apply nth_error_None in El; lia].
      destruct (Hl l (nth_error_In _ _ El)) as (_ & P & _).
      assert (Sk : skipn i layers = l :: skipn (S i) layers).
      { clear - El. revert i El. induction layers as [|x f IH]; intros [|i] El; cbn in *; try discriminate.
        - congruence.
        - now apply IH. }
      rewrite Sk. cbn [flat_map]. rewrite foldM_app.
      destruct (snd l) as [|[p v] bl] eqn:Eb; [cbn in P; congruence|].
      assert (Ep : nth_error (snd l) 0 = Some (p, v)) by now rewrite Eb.
      assert (Hcur : (cur = fst l /\ nr = i) \/ (cur <> fst l /\ S nr = i)).
      { destruct i as [|i].
        - destruct (H0 eq_refl) as (l' & r & E & -> & ->). rewrite E in El. cbn in El. injection El as <-. left. split; reflexivity.
        - destruct (HS i eq_refl) as (l' & E & -> & ->). right. split; [|reflexivity].
          apply (differ_at _ Hd i); [exact (map_nth_error fst _ _ E)|exact (map_nth_error fst _ _ El)]. }
      destruct (collect_par i 0 d l p v cur nr El Ep C Hcur) as (d1 & E1 & C1).
      destruct (collect_rest i 1 d1 l El C1) as (d2 & E2 & C2).
      assert (F : foldM (collect_step size) (full l) (cur, nr, d) = Ok (fst l, i, d2)).
      { unfold full in E2 |- *. rewrite Eb in E2 |- *. cbn [map skipn fst snd] in E2 |- *. cbn [foldM]. rewrite E1. cbn [bind]. exact E2. }
      rewrite F. cbn [bind].
      apply (IH (S i) d2 (fst l) i); [lia|assert (i < List.length layers)%nat by (apply nth_error_Some; congruence); lia|now apply (collected_next i l)|discriminate|].
      intros k Ek. injection Ek as <-. exists l. split; [exact El|split; reflexivity].
  Qed.

  Lemma collect_ok : layers <> [] ->
    exists d, collect size (network_parameters a layers) = Ok d /\ map fst d = ps /\
      forall i j l p v, nth_error layers i = Some l -> nth_error (snd l) j = Some (p, v) ->
        exists st, sd_get p d = Some st /\ s_size st = size v /\ List.length (s_rows st) = List.length layers /\
          nth_error (s_rows st) i = Some (Some v).
  Proof.
    intros NE. destruct layers as [|l0 r] eqn:EL; [congruence|]. rewrite <- EL in *. clear NE.
    destruct (Hl l0 ltac:(rewrite EL; left; reflexivity)) as (L0 & P0 & Z0).
    pose proof (first_block_ok l0 r EL) as FB.
    assert (Nd : exists v nm, network_parameters a layers = (path a (fst l0) (hd "" ps), v) :: nm).
    { rewrite EL. unfold network_parameters. cbn [flat_map]. destruct (snd l0) as [|[p v] bl]; [cbn in P0; congruence|].
      rewrite <- P0. cbn. eauto. }
    destruct Nd as (v0 & nm & Nd). unfold collect. rewrite Nd. rewrite <- Nd. cbn [fst].
    rewrite layer_of_name by assumption. cbn [bind]. rewrite FB. cbn [bind].
    rewrite named_length. rewrite map_length.
    assert (Lp : List.length (snd l0) = List.length ps) by (rewrite <- P0; now rewrite map_length). rewrite Lp.
    rewrite Nat.div_mul by (intros E; apply length_zero_iff_nil in E; contradiction).
    rewrite initial_stacks; [|rewrite map_map; cbn [fst]; change (NoDup (map fst (snd l0))); now rewrite P0|cbn; tauto].
    cbn [app]. rewrite map_map. cbn [fst snd].
    match goal with |- context [foldM _ _ (_, _, ?d)] => set (d0 := d) end.
    assert (C : collected 0 0 d0).
    { split; [unfold d0; rewrite map_map; exact P0|]. intros k q p v l Ek Eq.
      assert (Il : In l layers) by exact (nth_error_In _ _ Ek).
      destruct (par_at l q p v Il Eq) as [Ep Es].
      destruct (nth_error (snd l0) q) as [[p0 w]|] eqn:E0.
      2:{ apply nth_error_None in E0. rewrite Lp in E0. apply nth_error_None in E0. congruence. }
      destruct (par_at l0 q p0 w ltac:(rewrite EL; left; reflexivity) E0) as [Ep0 Es0].
      rewrite Ep in Ep0. injection Ep0 as <-. rewrite Es in Es0. injection Es0 as Es0.
      exists (mkStack (size w) (repeat None (List.length layers))). split.
      - unfold d0.
        assert (ND : NoDup (map fst (snd l0))) by now rewrite P0.
        clear - ND E0. revert q E0. induction (snd l0) as [|[p1 v1] bl IH]; intros [|q] E0; cbn [nth_error] in E0; try discriminate.
        + injection E0 as -> ->. cbn. now rewrite String.eqb_refl.
        + cbn [map sd_get fst snd]. inversion ND; subst. destruct (String.eqb_spec p p1) as [->|D]; [|now apply (IH H2 q)].
          exfalso. apply H1. change p1 with (fst (p1, w)). apply in_map. exact (nth_error_In _ _ E0).
      - cbn [s_size s_rows]. split; [congruence|]. split; [apply repeat_length|]. lia. }
    destruct (collect_layers 0 d0 (fst l0) 0 ltac:(lia) C) as (c' & n' & d' & E & C').
    - intros _. exists l0, r. split; [exact EL|split; reflexivity].
    - discriminate.
    - cbn [skipn] in E. unfold full in E. unfold network_parameters. rewrite E. cbn [bind snd].
      exists d'. split; [reflexivity|]. destruct C' as [K C']. split; [exact K|]. intros i j l p v Ei Ej.
      destruct (C' i j p v l Ei Ej) as (st & A1 & A2 & A3 & A4). exists st. repeat split; try assumption. apply A4. left.
      apply nth_error_Some. congruence.
  Qed.
End Collecting.

(** ** The networks made of replicated blocks *)
Lemma digits_no_dot u : no_dots (DecimalString.NilEmpty.string_of_uint u).
Proof.
  induction u; cbn [DecimalString.NilEmpty.string_of_uint]; intros [|c p] q E; cbn in E; try discriminate;
    injection E; intros E2; try (intros _ || idtac); try exact (IHu p q E2); try discriminate;
    try (intros E3; discriminate); try (intros <-; exact (IHu p q E2)).
Qed.

Lemma layer_name_no_dots i : no_dots (layer_name i).
Proof.
  unfold layer_name, str_nat. intros [|c p] q E; cbn in E; [discriminate|]. injection E as _ E.
  exact (digits_no_dot _ p q E).
Qed.

Lemma layered_eq {V} (block : nat -> list (string * V)) n :
  layered block n = network_parameters "model" (map (fun i => (layer_name i, block i)) (seq 0 n)).
Proof.
  unfold layered, network_parameters. rewrite replicate_eq. generalize (seq 0 n). intros l.
  induction l as [|i l IH]; [reflexivity|]. cbn [map flat_map]. unfold under at 1. rewrite map_app. f_equal.
  - unfold under. rewrite map_map. reflexivity.
  - exact IH.
Qed.

Lemma names_differ m n : neighbours_differ (map (fun i => layer_name i) (seq m n)).
Proof.
  revert m. induction n as [|n IH]; intros m; [exact I|]. destruct n as [|n]; [exact I|].
  specialize (IH (S m)). cbn [seq map neighbours_differ] in *. split; [|exact IH].
  intros E. apply layer_name_inj in E. lia.
Qed.

Lemma layered_collected {V} (size : V -> list nat) (block : nat -> list (string * V)) n ps sz :
  NoDup ps -> ps <> [] -> (0 < n)%nat ->
  (forall i, (i < n)%nat -> map fst (block i) = ps /\ map (fun pv => size (snd pv)) (block i) = sz) ->
  exists d, collect size (layered block n) = Ok d /\ map fst d = ps /\
    forall i j p v, (i < n)%nat -> nth_error (block i) j = Some (p, v) ->
      exists st, sd_get p d = Some st /\ s_size st = size v /\ List.length (s_rows st) = n /\
        nth_error (s_rows st) i = Some (Some v).
Proof.
  intros ND NE Hn Hb. rewrite layered_eq.
  destruct (collect_ok size "model" (map (fun i => (layer_name i, block i)) (seq 0 n)) ps sz) as (d & E & K & R);
    try assumption.
  - intros [|c p] q H; cbn in H; [discriminate|]. do 5 (destruct p as [|? p]; cbn in H; [discriminate|]).
    destruct p; discriminate.
  - intros l Il. apply in_map_iff in Il. destruct Il as (i & <- & Ii). apply in_seq in Ii. cbn [fst snd].
    split; [apply layer_name_no_dots|]. apply Hb. lia.
  - rewrite map_map. cbn [fst]. apply names_differ.
  - destruct n; [lia|discriminate].
  - exists d. split; [exact E|]. split; [exact K|]. intros i j p v Hi Ej.
    destruct (R i j (layer_name i, block i) p v) as (st & A1 & A2 & A3 & A4).
    + apply (map_nth_error (fun i => (layer_name i, block i))).
      rewrite nth_error_nth' with (d := O) by (rewrite seq_length; lia). now rewrite seq_nth by lia.
    + exact Ej.
    + exists st. rewrite map_length, seq_length in A3. repeat split; assumption.
Qed.

(** ** Numbers of parameters *)
Definition trainable (m : params) (n : nat) : Prop := compute_number_of_parameters m = (O, n, n).

Lemma count_from (m : params) f o : Forall (fun kv : string * par => p_grad (snd kv) = true) m ->
  fold_left (fun s kv => let '(f, o) := s in
     if p_grad (snd kv) then (f, (o + numel (snd kv))%nat) else ((f + numel (snd kv))%nat, o)) m (f, o)
  = (f, (o + list_sum (map (fun kv => numel (snd kv)) m))%nat).
Proof.
  revert o. induction m as [|kv m IH]; intros o H; cbn [fold_left map list_sum fold_right]; [now rewrite Nat.add_0_r|].
  inversion H; subst. rewrite H2, IH by assumption. f_equal. change (fold_right Nat.add 0) with list_sum. cbn. lia.
Qed.

Lemma trainable_intro (m : params) n : Forall (fun kv : string * par => p_grad (snd kv) = true) m ->
  list_sum (map (fun kv => numel (snd kv)) m) = n -> trainable m n.
Proof. intros H E. unfold trainable, compute_number_of_parameters. rewrite count_from by exact H. now rewrite E. Qed.

Lemma layered_counts block n k : Forall (fun kv : string * par => p_grad (snd kv) = true) block ->
  list_sum (map (fun kv => numel (snd kv)) block) = k -> trainable (layered (fun _ => block) n) (n * k).
Proof.
  intros H E. rewrite layered_eq. generalize O. intros m. unfold network_parameters. apply trainable_intro.
  - apply Forall_forall. intros kv Hk. apply in_flat_map in Hk. destruct Hk as (l & Il & Hk).
    apply in_map_iff in Il. destruct Il as (i & <- & _). apply in_map_iff in Hk. destruct Hk as (pv & <- & Ip). cbn [snd] in *.
    rewrite Forall_forall in H. now apply H.
  - revert m. induction n as [|n IH]; intros m; [reflexivity|]. cbn [seq map flat_map].
    rewrite map_app, list_sum_app, IH, map_map. cbn [snd]. rewrite E. reflexivity.
Qed.

Lemma resnet_count n : trainable (layered (fun _ => simple_block_params) n) (2 * n).
Proof. rewrite Nat.mul_comm. apply layered_counts; [repeat constructor|reflexivity]. Qed.

Lemma updown_count f n : trainable (layered (fun _ => updown_block_params f) n) ((3 * f + 1) * n).
Proof. rewrite Nat.mul_comm. apply layered_counts; [repeat constructor|]. cbn. unfold numel. cbn. lia. Qed.

Lemma double_count f n : trainable (layered (fun _ => double_block_params f) n) ((2 * f + 1) * n).
Proof. rewrite Nat.mul_comm. apply layered_counts; [repeat constructor|]. cbn. unfold numel. cbn. lia. Qed.

Lemma double_rnn_count f : trainable (double_rnn_params f) (2 * f + 1).
Proof. apply trainable_intro; [repeat constructor|]. cbn. unfold numel. cbn. lia. Qed.

Lemma rnn_count f : trainable (rnn_params f) (3 * f + 1).
Proof. apply trainable_intro; [repeat constructor|]. cbn. unfold numel. cbn. lia. Qed.

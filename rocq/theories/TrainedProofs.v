(** The parameters of the blocks of the demos. *)
From Coq Require Import List String Ascii ZArith QArith Bool Lia Decimal DecimalString.
From Verif Require Import Base BaseFacts ArgparseModel ExperimentModel BlockModel BlockProofs3 IntegratorModel ResNetProofs SetupModel SetupSpec
  SetupProofs2 TrainedModel TrainedSpec.
Import ListNotations.
Open Scope string_scope.
Open Scope list_scope.
Open Scope nat_scope.

Definition all_models : list string := ["simple"; "2nd_order"; "updown"; "updown_universal"; "general_updown"; "periodic"; "dampened_updown"].

(** ** What is created *)

Definition states_of (mo : string) (n d e : Z) : sdict size :=
  match mo with
  | "simple" => [("q1", [n; 1; d])]
  | "2nd_order" => [("q1", [n; 1; d]); ("q2", [n; 1; d])]
  | "dampened_updown" => [("c1", [n; 1; 1]); ("c2", [n; 1; 1]); ("q1", [n; 1; d]); ("q2", [n; 1; e])]
  | _ => [("q1", [n; 1; d]); ("q2", [n; 1; e])]
  end%Z.
Definition pair_of (l : string * Z * Z * bool) : string * sdict size :=
  let '(name, o, i, b) := l in (name, if b then [("bias", [o]); ("weight", [o; i])] else [("weight", [o; i])]).
Definition layers_of (mo : string) (d e : Z) : sdict (sdict size) := map pair_of (model_layers mo d e).

Definition integrand_of (mo : string) (st co : kw) (d n infl : Z) (pw w : Q) (nl : string) (rnn an op' op : bool) (ty' ty : string) :=
  SetupModel.mkIntegrand (class_name mo) (base_attrs st co d n pw nl rnn an op' ty' ++ own_attrs mo infl w op ty d).

Lemma a_f mo st co d n infl pw w nl rnn an op' op ty' ty : In mo all_models -> mo <> "simple" -> mo <> "2nd_order" ->
  int_attr "inflation_factor" (integrand_of mo st co d n infl pw w nl rnn an op' op ty' ty) = Ok infl.
Proof. intros M A B. unfold integrand_of. each M; try congruence; reflexivity. Qed.

Lemma sized_ok s : Forall (fun z => (0 <= z)%Z) s -> sized s = Ok s.
Proof.
  intros H. unfold sized. replace (forallb (Z.leb 0) s) with true; [reflexivity|]. symmetry. apply forallb_forall.
  rewrite Forall_forall in H. intros z Z. apply Z.leb_le. auto.
Qed.
Ltac sized := repeat match goal with |- context [TrainedModel.sized ?s] =>
  rewrite (sized_ok s) by (repeat constructor; try assumption; lia) end.

Lemma initial_states_made mo st co d n infl pw w nl rnn an op' op ty' ty : In mo all_models -> (0 <= d)%Z -> (0 <= n)%Z -> (0 <= infl)%Z ->
  initial_states (integrand_of mo st co d n infl pw w nl rnn an op' op ty' ty) = Ok (states_of mo n d (d * infl)).
Proof.
  intros M D N F. assert (E : (0 <= d * infl)%Z) by (apply Z.mul_nonneg_nonneg; assumption).
  set (g := integrand_of mo st co d n infl pw w nl rnn an op' op ty' ty). unfold initial_states.
  change (int_attr "nr_of_particles" g) with (Ok n). change (int_attr "particle_size" g) with (Ok d).
  change (int_attr "particle_dimension" g) with (Ok 1%Z). change (g_class g) with (class_name mo). cbn [bind].
  unfold particles. sized. cbn [bind].
  assert (A : mo <> "simple" -> mo <> "2nd_order" -> int_attr "inflation_factor" g = Ok infl) by (intros; apply a_f; assumption).
  clearbody g. each M.
  1-2: reflexivity.
  all: cbn -[int_attr TrainedModel.sized]; rewrite A by discriminate; cbn [bind]; sized; reflexivity.
Qed.

Lemma linear_ok i o b : (0 <= i)%Z -> (0 <= o)%Z ->
  linear_sizes i o b = Ok (if b then [("bias", [o]); ("weight", [o; i])] else [("weight", [o; i])]).
Proof. intros I O. unfold linear_sizes. sized. reflexivity. Qed.

Lemma layers_made mo st co d n infl pw w nl rnn an op' op ty' ty : In mo all_models -> (0 <= d)%Z -> (0 <= infl)%Z ->
  layer_sizes (integrand_of mo st co d n infl pw w nl rnn an op' op ty' ty) = Ok (layers_of mo d (d * infl)).
Proof.
  intros M D F. assert (E : (0 <= d * infl)%Z) by (apply Z.mul_nonneg_nonneg; assumption).
  set (g := integrand_of mo st co d n infl pw w nl rnn an op' op ty' ty). unfold layer_sizes.
  change (int_attr "in_features" g) with (Ok d). change (g_class g) with (class_name mo). cbn [bind].
  assert (A : mo <> "simple" -> mo <> "2nd_order" -> int_attr "inflation_factor" g = Ok infl) by (intros; apply a_f; assumption).
  clearbody g. each M; cbn -[int_attr linear_sizes Z.mul]; try (rewrite A by discriminate);
    cbn -[int_attr linear_sizes Z.mul]; repeat (rewrite linear_ok by assumption; cbn [bind]); reflexivity.
Qed.

Definition data_list (mo : string) (d e : Z) (op : bool) (ty : string) : list (string * size) :=
  if op && str_in mo data_models then
    match ty with
    | "direct" => [("data_q20", [1; e])]
    | "linear" => [("simple_init.weight", [e; d]); ("simple_init.bias", [e])]
    | _ => [("init_l1.weight", [10; d]); ("init_l1.bias", [10]); ("init_l2.weight", [e; 10]); ("init_l2.bias", [e])]
    end%Z
  else [].

Lemma integrand_parameters_made mo st co d n infl pw w nl rnn an op' op ty' ty : In mo all_models ->
  attribute_parameters "_state_initializer" st = [] -> attribute_parameters "_costate_initializer" co = [] ->
  In ty ["direct"; "linear"; "mini_nn"] ->
  integrand_parameters (integrand_of mo st co d n infl pw w nl rnn an op' op ty' ty) = data_list mo d (d * infl) op ty.
Proof.
  intros M A B T. unfold integrand_parameters, integrand_of, base_attrs. cbn [g_attrs]. rewrite flat_map_app. cbn [flat_map fst snd].
  rewrite A, B. unfold data_list. each T; each M; destruct op; reflexivity.
Qed.

(** ** Registration *)

Lemma pd_set_new {A} k (v : A) r : ~ In k (map fst r) -> pd_set k v r = r ++ [(k, v)].
Proof.
  induction r as [|(k', v') r IH]; intros H; [reflexivity|]. cbn [pd_set map fst In app] in *.
  destruct (String.eqb_spec k k') as [->|]; [intuition|]. rewrite IH; [reflexivity|]. intuition.
Qed.

Definition fit (name : string) : Prop := has_dot name = false /\ name <> "" /\ block_attribute name = false.

Lemma register_all {X} (nm : X -> string) (ob : X -> pobj) l : forall r,
  NoDup (map fst r ++ map nm l) -> Forall (fun x => fit (nm x)) l ->
  foldM (fun r x => register_parameter block_attribute (nm x) (ob x) r) l r = Ok (r ++ map (fun x => (nm x, ob x)) l).
Proof.
  induction l as [|x l IH]; intros r ND FI; cbn [foldM map] in *; [rewrite app_nil_r; reflexivity|].
  inversion FI as [|? ? (H1 & H2 & H3) FI']; subst. unfold register_parameter at 1. rewrite H1, H3.
  destruct (String.eqb_spec (nm x) ""); [contradiction|]. cbn [andb bind].
  pose proof (NoDup_remove _ _ _ ND) as (ND' & NI).
  rewrite pd_set_new by (intros I; apply NI, in_or_app; left; exact I).
  rewrite IH; [rewrite <- app_assoc; reflexivity| |assumption].
  rewrite map_app, <- app_assoc. exact ND.
Qed.

Lemma undot_list : forall mo d e op ty, In mo all_models -> In ty ["direct"; "linear"; "mini_nn"] ->
  Forall (fun x => fit (undot x)) (map fst (data_list mo d e op ty)).
Proof.
  intros mo d e op ty M T. unfold data_list. each T; each M; destruct op; repeat constructor; discriminate.
Qed.

(** ** Blocks with particles *)

Definition undotted (l : list (string * size)) : list (string * size) := map (fun x => (undot (fst x), snd x)) l.

Lemma particle_block mo st co d n infl pw w nl rnn an op' op ty' ty m :
  In mo all_models -> (0 <= d)%Z -> (0 <= n)%Z -> (0 <= infl)%Z ->
  attribute_parameters "_state_initializer" st = [] -> attribute_parameters "_costate_initializer" co = [] ->
  In ty ["direct"; "linear"; "mini_nn"] ->
  m_integrand m = integrand_of mo st co d n infl pw w nl rnn an op' op ty' ty ->
  m_free_rnn m = false -> m_free_time m = false ->
  block_parameters m = Ok (states_of mo n d (d * infl) ++ initial_costates (states_of mo n d (d * infl)) ++ undotted (data_list mo d (d * infl) op ty)).
Proof.
  intros M D N F A B T G R1 R2. unfold block_parameters. rewrite G, R1, R2. cbn [orb].
  rewrite initial_states_made by assumption. cbn [bind].
  rewrite integrand_parameters_made by assumption. unfold data_list. generalize (d * infl)%Z. intros e.
  each M; each T; destruct op; vm_compute; reflexivity.
Qed.

(** ** Blocks without *)

Definition free_list (sets : nat) (layers : sdict (sdict size)) : list (string * size) :=
  flat_map (fun i => flat_map (fun l => map (fun k => (free_name i (fst l) (fst k), snd k)) (snd l)) layers) (seq 0 sets).

Definition free_triples (sets : nat) (layers : sdict (sdict size)) : list (nat * string * string) :=
  flat_map (fun i => flat_map (fun l => map (fun k => (i, fst l, fst k)) (snd l)) layers) (seq 0 sets).

Lemma flat_map_ext_in {X Y} (f g : X -> list Y) l : (forall x, In x l -> f x = g x) -> flat_map f l = flat_map g l.
Proof. induction l as [|a l IH]; intros H; [reflexivity|]. cbn. rewrite H, IH; [reflexivity| |left; reflexivity]. intros; apply H; right; assumption. Qed.

Lemma flat_map_map' {X Y Z'} (g : X -> Y) (f : Y -> list Z') l : flat_map f (map g l) = flat_map (fun x => f (g x)) l.
Proof. induction l as [|a l IH]; [reflexivity|]. cbn. rewrite IH. reflexivity. Qed.

Lemma combine_repeat {X} (x : X) k s : combine (seq s k) (repeat x k) = map (fun i => (i, x)) (seq s k).
Proof. revert s. induction k as [|k IH]; intros s; [reflexivity|]. cbn. rewrite IH. reflexivity. Qed.

Lemma triples_repeat sets (layers : sdict (sdict size)) :
  triples (repeat (map (fun l => (fst l, map fst (snd l))) layers) sets) = free_triples sets layers.
Proof.
  unfold triples, free_triples. rewrite repeat_length, combine_repeat, flat_map_map'. apply flat_map_ext_in. intros i _. cbn [fst snd].
  rewrite flat_map_map'. apply flat_map_ext_in. intros l _. cbn [fst snd]. rewrite map_map. reflexivity.
Qed.

Lemma free_prefix i l k : exists r, free_name i l k = ("pf_timestep" ++ r)%string.
Proof. eexists. reflexivity. Qed.
Lemma attribute_free i l k : block_attribute (free_name i l k) = false.
Proof. reflexivity. Qed.
Lemma has_dot_app a b : has_dot (a ++ b) = has_dot a || has_dot b.
Proof. induction a as [|c a IH]; [reflexivity|]. cbn. rewrite IH, orb_assoc. reflexivity. Qed.
Lemma has_dot_uint u : has_dot (NilEmpty.string_of_uint u) = false.
Proof. induction u; cbn; auto. Qed.
Lemma fit_free i l k : has_dot l = false -> has_dot k = false -> fit (free_name i l k).
Proof.
  intros H1 H2. split; [|split; [discriminate|reflexivity]]. unfold free_name. rewrite !has_dot_app. unfold str_nat.
  rewrite has_dot_uint, H1, H2. reflexivity.
Qed.

Definition layer_keys (layers : sdict (sdict size)) : Prop :=
  NoDup (map fst layers) /\ Forall (fun l => has_dot (fst l) = false /\ NoDup (map fst (snd l)) /\
    Forall (fun k => has_dot (fst k) = false /\ has_underscore (fst k) = false) (snd l)) layers.

Lemma layer_keys_of mo d e : In mo all_models -> layer_keys (layers_of mo d e).
Proof.
  intros M. each M; (split; [apply SetupProofs.nodupb_ok; reflexivity|]); unfold layers_of; cbn [map model_layers pair_of];
    repeat (constructor; [split; [reflexivity|split; [apply SetupProofs.nodupb_ok; reflexivity|repeat constructor]]|]); constructor.
Qed.

Lemma sd_item_in {A} (d : sdict A) : NoDup (map fst d) -> forall k v, In (k, v) d -> sd_item k d = Ok v.
Proof.
  unfold sd_item. induction d as [|(k', v') d IH]; intros ND k v I; [destruct I|]. cbn [sd_get map fst] in *. inversion ND as [|? ? N1 N2]; subst.
  destruct I as [E|I].
  - injection E as -> ->. rewrite String.eqb_refl. reflexivity.
  - destruct (String.eqb_spec k k') as [->|]; [|auto]. exfalso. apply N1. apply in_map_iff. exists (k', v). auto.
Qed.

Lemma in_free_triples sets layers i l k : In (i, l, k) (free_triples sets layers) <->
  i < sets /\ exists ps s, In (l, ps) layers /\ In (k, s) ps.
Proof.
  unfold free_triples. rewrite in_flat_map. split.
  - intros (i' & I1 & I2). apply in_flat_map in I2 as ((l', ps) & I2 & I3). apply in_map_iff in I3 as ((k', s) & E & I3).
    cbn [fst snd] in *. injection E as -> -> ->. apply in_seq in I1. split; [lia|]. exists ps, s. auto.
  - intros (L & ps & s & I1 & I2). exists i. split; [apply in_seq; lia|]. apply in_flat_map. exists (l, ps). split; [exact I1|].
    apply in_map_iff. exists (k, s). auto.
Qed.

Lemma nodup_free_triples sets layers : layer_keys layers -> NoDup (free_triples sets layers).
Proof.
  intros (K1 & K2). rewrite Forall_forall in K2. unfold free_triples. apply nodup_flat_map; [apply seq_NoDup| |].
  - intros i _. apply nodup_flat_map.
    + eapply NoDup_map_inv. exact K1.
    + intros (l, ps) I. destruct (K2 _ I) as (_ & N & _). cbn [fst snd] in *.
      rewrite <- (map_map (@fst string size) (fun k => (i, l, k))). apply FinFun.Injective_map_NoDup; [|exact N].
      intros a b E. congruence.
    + intros (l, ps) (l', ps') y I I' Y Y'. apply in_map_iff in Y as (k & <- & _). apply in_map_iff in Y' as (k' & E & _).
      cbn [fst snd] in *. injection E as E1 E2. subst l'.
      pose proof (sd_item_in _ K1 _ _ I) as A. rewrite (sd_item_in _ K1 _ _ I') in A. congruence.
  - intros i i' y _ _ Y Y'. apply in_flat_map in Y as (l & _ & Y). apply in_map_iff in Y as (k & <- & _).
    apply in_flat_map in Y' as (l' & _ & Y'). apply in_map_iff in Y' as (k' & E & _). congruence.
Qed.

Lemma nodup_free_names sets layers : layer_keys layers -> NoDup (map triple_name (free_triples sets layers)).
Proof.
  intros K. apply nodup_map_on; [apply nodup_free_triples; exact K|]. destruct K as (K1 & K2). rewrite Forall_forall in K2.
  intros ((i, l), k) ((i', l'), k') I I' E. apply in_free_triples in I as (_ & ps & s & I1 & I2).
  apply in_free_triples in I' as (_ & ps' & s' & I1' & I2').
  destruct (K2 _ I1) as (_ & _ & U). destruct (K2 _ I1') as (_ & _ & U'). rewrite Forall_forall in U, U'.
  destruct (free_name_inj i l k i' l' k' (proj2 (U _ I2)) (proj2 (U' _ I2')) E) as (-> & -> & ->). reflexivity.
Qed.

Lemma map_flat_map {X Y W} (f : Y -> W) (g : X -> list Y) l : map f (flat_map g l) = flat_map (fun x => map f (g x)) l.
Proof. induction l as [|a l IH]; [reflexivity|]. cbn. rewrite map_app, IH. reflexivity. Qed.

Definition size_in (layers : sdict (sdict size)) (l k : string) : size :=
  match sd_get l layers with Some ps => match sd_get k ps with Some s => s | None => [] end | None => [] end.

Lemma free_list_triples sets layers : layer_keys layers ->
  free_list sets layers = map (fun t => let '(i, l, k) := t in (free_name i l k, size_in layers l k)) (free_triples sets layers).
Proof.
  intros (K1 & K2). rewrite Forall_forall in K2. unfold free_triples, free_list. rewrite map_flat_map. apply flat_map_ext_in. intros i _.
  rewrite map_flat_map. apply flat_map_ext_in. intros (l, ps) I. rewrite map_map. apply map_ext_in. intros (k, s) J. cbn [fst snd] in *.
  unfold size_in. destruct (K2 _ I) as (_ & N & _). cbn [snd] in N. pose proof (sd_item_in _ K1 _ _ I) as A. pose proof (sd_item_in _ N _ _ J) as B.
  unfold sd_item in A, B. destruct (sd_get l layers); [injection A as ->|discriminate]. destruct (sd_get k ps); [injection B as ->|discriminate].
  reflexivity.
Qed.

Lemma mapM_app {X Y} (f : X -> result Y) a b a' b' : mapM f a = Ok a' -> mapM f b = Ok b' -> mapM f (a ++ b) = Ok (a' ++ b').
Proof.
  revert a'. induction a as [|x a IH]; intros a' A B; cbn in *; [injection A as <-; exact B|].
  destruct (f x); [|discriminate]. cbn [bind] in *. destruct (mapM f a) as [a1|]; [|discriminate]. cbn [bind] in *. injection A as <-.
  rewrite (IH _ eq_refl B). reflexivity.
Qed.

Lemma data_sizes mo d e op ty : In mo all_models -> In ty ["direct"; "linear"; "mini_nn"] -> forall states layers,
  mapM (fun no => s <- size_of states layers (data_list mo d e op ty) (snd no) ;; Ok (fst no, s))
    (map (fun x => (undot x, OIntegrand x)) (map fst (data_list mo d e op ty))) = Ok (undotted (data_list mo d e op ty)).
Proof. intros M T states layers. unfold data_list. each T; each M; destruct op; reflexivity. Qed.

Lemma data_not_free mo d e op ty : In mo all_models -> In ty ["direct"; "linear"; "mini_nn"] ->
  NoDup (map undot (map fst (data_list mo d e op ty))) /\
  forall i l k, ~ In (free_name i l k) (map undot (map fst (data_list mo d e op ty))).
Proof.
  intros M T. split.
  - unfold data_list. each T; each M; destruct op; apply SetupProofs.nodupb_ok; reflexivity.
  - intros i l k. unfold data_list. each T; each M; destruct op; cbn; intros H; decompose [or] H; try discriminate; try contradiction.
Qed.

Lemma NoDup_app_intro {X} (a b : list X) : NoDup a -> NoDup b -> (forall x, In x a -> ~ In x b) -> NoDup (a ++ b).
Proof.
  induction a as [|x a IH]; intros A B C; [exact B|]. inversion A; subst. cbn. constructor.
  - rewrite in_app_iff. intros [H|H]; [contradiction|]. exact (C x (or_introl eq_refl) H).
  - apply IH; auto. intros y Y. apply C. right. exact Y.
Qed.

Lemma free_block mo st co d n infl pw w nl rnn an op' op ty' ty m :
  In mo all_models -> (0 <= d)%Z -> (0 <= n)%Z -> (0 <= infl)%Z ->
  attribute_parameters "_state_initializer" st = [] -> attribute_parameters "_costate_initializer" co = [] ->
  In ty ["direct"; "linear"; "mini_nn"] ->
  m_integrand m = integrand_of mo st co d n infl pw w nl rnn an op' op ty' ty ->
  m_free_rnn m || m_free_time m = true ->
  block_parameters m = Ok (free_list (parameter_sets m) (layers_of mo d (d * infl)) ++ undotted (data_list mo d (d * infl) op ty)).
Proof.
  intros M D N F A B T G R. unfold block_parameters. rewrite G, R.
  rewrite initial_states_made by assumption. cbn [bind]. rewrite layers_made by assumption. cbn [bind].
  rewrite integrand_parameters_made by assumption.
  pose proof (layer_keys_of mo d (d * infl)%Z M) as K. set (layers := layers_of mo d (d * infl)) in *.
  rewrite register_free_triples, triples_repeat. unfold reg_triple.
  assert (FT : Forall (fun t => fit (triple_name t)) (free_triples (parameter_sets m) layers)).
  { apply Forall_forall. intros ((i, l), k) I. apply in_free_triples in I as (_ & ps & s & I1 & I2).
    destruct K as (_ & K2). rewrite Forall_forall in K2. destruct (K2 _ I1) as (K3 & _ & K4). rewrite Forall_forall in K4.
    apply fit_free; [exact K3|exact (proj1 (K4 _ I2))]. }
  rewrite register_all; [|exact (nodup_free_names _ _ K)|exact FT]. cbn [bind app].
  destruct (data_not_free mo d (d * infl) op ty M T) as (DN & DF).
  unfold register_integrand. rewrite register_all; [| |apply undot_list; assumption].
  2: { assert (Q : map fst ([] ++ map (fun x => (triple_name x, triple_obj x)) (free_triples (parameter_sets m) layers)) =
                map triple_name (free_triples (parameter_sets m) layers)) by (apply map_map).
       rewrite Q. apply NoDup_app_intro; [exact (nodup_free_names _ _ K)|exact DN|]. intros x X. apply in_map_iff in X as (((i, l), k) & <- & _). apply DF. }
  cbn [bind]. apply mapM_app; [|apply data_sizes; assumption].
  rewrite free_list_triples by exact K.
  rewrite (mapM_ok _ (fun no => (fst no, match snd no with OFree _ l k => size_in layers l k | _ => [] end))).
  - rewrite app_nil_l, map_map. apply (f_equal Ok). apply map_ext. intros ((i, l), k). reflexivity.
  - intros (x, o) I. rewrite app_nil_l in I. apply in_map_iff in I as (((i, l), k) & E & I). injection E as <- <-. cbn [fst snd triple_name triple_obj size_of].
    apply in_free_triples in I as (_ & ps & s & I1 & I2). destruct K as (K1 & K2). rewrite Forall_forall in K2.
    destruct (K2 _ I1) as (_ & K3 & _). unfold size_in. pose proof (sd_item_in _ K1 _ _ I1) as X1. pose proof (sd_item_in _ K3 _ _ I2) as X2.
    cbn [snd] in X2. rewrite X1. cbn [bind]. rewrite X2. cbn [bind]. unfold sd_item in X1, X2. destruct (sd_get l layers); [injection X1 as ->|discriminate].
    destruct (sd_get k ps); [injection X2 as ->|discriminate]. reflexivity.
Qed.

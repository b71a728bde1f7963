(** Example data for property C100. *)
From Coq Require Import List String ZArith QArith Qcanon Bool Lia Sorting.Sorted.
From Verif Require Import Base Tensor ScdSpec BlockSpec IntegrandModel IntegrandBlocksSpec.
Import ListNotations.
Open Scope string_scope.
Open Scope list_scope.
Open Scope nat_scope.

(** A model that doubles everything; particles are laid along the first dimension, data along the second. *)
Definition double (d : sdict (tensor Z)) : sdict (tensor Z) :=
  map (fun kt => ("dot_" ++ fst kt, mkT (tshape (snd kt)) (map (Z.mul 2) (tdata (snd kt)))))%string d.
Definition b_model : @model Z Z Z nat nat := {|
  m_concatenate := true; m_concat_dim := 0; m_transpose := false; m_analytic := true;
  m_rhs := fun _ d _ => Ok (double d);
  m_rhs_blocks := fun _ d _ => Ok d;
  m_parameters := fun _ _ _ => Ok 1%Z;
  m_parameters_analytic := fun _ _ _ => Ok 1%Z;
  m_costate := fun _ _ d _ => Ok (double d);
  m_costate_blocks := fun _ _ d _ => Ok d;
  m_kinetic := fun _ p _ => Ok (p * p)%Z;
  m_pair := fun _ _ => Ok 0%Z;
  m_grad := fun _ st co p => Ok [];
  m_zero := 0%Z; m_add := Z.add; m_div := fun z n => (z / Z.of_nat n)%Z;
  m_hook := fun _ _ => Ok tt |}.
Definition b_st : sdict (sdict (tensor Z)) := [("a", [("q", mkT [1; 2] [1; 2]%Z)])].
Definition b_co : sdict (sdict (tensor Z)) := [("a", [("p_q", mkT [1; 2] [3; 4]%Z)])].
Definition b_da : sdict (sdict (tensor Z)) :=
  [("a", [("q", mkT [2; 1] [5; 6]%Z)]); ("b", [("q", mkT [2; 2] [7; 8; 9; 10]%Z)])].

Lemma str_lt_dot a b : str_lt a b -> str_lt ("dot_" ++ a)%string ("dot_" ++ b)%string.
Proof. intro H. unfold str_lt in *. cbn. exact H. Qed.
Lemma double_shapes d : dict_wf d -> shapes_of d (double d).
Proof.
  intros [W F]. split; [split|].
  - unfold sd_wf, double, keys in *. rewrite map_map. cbn. clear F. induction d as [|[k t] d IH]; [constructor|].
    cbn in *. apply StronglySorted_inv in W. destruct W as [W1 W2]. constructor; [exact (IH W1)|].
    clear - W2. induction d as [|[k' t'] d IH]; [constructor|]. cbn in *. inversion W2; subst. constructor; [now apply (str_lt_dot k k')|auto].
  - clear W. induction F as [|[k t] d T F IH]; [constructor|]. constructor; [|exact IH].
    unfold twf in *. cbn in *. now rewrite map_length.
  - clear W F. induction d; constructor; auto.
Qed.

Ltac concatenable_tac :=
  split; [lia|]; split; [|split; [discriminate|split]];
  [split; [repeat constructor|repeat constructor]; cbn; auto
  |intros n1 b1 n2 b2 I1 I2; cbn in I1, I2; intuition; repeat match goal with H : (_, _) = (_, _) |- _ => injection H as; subst end; reflexivity
  |intros n1 b1 n2 b2 k t1 t2 I1 I2 J1 J2; cbn in I1, I2; intuition; repeat match goal with H : (_, _) = (_, _) |- _ => injection H as; subst end;
   cbn in J1, J2; intuition; repeat match goal with H : (_, _) = (_, _) |- _ => injection H as; subst end; cbn; lia || reflexivity].

Lemma b_case :
  keeps_shapes b_model /\ concatenable 0 b_st /\ concatenable 1 b_da /\
  concatenable 1 b_st /\ concatenable 1 b_co /\
  snd (compute_gradients b_model 0%Qc b_st b_co b_da (new_integrand false 1)) =
  Ok ([("a", [("dot_q", mkT [1; 2] [2; 4]%Z)])], [("a", [("dot_p_q", mkT [1; 2] [6; 8]%Z)])],
      [("a", [("dot_q", mkT [2; 1] [10; 12]%Z)]); ("b", [("dot_q", mkT [2; 2] [14; 16; 18; 20]%Z)])], 1%Z).
Proof.
  split; [|split; [|split; [|split; [|split]]]].
  - split; [intros t c p r W E|intros t c cc p r _ W E]; cbn in E; injection E as <-; now apply double_shapes.
  - concatenable_tac.
  - concatenable_tac.
  - concatenable_tac.
  - concatenable_tac.
  - vm_compute. reflexivity.
Qed.

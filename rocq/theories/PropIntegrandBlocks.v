(** Property C100: blocks evaluated together. *)
From Coq Require Import List String ZArith QArith Qcanon Bool Lia Sorting.Sorted.
From Verif Require Import Base Tensor ScdSpec BlockSpec ParamFuncModel IntegrandModel IntegrandSpec
  IntegrandBlocksSpec IntegrandBlocksProofs IntegrandBlocksExample.
Import ListNotations.
Open Scope string_scope.
Open Scope list_scope.
Open Scope nat_scope.

(** ** C100: with concatenation the equations are evaluated once for all blocks laid side by side, and every
    block gets back exactly its own part; the states and the data use their own dimension. *)
Theorem C100_every_block_gets_its_own_derivatives :
  forall (A P E H C : Type) (m : @model A P E H C) t st co da s s' dst dco dda p,
  keeps_shapes m -> m_concatenate m = true ->
  concatenable (m_concat_dim m) st -> concatenable (s_data_dim s) da ->
  compute_gradients m t st co da s = (s', Ok (dst, dco, dda, p)) ->
  state_derivatives m t p (m_concat_dim m) st dst /\ state_derivatives m t p (s_data_dim s) da dda /\
  (m_analytic m = true -> concatenable (s_data_dim s) st -> concatenable (s_data_dim s) co ->
   costate_derivatives m t p (s_data_dim s) st co dco).
Proof. exact @evaluated_blocks. Qed.
Print Assumptions C100_every_block_gets_its_own_derivatives.

Theorem C100_without_concatenation :
  forall (A P E H C : Type) (m : @model A P E H C) t st co da s s' dst dco dda p,
  m_concatenate m = false -> compute_gradients m t st co da s = (s', Ok (dst, dco, dda, p)) ->
  m_rhs_blocks m t st p = Ok dst /\ m_rhs_blocks m t da p = Ok dda /\
  (m_analytic m = true -> m_costate_blocks m t st co p = Ok dco).
Proof. exact @evaluated_unconcatenated. Qed.
Print Assumptions C100_without_concatenation.

(** Two data blocks of different width. *)
Example C100_case :
  keeps_shapes b_model /\ concatenable 0 b_st /\ concatenable 1 b_da /\
  concatenable 1 b_st /\ concatenable 1 b_co /\
  snd (compute_gradients b_model 0%Qc b_st b_co b_da (new_integrand false 1)) =
  Ok ([("a", [("dot_q", mkT [1; 2] [2; 4]%Z)])], [("a", [("dot_p_q", mkT [1; 2] [6; 8]%Z)])],
      [("a", [("dot_q", mkT [2; 1] [10; 12]%Z)]); ("b", [("dot_q", mkT [2; 2] [14; 16; 18; 20]%Z)])], 1%Z).
Proof. exact b_case. Qed.

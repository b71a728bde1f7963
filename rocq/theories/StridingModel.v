(** Model of neuro_shooting/striding_block.py ([st.py] below). *)
From Coq Require Import List String Arith ZArith Bool.
From Verif Require Import Base Tensor ScdModel.
Import ListNotations.
Open Scope nat_scope.

(** Python argument [stride] or [stride_dims]: an int, a tuple or list of ints, or
    something else. *)
Inductive int_arg : Type := IntArg (z : Z) | SeqArg (l : list Z) | OtherArg.

(** The attributes set in [__init__]. *)
Record striding : Type := mkStriding { sb_stride : list Z; sb_dims : list Z }.

(** st.py:11-38 [__init__]. *)
Definition new_striding (stride stride_dims : int_arg) : result striding :=
  dims <- (match stride_dims with
           | IntArg d => Ok [d]
           | SeqArg l => Ok l
           | OtherArg => Raise ValueError
           end) ;;
  strides <- (match stride with
              | IntArg s => Ok (repeat s (List.length dims))
              | SeqArg l => if List.length l =? List.length dims then Ok l else Raise ValueError
              | OtherArg => Raise ValueError
              end) ;;
  Ok (mkStriding strides dims).

Section Striding.
Context {A : Type}.
Notation tdict := (sdict (tensor A)).
Notation tdicts := (sdict (sdict (tensor A))).

(** st.py:47-69 [_stride_tensor_single_dimension].  [input[:,:,offset::stride,...]]
    with a negative step is a ValueError of torch; [n % 0] a ZeroDivisionError. *)
Definition stride_tensor_single_dimension (input : tensor A) (stride stride_dim : Z) : result (tensor A) :=
  let dim_input := Z.of_nat (List.length (tshape input)) in
  if (dim_input - 1 <? stride_dim)%Z then Raise ValueError
  else if (stride_dim <? 2)%Z then Raise ValueError
  else
    n <- list_item (tshape input) (Z.to_nat stride_dim) ;;
    if (stride =? 0)%Z then Raise ZeroDivisionError
    else
      let offset := (Z.of_nat n mod stride)%Z in
      if (5 <? stride_dim)%Z then Raise ValueError
      else if (stride <? 0)%Z then Raise ValueError
      else tstride (Z.to_nat stride_dim) (Z.to_nat offset) (Z.to_nat stride) input.

(** st.py:40-45 [_stride_tensor_multiple_dimensions]. *)
Definition stride_tensor_multiple_dimensions (input : tensor A) (stride stride_dims : list Z)
    (stride_dim_offset : Z) : result (tensor A) :=
  foldM (fun current sd =>
           stride_tensor_single_dimension current (fst sd) (snd sd + stride_dim_offset))
        (combine stride stride_dims) input.

(** st.py:79-84 [_stride_dict]. *)
Definition stride_dict (d : tdict) (stride stride_dims : list Z) (stride_dim_offset : Z) : result tdict :=
  foldM (fun ret kt =>
           t <- stride_tensor_multiple_dimensions (snd kt) stride stride_dims stride_dim_offset ;;
           Ok (sd_set (fst kt) t ret)) d [].

(** st.py:71-77 [_stride_dict_of_dicts]. *)
Definition stride_dict_of_dicts (d : tdicts) (stride stride_dims : list Z) (stride_dim_offset : Z)
  : result tdicts :=
  foldM (fun ret kd =>
           b <- stride_dict (snd kd) stride stride_dims stride_dim_offset ;;
           Ok (sd_set (fst kd) b ret)) d [].

(** Iterating over None is a TypeError. *)
Definition given {V} (o : option V) : result V :=
  match o with Some v => Ok v | None => Raise TypeError end.

(** st.py:87-101 [forward]. *)
Definition striding_forward (b : striding) (state costate data : option tdicts)
  : result (tdicts * tdicts * tdicts) :=
  state <- given state ;;
  s <- stride_dict_of_dicts state (sb_stride b) (sb_dims b) 0 ;;
  costate <- given costate ;;
  c <- stride_dict_of_dicts costate (sb_stride b) (sb_dims b) 0 ;;
  sz_state <- extract_size_from_dict_of_dicts state ;;
  data <- given data ;;
  sz_data <- extract_size_from_dict_of_dicts data ;;
  let offset := (Z.of_nat (List.length sz_data) - Z.of_nat (List.length sz_state))%Z in
  d <- stride_dict_of_dicts data (sb_stride b) (sb_dims b) offset ;;
  Ok (s, c, d).
End Striding.

(** Model of neuro_shooting/overwrite_classes.py (cited as oc.py): layers whose parameters are
    moved out of torch's registry into a dictionary of their own.

    Tensors are values of a type [T]; torch's layer functions are arbitrary functions.
    [detach().clone()] (oc.py:33) yields the same value; gradient flags are not modelled. *)
From Coq Require Import List String Bool ZArith.
From Verif Require Import Base.
Import ListNotations.
Open Scope string_scope.

Section Layers.
Variable T : Type.

(** A parameter weight (oc.py:12,47): None, a number, or a tensor. *)
Inductive weight : Type := WNone | WNum (q : Z) | WTensor (t : T).

(** oc.py:12-21: a layer. *)
Record layer := mkLayer {
  ly_registered : pdict (option T);    (* torch's _parameters *)
  ly_dict : option (sdict T);          (* _parameter_dict, oc.py:19 *)
  ly_weights : sdict weight;           (* _parameter_weight_dict, oc.py:20 *)
  ly_weight : weight }.                (* _weight, oc.py:21 *)

(** oc.py:12-21, after torch's constructor registered the parameters. *)
Definition rp_init (registered : pdict (option T)) (w : weight) : layer :=
  mkLayer registered None [] w.

(** oc.py:24-34 *)
Definition move (d : sdict T) (kv : string * option T) : sdict T :=
  match snd kv with
  | Some v => sd_set (fst kv) v d
  | None => d
  end.

(** oc.py:23-45 *)
Definition remove_parameters (l : layer) : layer :=
  let d := fold_left move (ly_registered l) [] in
  mkLayer [] (Some d)
    (fold_left (fun ws kv => sd_set (fst kv) (ly_weight l) ws) d []) (ly_weight l).

(** oc.py:47-50; [in None] is a TypeError. *)
Definition add_weight (name : string) (w : weight) (l : layer) : result layer :=
  match ly_dict l with
  | None => Raise TypeError
  | Some d => if sd_mem name d
              then Ok (mkLayer (ly_registered l) (ly_dict l) (sd_set name w (ly_weights l)) (ly_weight l))
              else Raise ValueError
  end.

(** Replacing every value of a dictionary in place (oc.py:60-61, 80-85). *)
Definition map_values {V W} (f : V -> W) (d : sdict V) : sdict W := map (fun kv => (fst kv, f (snd kv))) d.

(** torch's [Module._apply] (external): applied to the registered parameters that are not None. *)
Definition torch_apply (fn : T -> T) (l : layer) : layer :=
  mkLayer (map_values (option_map fn) (ly_registered l)) (ly_dict l) (ly_weights l) (ly_weight l).

(** oc.py:58-63; iterating over None is a TypeError. *)
Definition rp_apply (fn : T -> T) (l : layer) : result layer :=
  match ly_dict l with
  | None => Raise TypeError
  | Some d => Ok (mkLayer (ly_registered l) (Some (map_values fn d)) (ly_weights l) (ly_weight l))
  end.

(** oc.py:95-98 (120-123, 148-151, 181-184). *)
Definition snn_apply (fn : T -> T) (l : layer) : result layer := rp_apply fn (torch_apply fn l).

(** oc.py:83-85: only tensors are converted. *)
Definition convert_weight (fn : T -> T) (w : weight) : weight :=
  match w with WTensor t => WTensor (fn t) | _ => w end.

(** oc.py:65-87; [floating] is [dtype is None or dtype.is_floating_point]. *)
Definition rp_to (floating : bool) (convert : T -> T) (l : layer) : result layer :=
  if negb floating then Raise TypeError
  else match ly_dict l with
       | None => Raise TypeError
       | Some d => Ok (mkLayer (ly_registered l) (Some (map_values convert d))
                         (map_values (convert_weight convert) (ly_weights l)) (ly_weight l))
       end.

(** oc.py:100-103 (125-128, 153-156, 186-189): torch's [Module.to] checks the dtype and calls
    [self._apply], which is oc.py:95-98 again. *)
Definition snn_to (floating : bool) (convert : T -> T) (l : layer) : result layer :=
  l' <- (if negb floating then Raise TypeError else snn_apply convert l) ;;
  rp_to floating convert l'.

(** [self._parameter_dict[k]]; subscripting None is a TypeError. *)
Definition param (l : layer) (k : string) : result T :=
  match ly_dict l with None => Raise TypeError | Some d => sd_item k d end.

(** ** The layers.  torch's constructors register 'weight' and 'bias', the latter as None
    when there is no bias. *)
Definition registered_of (w b : T) (bias : bool) : pdict (option T) :=
  [("weight", Some w); ("bias", if bias then Some b else None)].

(** oc.py:89-93 *)
Definition new_linear (w b : T) (bias : bool) (weight : weight) : layer :=
  remove_parameters (rp_init (registered_of w b bias) weight).

(** oc.py:111-118; [c] is the tensor holding 0.1. *)
Definition new_linear_dampening (w b c : T) (bias : bool) (weight : weight) : layer :=
  remove_parameters
    (mkLayer (pd_set "dampening" (Some c) (registered_of w b bias)) None [] weight).

(** oc.py:137-146 *)
Definition new_conv (w b : T) (bias : bool) (weight : weight) : layer :=
  remove_parameters (rp_init (registered_of w b bias) weight).

(** oc.py:170-179: without affine parameters torch registers two Nones. *)
Definition new_group_norm (w b : T) (affine : bool) (weight : weight) : layer :=
  if affine then remove_parameters (rp_init (registered_of w b true) weight)
  else mkLayer [("weight", None); ("bias", None)] (Some []) [] weight.

(** torch.nn.functional (external). *)
Variable f_linear : T -> T -> option T -> result T.
Variable f_conv : T -> T -> option T -> result T.           (* stride, padding, ... fixed *)
Variable f_conv_unpadded : T -> T -> option T -> result T.  (* padding 0 *)
Variable f_pad_circular : Z * Z * Z * Z -> T -> result T.
Variable f_group_norm : T -> option T -> option T -> result T.
Variable t_mul : T -> T -> result T.
Variable t_sub : T -> T -> result T.

(** oc.py:105-109 *)
Definition linear_forward (l : layer) (x : T) : result T :=
  match ly_dict l with
  | None => Raise TypeError
  | Some d =>
      if sd_mem "bias" d then
        w <- sd_item "weight" d ;; b <- sd_item "bias" d ;; f_linear x w (Some b)
      else
        w <- sd_item "weight" d ;; f_linear x w None
  end.

(** oc.py:130-135 *)
Definition linear_dampening_forward (l : layer) (x dampening_input : T) : result T :=
  y <- linear_forward l x ;;
  c <- param l "dampening" ;;
  z <- t_mul c dampening_input ;;
  t_sub y z.

(** oc.py:158-167; [padding] is the pair of torch's layer. *)
Definition conv_forward (circular : bool) (padding : Z * Z) (l : layer) (x : T) : result T :=
  if circular then
    x' <- f_pad_circular (((snd padding + 1) / 2)%Z, (snd padding / 2)%Z,
                          ((fst padding + 1) / 2)%Z, (fst padding / 2)%Z) x ;;
    w <- param l "weight" ;; b <- param l "bias" ;; f_conv_unpadded x' w (Some b)
  else
    w <- param l "weight" ;; b <- param l "bias" ;; f_conv x w (Some b).

(** oc.py:192-194 *)
Definition group_norm_forward (l : layer) (x : T) : result T :=
  w <- param l "weight" ;; b <- param l "bias" ;; f_group_norm x (Some w) (Some b).

(** ** Using a layer after construction *)
Inductive lop : Type :=
| LAddWeight (name : string) (w : weight)
| LApply (fn : T -> T)
| LTo (floating : bool) (convert : T -> T).

(** One call; a raised exception leaves the layer as it was: [add_weight] and [to] raise before changing
    anything, and [_apply] cannot raise on a constructed layer. *)
Definition run_lop (l : layer) (o : lop) : layer * result unit :=
  let r := match o with
           | LAddWeight k w => add_weight k w l
           | LApply fn => snn_apply fn l
           | LTo b fn => snn_to b fn l
           end in
  match r with Ok l' => (l', Ok tt) | Raise e => (l, Raise e) end.

(** A history of calls. *)
Fixpoint run_lops (l : layer) (os : list lop) : layer :=
  match os with [] => l | o :: r => run_lops (fst (run_lop l o)) r end.
End Layers.
Arguments WNone {T}.
Arguments WNum {T}.
Arguments WTensor {T}.

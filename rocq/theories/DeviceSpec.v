(** Notions used to state what happens to a block on several devices. *)
From Coq Require Import List String QArith Qcanon.
From Verif Require Import Base Tensor BlockModel DeviceModel.

(** Calls which only concern the device [d]. *)
Definition only_on {A} (d : device) (o : @pcall A) : Prop :=
  match o with PForward dev _ _ _ _ => dev = d | PTo dev => dev = d | _ => True end.

(** Calls which do not move the block to another device than [d]. *)
Definition no_other_move {A} (d : device) (o : @pcall A) : Prop :=
  match o with PTo dev => dev = d | _ => True end.

(** The names under which a block registers its own parameters. *)
Definition own_names {V} (state costate : option (list (string * V))) (names : list string) : list string :=
  (match state with None => nil | Some d => map fst d end
   ++ match costate with None => nil | Some d => map fst d end
   ++ map undot names)%list.

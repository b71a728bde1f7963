(** Properties C43, C44, C72: layers with their parameters moved into a dictionary. *)
From Coq Require Import List String Bool ZArith.
From Verif Require Import Base LayersModel LayersProofs.
Import ListNotations.
Open Scope string_scope.

(** C43 is false: a convolution without bias, and a group normalisation without affine parameters,
    raise KeyError on every evaluation, whatever torch's functions do. *)
Theorem C43_no_bias_refuted :
  exists (T : Type) (w b x : T),
    (forall wt os circular padding f_conv f_conv_unpadded f_pad_circular,
      (forall p x, exists y, f_pad_circular p x = Ok y) ->
      conv_forward T f_conv f_conv_unpadded f_pad_circular circular padding
        (run_lops T (new_conv T w b false wt) os) x = Raise KeyError) /\
    (forall wt f_group_norm,
      group_norm_forward T f_group_norm (new_group_norm T w b false wt) x = Raise KeyError).
Proof.
  exists Z, 2%Z, 3%Z, 4%Z. split.
  - intros wt os circular padding f g p. exact (conv_unusable Z f g p 2%Z 3%Z wt os circular padding 4%Z).
  - intros wt f. exact (group_norm_unusable Z f 2%Z 3%Z wt 4%Z).
Qed.
Print Assumptions C43_no_bias_refuted.

(** C43 for the linear layer: with or without bias it applies torch's linear function to its
    current parameters, after any weights set and moves made. *)
Theorem C43_linear_partial : forall (T : Type) (f_linear : T -> T -> option T -> result T)
    (w b : T) (bias : bool) wt os x,
  exists w' b', param T (run_lops T (new_linear T w b bias wt) os) "weight" = Ok w' /\
    (bias = true -> param T (run_lops T (new_linear T w b bias wt) os) "bias" = Ok b') /\
    linear_forward T f_linear (run_lops T (new_linear T w b bias wt) os) x
    = f_linear x w' (if bias then Some b' else None).
Proof. exact linear_usable. Qed.
Print Assumptions C43_linear_partial.

Example C43_linear_case :
  linear_forward Z (fun x w b => Ok (x * w + match b with Some b => b | None => 0 end)%Z)
    (run_lops Z (new_linear Z 2%Z 3%Z false WNone) [LTo Z true (fun z => z + 1)%Z]) 10%Z = Ok 40%Z.
Proof. reflexivity. Qed.

(** C43 for the linear layer with dampening, with or without bias. *)
Theorem C43_dampening_partial : forall (T : Type) (f_linear : T -> T -> option T -> result T)
    (t_mul t_sub : T -> T -> result T) (w b c : T) (bias : bool) wt os x z,
  (forall x w o, exists y, f_linear x w o = Ok y) ->
  (forall x y, exists z, t_mul x y = Ok z) -> (forall x y, exists z, t_sub x y = Ok z) ->
  exists y, linear_dampening_forward T f_linear t_mul t_sub
              (run_lops T (new_linear_dampening T w b c bias wt) os) x z = Ok y.
Proof. exact dampening_usable. Qed.
Print Assumptions C43_dampening_partial.

Example C43_dampening_case :
  linear_dampening_forward Z (fun x w b => Ok (x * w + match b with Some b => b | None => 0 end)%Z)
    (fun a b => Ok (a * b)%Z) (fun a b => Ok (a - b)%Z)
    (new_linear_dampening Z 2%Z 3%Z 5%Z false WNone) 10%Z 1%Z = Ok 15%Z.
Proof. reflexivity. Qed.

(** C43 for convolutions with bias. *)
Theorem C43_conv_partial : forall (T : Type) (f_conv f_conv_unpadded : T -> T -> option T -> result T)
    (f_pad_circular : Z * Z * Z * Z -> T -> result T) (w b : T) wt os circular padding x,
  (forall x w o, exists y, f_conv x w o = Ok y) -> (forall x w o, exists y, f_conv_unpadded x w o = Ok y) ->
  (forall p x, exists y, f_pad_circular p x = Ok y) ->
  exists y, conv_forward T f_conv f_conv_unpadded f_pad_circular circular padding
              (run_lops T (new_conv T w b true wt) os) x = Ok y.
Proof. exact conv_usable. Qed.
Print Assumptions C43_conv_partial.

Example C43_conv_case :
  conv_forward Z (fun x w b => Ok (x * w + match b with Some b => b | None => 0 end)%Z)
    (fun x w b => Ok (x * w)%Z) (fun p x => let '(a, b, c, d) := p in Ok (x + a + b + c + d)%Z)
    true (3%Z, 2%Z) (new_conv Z 2%Z 3%Z true WNone) 10%Z = Ok 30%Z.
Proof. reflexivity. Qed.

(** C43 for group normalisation with affine parameters. *)
Theorem C43_group_norm_partial : forall (T : Type) (f_group_norm : T -> option T -> option T -> result T)
    (w b : T) wt os x,
  (forall x w b, exists y, f_group_norm x w b = Ok y) ->
  exists y, group_norm_forward T f_group_norm (run_lops T (new_group_norm T w b true wt) os) x = Ok y.
Proof. exact group_norm_usable. Qed.
Print Assumptions C43_group_norm_partial.

Example C43_group_norm_case :
  group_norm_forward Z (fun x w b => match w, b with Some w, Some b => Ok (x * w + b)%Z | _, _ => Ok x end)
    (new_group_norm Z 2%Z 3%Z true WNone) 10%Z = Ok 23%Z.
Proof. reflexivity. Qed.

(** C44: every registered parameter that is not None is in the dictionary once, with its value;
    each has the layer's weight; nothing stays registered. *)
Theorem C44_moved : forall (T : Type) (r : pdict (option T)) (w : weight T), NoDup (keys r) ->
  let l := remove_parameters T (rp_init T r w) in
  ly_registered T l = [] /\
  exists d, ly_dict T l = Some d /\ NoDup (keys d) /\
    (forall k v, In (k, v) d <-> In (k, Some v) r) /\
    keys (ly_weights T l) = keys d /\
    (forall k, In k (keys d) -> sd_get k (ly_weights T l) = Some w).
Proof. exact removed. Qed.
Print Assumptions C44_moved.

Example C44_case :
  remove_parameters Z (rp_init Z [("weight", Some 4%Z); ("bias", None); ("a", Some 7%Z)] (WNum 2%Z))
  = mkLayer Z [] (Some [("a", 7%Z); ("weight", 4%Z)]) [("a", WNum 2%Z); ("weight", WNum 2%Z)] (WNum 2%Z).
Proof. reflexivity. Qed.

(** C44: a weight can be set for exactly the parameters the layer has; the other weights keep
    their value. *)
Theorem C44_weights : forall (T : Type) (r : pdict (option T)) (w : weight T) os name v,
  let l := run_lops T (remove_parameters T (rp_init T r w)) os in
  ((exists t, In (name, Some t) r) ->
     exists l', run_lop T l (LAddWeight T name v) = (l', Ok tt) /\
       forall k, sd_get k (ly_weights T l') = if String.eqb k name then Some v else sd_get k (ly_weights T l)) /\
  (~ (exists t, In (name, Some t) r) ->
     run_lop T l (LAddWeight T name v) = (l, Raise ValueError)).
Proof. exact weights_of_parameters. Qed.
Print Assumptions C44_weights.

Example C44_weights_case :
  let l := remove_parameters Z (rp_init Z [("weight", Some 4%Z); ("bias", None)] WNone) in
  run_lop Z l (LAddWeight Z "weight" (WNum 3%Z))
  = (mkLayer Z [] (Some [("weight", 4%Z)]) [("weight", WNum 3%Z)] WNone, Ok tt) /\
  run_lop Z l (LAddWeight Z "bias" (WNum 3%Z)) = (l, Raise ValueError).
Proof. split; reflexivity. Qed.

(** C44: and it stays so under any sequence of weight settings and moves. *)
Theorem C44_stays : forall (T : Type) (r : pdict (option T)) (w : weight T) os,
  let l0 := remove_parameters T (rp_init T r w) in
  let l := run_lops T l0 os in
  ly_registered T l = [] /\
  exists d0 d, ly_dict T l0 = Some d0 /\ ly_dict T l = Some d /\ keys d = keys d0 /\
    keys (ly_weights T l) = keys d0.
Proof. exact stays. Qed.
Print Assumptions C44_stays.

Example C44_stays_case :
  run_lops Z (remove_parameters Z (rp_init Z [("weight", Some 4%Z); ("bias", None)] WNone))
    [LAddWeight Z "weight" (WNum 3%Z); LAddWeight Z "bias" (WNum 3%Z); LApply Z (Z.add 1)]
  = mkLayer Z [] (Some [("weight", 5%Z)]) [("weight", WNum 3%Z)] WNone.
Proof. reflexivity. Qed.

(** C72 is false for moves made through [_apply] (cuda(), double(), ...): a tensor weight is left behind. *)
Theorem C72_apply_refuted :
  exists (T : Type) (w b u : T) (fn : T -> T) (l' : layer T),
    (forall t, fn (fn t) = fn t) /\ fn u <> u /\
    snn_apply T fn (new_linear T w b true (WTensor u)) = Ok l' /\
    param T l' "weight" = Ok (fn w) /\ sd_get "weight" (ly_weights T l') = Some (WTensor u).
Proof.
  exists Z, 2%Z, 3%Z, 4%Z, (fun _ => 1%Z).
  exists (mkLayer Z [] (Some [("bias", 1%Z); ("weight", 1%Z)])
            [("bias", WTensor 4%Z); ("weight", WTensor 4%Z)] (WTensor 4%Z)).
  repeat split. discriminate.
Qed.
Print Assumptions C72_apply_refuted.

(** C72 for [to]: every parameter and every tensor weight is converted, whatever happened before. *)
Theorem C72_to_partial : forall (T : Type) (r : pdict (option T)) (w : weight T) os fn,
  (forall t, fn (fn t) = fn t) ->
  let l := run_lops T (remove_parameters T (rp_init T r w)) os in
  exists l' d, snn_to T true fn l = Ok l' /\ ly_dict T l = Some d /\
    ly_dict T l' = Some (map (fun kv => (fst kv, fn (snd kv))) d) /\
    ly_weights T l' = map (fun kv => (fst kv, match snd kv with WTensor t => WTensor (fn t) | w => w end))
                          (ly_weights T l).
Proof. exact convert_all_ops. Qed.
Print Assumptions C72_to_partial.

Example C72_case :
  snn_to Z true (fun _ => 1%Z) (new_linear Z 2%Z 3%Z false (WTensor 4%Z))
  = Ok (mkLayer Z [] (Some [("weight", 1%Z)]) [("weight", WTensor 1%Z)] (WTensor 4%Z)).
Proof. reflexivity. Qed.

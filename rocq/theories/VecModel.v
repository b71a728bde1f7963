(** Model of the vector models of neuro_shooting/shooting_models.py (cited as sm.py) with the energies
    of neuro_shooting/shooting_integrands.py (si.py) they are used with.

    Numbers are reals.  A tensor is its sizes and a function from indices; entries outside the sizes
    are meaningless.  States and costates have three axes: particles (or samples), particle dimension,
    features (parameter_initialization.py:111-138).  Parameters have two axes; a vector of size k is
    kept as a matrix with one row, which broadcasts in the same way.  Python's [nl] and [dnl] are
    functions on numbers (si.py:40).  torch operations raise RuntimeError when sizes do not fit and
    broadcast otherwise.  Division by zero (a mean over no particles, a weight 0) gives NaN or
    infinity in the code, which reals do not have: theorems exclude it. *)
From Coq Require Import List String Bool Reals Arith.
From Verif Require Import Base RealSum.
Import ListNotations.
Open Scope string_scope.
Open Scope R_scope.

(** Tensors with three axes: particles or samples, dimension, features (parameter_initialization.py:105-139). *)
Record t3 := mkT3 { n0 : nat; n1 : nat; n2 : nat; v3 : nat -> nat -> nat -> R }.
(** Matrices, and vectors as one-row matrices (oc.py:89-93). *)
Record t2 := mkT2 { m0 : nat; m1 : nat; v2 : nat -> nat -> R }.

(** ** torch operations (external) *)

(** Size of an axis after broadcasting. *)
Definition bdim (a b : nat) : result nat :=
  if Nat.eqb a b then Ok a else if Nat.eqb a 1 then Ok b else if Nat.eqb b 1 then Ok a else Raise RuntimeError.

(** Index into an axis of size [a] broadcast to size [o]. *)
Definition bidx (a o i : nat) : nat := if Nat.eqb a o then i else O.

(** Pointwise operations with broadcasting, three axes. *)
Definition zip3 (f : R -> R -> R) (x y : t3) : result t3 :=
  a <- bdim (n0 x) (n0 y) ;; b <- bdim (n1 x) (n1 y) ;; c <- bdim (n2 x) (n2 y) ;;
  Ok (mkT3 a b c (fun n i k =>
        f (v3 x (bidx (n0 x) a n) (bidx (n1 x) b i) (bidx (n2 x) c k))
          (v3 y (bidx (n0 y) a n) (bidx (n1 y) b i) (bidx (n2 y) c k)))).

(** Pointwise operations with broadcasting, two axes. *)
Definition zip2 (f : R -> R -> R) (x y : t2) : result t2 :=
  a <- bdim (m0 x) (m0 y) ;; b <- bdim (m1 x) (m1 y) ;;
  Ok (mkT2 a b (fun i k =>
        f (v2 x (bidx (m0 x) a i) (bidx (m1 x) b k)) (v2 y (bidx (m0 y) a i) (bidx (m1 y) b k)))).

(** Pointwise functions. *)
Definition map3 (f : R -> R) (x : t3) : t3 := mkT3 (n0 x) (n1 x) (n2 x) (fun n i k => f (v3 x n i k)).
(** Pointwise functions. *)
Definition map2 (f : R -> R) (x : t2) : t2 := mkT2 (m0 x) (m1 x) (fun i k => f (v2 x i k)).

(** [torch.zeros_like] *)
Definition zeros_like (x : t3) : t3 := mkT3 (n0 x) (n1 x) (n2 x) (fun _ _ _ => 0).

(** [x.transpose(1,2)] *)
Definition transpose12 (x : t3) : t3 := mkT3 (n0 x) (n2 x) (n1 x) (fun n i k => v3 x n k i).

(** [x.t()] *)
Definition tr (x : t2) : t2 := mkT2 (m1 x) (m0 x) (fun i k => v2 x k i).

(** [torch.matmul] of a batch of matrices with a matrix. *)
Definition matmul32 (x : t3) (w : t2) : result t3 :=
  if Nat.eqb (n2 x) (m0 w)
  then Ok (mkT3 (n0 x) (n1 x) (m1 w) (fun n i k => rsum (m0 w) (fun j => v3 x n i j * v2 w j k)))
  else Raise RuntimeError.

(** [torch.matmul] of two batches of matrices. *)
Definition matmul33 (x y : t3) : result t3 :=
  a <- bdim (n0 x) (n0 y) ;;
  if Nat.eqb (n2 x) (n1 y)
  then Ok (mkT3 a (n1 x) (n2 y) (fun n i k =>
         rsum (n1 y) (fun j => v3 x (bidx (n0 x) a n) i j * v3 y (bidx (n0 y) a n) j k)))
  else Raise RuntimeError.

(** [torch.matmul] of two matrices. *)
Definition matmul22 (x y : t2) : result t2 :=
  if Nat.eqb (m1 x) (m0 y)
  then Ok (mkT2 (m0 x) (m1 y) (fun i k => rsum (m0 y) (fun j => v2 x i j * v2 y j k)))
  else Raise RuntimeError.

(** [torch.sum(x,dim=0)] and [torch.mean(x,dim=0)] *)
Definition sum0 (x : t3) : t2 := mkT2 (n1 x) (n2 x) (fun i k => rsum (n0 x) (fun n => v3 x n i k)).
(** [torch.mean(x,dim=0)] *)
Definition mean0 (x : t3) : t2 := map2 (fun s => s / INR (n0 x)) (sum0 x).

(** [torch.sum] *)
Definition sum2 (x : t2) : R := rsum (m0 x) (fun i => rsum (m1 x) (fun k => v2 x i k)).

(** [x[i,...]] *)
Definition row (x : t3) (i : nat) : result t2 :=
  if Nat.ltb i (n0 x) then Ok (mkT2 (n1 x) (n2 x) (v3 x i)) else Raise IndexError.

(** [x[i,...] = r]; sizes must agree after broadcasting the row. *)
Definition set_row (x : t3) (i : nat) (r : t2) : result t3 :=
  if negb (Nat.ltb i (n0 x)) then Raise IndexError
  else if (Nat.eqb (m0 r) (n1 x) || Nat.eqb (m0 r) 1) && (Nat.eqb (m1 r) (n2 x) || Nat.eqb (m1 r) 1)
  then Ok (mkT3 (n0 x) (n1 x) (n2 x) (fun n j k =>
         if Nat.eqb n i then v2 r (bidx (m0 r) (n1 x) j) (bidx (m1 r) (n2 x) k) else v3 x n j k))
  else Raise RuntimeError.

(** [F.linear]: the product with the transposed weight, then the bias is added in place. *)
Definition f_linear (x : t3) (w : t2) (b : option t2) : result t3 :=
  y <- matmul32 x (tr w) ;;
  match b with
  | None => Ok y
  | Some b =>
      z <- zip3 Rplus y (mkT3 1 (m0 b) (m1 b) (fun _ => v2 b)) ;;
      if Nat.eqb (n0 z) (n0 y) && Nat.eqb (n1 z) (n1 y) && Nat.eqb (n2 z) (n2 y) then Ok z else Raise RuntimeError
  end.

(** utils.py:5-9 *)
Definition divide_by_if_not_none (t : t2) (weight : option R) : t2 :=
  match weight with None => t | Some w => map2 (fun x => x / w) t end.

(** ** Linear layers with removable parameters (overwrite_classes.py:11-56, 89-109) *)

(** The two dictionaries of an SNN_Linear. *)
Record lin := mkLin { lin_weight : t2; lin_bias : option t2; weight_of_weight : option R; weight_of_bias : option R }.

(** oc.py:89-93 with 23-45; the initial entries are random (external). *)
Definition snn_linear (init : (nat -> nat -> R) * (nat -> R)) (in_features out_features : nat) (bias : bool)
    (weight : option R) : lin :=
  mkLin (mkT2 out_features in_features (fst init))
        (if bias then Some (mkT2 1 out_features (fun _ => snd init)) else None)
        weight (if bias then weight else None).

(** oc.py:105-109 *)
Definition forward (l : lin) (x : t3) : result t3 := f_linear x (lin_weight l) (lin_bias l).

(** oc.py:47-50 for the name ['weight']. *)
Definition add_weight (w : option R) (l : lin) : lin := mkLin (lin_weight l) (lin_bias l) w (weight_of_bias l).

(** [par_dict['weight'] = ...] and [par_dict['bias'] = ...] *)
Definition with_weight (w : t2) (l : lin) : lin := mkLin w (lin_bias l) (weight_of_weight l) (weight_of_bias l).
(** [par_dict['bias'] = ...] *)
Definition with_bias (b : t2) (l : lin) : lin := mkLin (lin_weight l) (Some b) (weight_of_weight l) (weight_of_bias l).

Notation pars := (sdict lin).
Notation states := (sdict t3).
Notation inits := (string -> (nat -> nat -> R) * (nat -> R)).

(** ** Energies *)

(** si.py:294-301, one dictionary of states; [zip] pairs by position. *)
Definition pairing (ps rs : states) : result R :=
  foldM (fun e pr => x <- zip3 Rmult (snd (fst pr)) (snd (snd pr)) ;; Ok (e + sum2 (mean0 x))) (combine ps rs) 0.

(** si.py:329-336 *)
Definition penalty (w : option R) (t : t2) : R :=
  let s := sum2 (map2 (fun x => x ^ 2) t) in match w with None => s | Some w => w * s end.

(** si.py:303-342 *)
Definition kinetic_energy (os : pars) : R :=
  1 / 2 * fold_left (fun e ol =>
      let l := snd ol in
      e + (penalty (weight_of_weight l) (lin_weight l)
           + match lin_bias l with None => 0 | Some b => penalty (weight_of_bias l) b end)) os 0.

(** si.py:278-301 *)
Definition potential_energy (rhs : states -> pars -> result states) (s c : states) (os : pars) : result R :=
  r <- rhs s os ;; pairing c r.

(** si.py:384-395, first component, for the parameters found at 380. *)
Definition lagrangian (rhs : states -> pars -> result states) (nr_of_particles : nat) (s c : states) (os : pars) : result R :=
  u <- potential_energy rhs s c os ;; Ok (INR nr_of_particles * (kinetic_energy os - u)).

(** One of the [par_dict['weight'] = divide_by_if_not_none(...)] assignments. *)
Definition store_weight (o : string) (w : t2) (os : pars) : result pars :=
  l <- sd_item o os ;; Ok (sd_set o (with_weight (divide_by_if_not_none w (weight_of_weight l)) l) os).
(** One of the [par_dict['bias'] = divide_by_if_not_none(...)] assignments. *)
Definition store_bias (o : string) (b : t2) (os : pars) : result pars :=
  l <- sd_item o os ;; Ok (sd_set o (with_bias (divide_by_if_not_none b (weight_of_bias l)) l) os).

(** ** The models *)
Section Models.
Variables nl dnl : R -> R.
Variable init : inits.
Variable in_features inflation_factor : nat.
Variable parameter_weight : option R.
Let d := in_features.
Let e := (in_features * inflation_factor)%nat.
Let W := parameter_weight.

(** *** UpDown *)

(** sm.py:256-266 (also 1516-1526 and, all with bias, 60-73) *)
Definition updown_objects : pars :=
  [("l1", snn_linear (init "l1") e d true W); ("l2", snn_linear (init "l2") d e true W)].

(** sm.py:268-278 *)
Definition updown_rhs (s : states) (p : pars) : result states :=
  l1 <- sd_item "l1" p ;; q2 <- sd_item "q2" s ;; r1 <- forward l1 (map3 nl q2) ;;
  l2 <- sd_item "l2" p ;; q1 <- sd_item "q1" s ;; r2 <- forward l2 q1 ;;
  Ok [("dot_q1", r1); ("dot_q2", r2)].

(** sm.py:318-359 (also 1558-1599) *)
Definition updown_costate (s c : states) (p : pars) : result states :=
  l1 <- sd_item "l1" p ;; l2 <- sd_item "l2" p ;;
  q2 <- sd_item "q2" s ;; p1 <- sd_item "p_q1" c ;; p2 <- sd_item "p_q2" c ;;
  m1 <- matmul32 p1 (lin_weight l1) ;;
  dp2 <- zip3 Rmult (map3 Ropp (map3 dnl q2)) m1 ;;
  m2 <- matmul32 p2 (lin_weight l2) ;;
  Ok [("dot_p_q1", map3 Ropp m2); ("dot_p_q2", dp2)].

(** sm.py:362-407 (also 1602-1647) *)
Definition updown_parameters (s c : states) : result pars :=
  q1 <- sd_item "q1" s ;; p1 <- sd_item "p_q1" c ;;
  q2 <- sd_item "q2" s ;; let q2 := transpose12 q2 in
  p2 <- sd_item "p_q2" c ;; let p2 := transpose12 p2 in
  temp <- matmul33 (map3 nl q2) p1 ;;
  let l1 := tr (mean0 temp) in
  temp2 <- matmul33 p2 q1 ;;
  let l2 := mean0 temp2 in
  os <- store_weight "l1" l1 updown_objects ;; os <- store_bias "l1" (mean0 p1) os ;;
  os <- store_weight "l2" l2 os ;; store_bias "l2" (tr (mean0 p2)) os.

(** *** UpDownUniversal *)
Variable optional_weight : R.

(** sm.py:480-493 *)
Definition universal_objects : pars :=
  [("l1", snn_linear (init "l1") e d true W); ("l2", snn_linear (init "l2") d e true W);
   ("l3", add_weight (Some optional_weight) (snn_linear (init "l3") e e false W))].

(** sm.py:495-506 *)
Definition universal_rhs (s : states) (p : pars) : result states :=
  l1 <- sd_item "l1" p ;; q2 <- sd_item "q2" s ;; r1 <- forward l1 (map3 nl q2) ;;
  l2 <- sd_item "l2" p ;; q1 <- sd_item "q1" s ;; a <- forward l2 q1 ;;
  l3 <- sd_item "l3" p ;; b <- forward l3 (map3 nl q2) ;;
  r2 <- zip3 Rplus a b ;;
  Ok [("dot_q1", r1); ("dot_q2", r2)].

(** sm.py:546-587 *)
Definition universal_costate (s c : states) (p : pars) : result states :=
  l1 <- sd_item "l1" p ;; l2 <- sd_item "l2" p ;; l3 <- sd_item "l3" p ;;
  q2 <- sd_item "q2" s ;; p1 <- sd_item "p_q1" c ;; p2 <- sd_item "p_q2" c ;;
  m1 <- matmul32 p1 (lin_weight l1) ;; m3 <- matmul32 p2 (lin_weight l3) ;;
  m <- zip3 Rplus m1 m3 ;;
  dp2 <- zip3 Rmult (map3 Ropp (map3 dnl q2)) m ;;
  m2 <- matmul32 p2 (lin_weight l2) ;;
  Ok [("dot_p_q1", map3 Ropp m2); ("dot_p_q2", dp2)].

(** sm.py:590-644 *)
Definition universal_parameters (s c : states) : result pars :=
  q1 <- sd_item "q1" s ;; p1 <- sd_item "p_q1" c ;;
  q2 <- sd_item "q2" s ;; let q2 := transpose12 q2 in
  p2 <- sd_item "p_q2" c ;; let p2 := transpose12 p2 in
  temp <- matmul33 (map3 nl q2) p1 ;;
  let l1 := tr (mean0 temp) in
  temp2 <- matmul33 p2 q1 ;;
  let l2 := mean0 temp2 in
  temp3 <- matmul33 (map3 nl q2) (transpose12 p2) ;;
  let l3 := tr (mean0 temp3) in
  os <- store_weight "l1" l1 universal_objects ;; os <- store_bias "l1" (mean0 p1) os ;;
  os <- store_weight "l2" l2 os ;; os <- store_bias "l2" (tr (mean0 p2)) os ;;
  store_weight "l3" l3 os.

(** *** GeneralUpDown *)

(** sm.py:705-730 *)
Definition general_objects : pars :=
  [("l11", snn_linear (init "l11") e d true W); ("l12", snn_linear (init "l12") d d false W);
   ("l13", snn_linear (init "l13") d d false W); ("l14", snn_linear (init "l14") e d false W);
   ("l21", snn_linear (init "l21") d e true W); ("l22", snn_linear (init "l22") e e false W);
   ("l23", snn_linear (init "l23") e e false W); ("l24", snn_linear (init "l24") d e false W)].

(** sm.py:664, 732-742 *)
Definition general_dampening : R := 0.
(** sm.py:732-742 *)
Definition general_rhs (s : states) (p : pars) : result states :=
  q1 <- sd_item "q1" s ;; q2 <- sd_item "q2" s ;;
  l11 <- sd_item "l11" p ;; a <- forward l11 (map3 nl q2) ;;
  l12 <- sd_item "l12" p ;; b <- forward l12 q1 ;; ab <- zip3 Rplus a b ;;
  l13 <- sd_item "l13" p ;; c <- forward l13 (map3 nl q1) ;; abc <- zip3 Rplus ab c ;;
  l14 <- sd_item "l14" p ;; f <- forward l14 q2 ;; r1 <- zip3 Rplus abc f ;;
  l21 <- sd_item "l21" p ;; a <- forward l21 q1 ;;
  l22 <- sd_item "l22" p ;; b <- forward l22 q2 ;; ab <- zip3 Rplus a b ;;
  l23 <- sd_item "l23" p ;; c <- forward l23 (map3 nl q2) ;; abc <- zip3 Rplus ab c ;;
  l24 <- sd_item "l24" p ;; f <- forward l24 (map3 nl q1) ;; r2 <- zip3 Rplus abc f ;;
  r2 <- zip3 Rminus r2 (map3 (Rmult general_dampening) q2) ;;
  Ok [("dot_q1", r1); ("dot_q2", r2)].

(** sm.py:782-833 *)
Definition general_costate (s c : states) (p : pars) : result states :=
  l11 <- sd_item "l11" p ;; l12 <- sd_item "l12" p ;; l13 <- sd_item "l13" p ;; l14 <- sd_item "l14" p ;;
  l21 <- sd_item "l21" p ;; l22 <- sd_item "l22" p ;; l23 <- sd_item "l23" p ;; l24 <- sd_item "l24" p ;;
  q2 <- sd_item "q2" s ;; q1 <- sd_item "q1" s ;; p1 <- sd_item "p_q1" c ;; p2 <- sd_item "p_q2" c ;;
  a <- matmul32 p1 (lin_weight l11) ;; b <- matmul32 p2 (lin_weight l23) ;; ab <- zip3 Rplus a b ;;
  dp2 <- zip3 Rmult (map3 Ropp (map3 dnl q2)) ab ;;
  a <- matmul32 p1 (lin_weight l14) ;; b <- matmul32 p2 (lin_weight l22) ;;
  t2 <- zip3 Rminus (map3 Ropp a) b ;;
  a <- matmul32 p2 (lin_weight l21) ;; b <- matmul32 p1 (lin_weight l12) ;;
  dp1 <- zip3 Rminus (map3 Ropp a) b ;;
  a <- matmul32 p1 (lin_weight l13) ;; b <- matmul32 p2 (lin_weight l24) ;; ab <- zip3 Rplus a b ;;
  t1 <- zip3 Rmult (map3 Ropp (map3 dnl q1)) ab ;;
  r1 <- zip3 Rplus dp1 t1 ;; r2 <- zip3 Rplus dp2 t2 ;;
  Ok [("dot_p_q1", r1); ("dot_p_q2", r2)].

(** sm.py:836-923 *)
Definition general_parameters (s c : states) : result pars :=
  q1 <- sd_item "q1" s ;; p1 <- sd_item "p_q1" c ;;
  q2 <- sd_item "q2" s ;; let q2 := transpose12 q2 in
  p2 <- sd_item "p_q2" c ;; let p2 := transpose12 p2 in
  temp <- matmul33 (map3 nl q2) p1 ;; let l11 := tr (mean0 temp) in
  temp <- matmul33 (transpose12 q1) p1 ;; let l12 := tr (mean0 temp) in
  temp <- matmul33 (map3 nl (transpose12 q1)) p1 ;; let l13 := tr (mean0 temp) in
  temp <- matmul33 q2 p1 ;; let l14 := tr (mean0 temp) in
  temp <- matmul33 p2 q1 ;; let l21 := mean0 temp in
  temp <- matmul33 p2 (transpose12 q2) ;; let l22 := mean0 temp in
  temp <- matmul33 (map3 nl q2) (transpose12 p2) ;; let l23 := tr (mean0 temp) in
  temp <- matmul33 p2 (map3 nl q1) ;; let l24 := mean0 temp in
  os <- store_weight "l11" l11 general_objects ;; os <- store_bias "l11" (mean0 p1) os ;;
  os <- store_weight "l12" l12 os ;; os <- store_weight "l13" l13 os ;; os <- store_weight "l14" l14 os ;;
  os <- store_weight "l21" l21 os ;; os <- store_bias "l21" (mean0 (transpose12 p2)) os ;;
  os <- store_weight "l22" l22 os ;; os <- store_weight "l23" l23 os ;; store_weight "l24" l24 os.

(** *** Simple *)

(** sm.py:1154-1166 *)
Definition simple_objects : pars := [("l1", snn_linear (init "l1") d d true W)].

(** sm.py:1168-1177 *)
Definition simple_rhs (s : states) (p : pars) : result states :=
  l1 <- sd_item "l1" p ;; q1 <- sd_item "q1" s ;; r1 <- forward l1 (map3 nl q1) ;;
  Ok [("dot_q1", r1)].

Variable nr_of_particles : nat.

(** sm.py:1206; [dot_qt] is not used, but its computation can raise. *)
Definition unused_dot_q (q : t3) (l : lin) : result t3 :=
  y <- matmul32 (map3 nl q) (tr (lin_weight l)) ;;
  match lin_bias l with
  | None => Raise KeyError
  | Some b => zip3 Rplus y (mkT3 1 (m0 b) (m1 b) (fun _ => v2 b))
  end.

(** sm.py:1209-1211 (1021-1023, 1042-1044) *)
Definition costate_loop (q p : t3) (A : t2) : result t3 :=
  foldM (fun acc i =>
    qi <- row q i ;; pi <- row p i ;; m <- matmul22 pi A ;;
    r <- zip2 Rmult (map2 Ropp (map2 dnl qi)) m ;; set_row acc i r) (seq 0 nr_of_particles) (zeros_like p).

(** sm.py:1179-1215 *)
Definition simple_costate (s c : states) (p : pars) : result states :=
  l1 <- sd_item "l1" p ;; q1 <- sd_item "q1" s ;; p1 <- sd_item "p_q1" c ;;
  _ <- unused_dot_q q1 l1 ;;
  dp <- costate_loop q1 p1 (lin_weight l1) ;;
  Ok [("dot_p_q1", dp)].

(** sm.py:1244-1247 (1079-1082, 1098-1101) *)
Definition weight_loop (q p : t3) : result t2 :=
  At <- foldM (fun At i =>
          pi <- row p i ;; qi <- row q i ;;
          m <- zip2 Rmult (tr pi) (map2 nl qi) ;; zip2 Rplus At (tr m))
        (seq 0 nr_of_particles) (mkT2 d d (fun _ _ => 0)) ;;
  if Nat.eqb nr_of_particles 0 then Raise ZeroDivisionError
  else Ok (map2 (Rmult (1 / INR nr_of_particles)) At).

(** sm.py:1248 *)
Definition bias_of (p : t3) : t2 := map2 (Rmult (1 / INR nr_of_particles)) (sum0 p).

(** sm.py:1218-1254 *)
Definition simple_parameters (s c : states) : result pars :=
  q1 <- sd_item "q1" s ;; p1 <- sd_item "p_q1" c ;;
  At <- weight_loop q1 p1 ;;
  os <- store_weight "l1" (tr At) simple_objects ;; store_bias "l1" (bias_of p1) os.

(** *** DEBUGSimple *)

(** sm.py:959-975 (also 161-171 and 1447-1458 with inflation factor 1) *)
Definition debug_objects : pars :=
  [("l1", snn_linear (init "l1") d d true W); ("l2", snn_linear (init "l2") d d true W)].

(** sm.py:977-987 *)
Definition debug_rhs (s : states) (p : pars) : result states :=
  l1 <- sd_item "l1" p ;; q1 <- sd_item "q1" s ;; r1 <- forward l1 (map3 nl q1) ;;
  l2 <- sd_item "l2" p ;; q2 <- sd_item "q2" s ;; r2 <- forward l2 (map3 nl q2) ;;
  Ok [("dot_q1", r1); ("dot_q2", r2)].

(** sm.py:989-1049; the loop results (1025, 1046) are overwritten. *)
Definition debug_costate (s c : states) (p : pars) : result states :=
  l1 <- sd_item "l1" p ;; q1 <- sd_item "q1" s ;; p1 <- sd_item "p_q1" c ;;
  _ <- unused_dot_q q1 l1 ;;
  _ <- costate_loop q1 p1 (lin_weight l1) ;;
  m1 <- matmul32 p1 (lin_weight l1) ;; dp1 <- zip3 Rmult (map3 Ropp (map3 dnl q1)) m1 ;;
  l2 <- sd_item "l2" p ;; q2 <- sd_item "q2" s ;; p2 <- sd_item "p_q2" c ;;
  _ <- unused_dot_q q2 l2 ;;
  _ <- costate_loop q2 p2 (lin_weight l2) ;;
  m2 <- matmul32 p2 (lin_weight l2) ;; dp2 <- zip3 Rmult (map3 Ropp (map3 dnl q2)) m2 ;;
  Ok [("dot_p_q1", dp1); ("dot_p_q2", dp2)].

(** sm.py:1052-1110 *)
Definition debug_parameters (s c : states) : result pars :=
  q1 <- sd_item "q1" s ;; p1 <- sd_item "p_q1" c ;;
  At <- weight_loop q1 p1 ;;
  os <- store_weight "l1" (tr At) debug_objects ;; os <- store_bias "l1" (bias_of p1) os ;;
  q2 <- sd_item "q2" s ;; p2 <- sd_item "p_q2" c ;;
  At <- weight_loop q2 p2 ;;
  os <- store_weight "l2" (tr At) os ;; store_bias "l2" (bias_of p2) os.

(** *** SecondOrder: the up-down right-hand side (sm.py:173-183) on uninflated layers (161-171). *)
Definition second_order_objects : pars := debug_objects.
(** sm.py:173-183 *)
Definition second_order_rhs : states -> pars -> result states := updown_rhs.

(** *** OptimalTransportSimple (sm.py:1447-1466): up-down with the layer sizes exchanged *)
Definition ot_objects : pars :=
  [("l1", snn_linear (init "l1") d e true W); ("l2", snn_linear (init "l2") e d true W)].
(** sm.py:1460-1466 *)
Definition ot_rhs : states -> pars -> result states := updown_rhs.

(** *** UpdownDampenedQ2; objects, costates and parameters as for UpDown *)

(** sm.py:1497, 1528-1538 *)
Definition dampened_q2_factor : R := - (1 / 2).
(** sm.py:1528-1538 *)
Definition dampened_q2_rhs (s : states) (p : pars) : result states :=
  l1 <- sd_item "l1" p ;; q2 <- sd_item "q2" s ;; r1 <- forward l1 (map3 nl q2) ;;
  l2 <- sd_item "l2" p ;; q1 <- sd_item "q1" s ;; a <- forward l2 q1 ;;
  r2 <- zip3 Rminus a (map3 (Rmult dampened_q2_factor) q2) ;;
  Ok [("dot_q1", r1); ("dot_q2", r2)].

(** *** UpdownSymmetrized *)

(** sm.py:1689-1700 *)
Definition symmetrized_objects : pars :=
  [("l1", snn_linear (init "l1") e d true W); ("l2", snn_linear (init "l2") d e true W);
   ("l3", snn_linear (init "l3") d e true W)].

(** sm.py:1702-1712 *)
Definition symmetrized_rhs (s : states) (p : pars) : result states :=
  l1 <- sd_item "l1" p ;; q2 <- sd_item "q2" s ;; r1 <- forward l1 (map3 nl q2) ;;
  l2 <- sd_item "l2" p ;; q3 <- sd_item "q3" s ;; r2 <- forward l2 (map3 nl q3) ;;
  l3 <- sd_item "l3" p ;; q1 <- sd_item "q1" s ;; r3 <- forward l3 q1 ;;
  Ok [("dot_q1", r1); ("dot_q2", r2); ("dot_q3", r3)].

(** sm.py:1732-1779 *)
Definition symmetrized_costate (s c : states) (p : pars) : result states :=
  l1 <- sd_item "l1" p ;; l2 <- sd_item "l2" p ;; l3 <- sd_item "l3" p ;;
  q2 <- sd_item "q2" s ;; _ <- sd_item "q1" s ;; q3 <- sd_item "q3" s ;;
  p1 <- sd_item "p_q1" c ;; p2 <- sd_item "p_q2" c ;; p3 <- sd_item "p_q3" c ;;
  m1 <- matmul32 p1 (lin_weight l1) ;; dp2 <- zip3 Rmult (map3 Ropp (map3 dnl q2)) m1 ;;
  m2 <- matmul32 p2 (lin_weight l2) ;; dp3 <- zip3 Rmult (map3 Ropp (map3 dnl q3)) m2 ;;
  m3 <- matmul32 p3 (lin_weight l3) ;;
  Ok [("dot_p_q1", map3 Ropp m3); ("dot_p_q2", dp2); ("dot_p_q3", dp3)].

(** sm.py:1782-1836; the weight of l3 is divided by the weight of l1's weight (1834). *)
Definition symmetrized_parameters (s c : states) : result pars :=
  q1 <- sd_item "q1" s ;; p1 <- sd_item "p_q1" c ;;
  q2 <- sd_item "q2" s ;; let q2 := transpose12 q2 in
  q3 <- sd_item "q3" s ;; p3 <- sd_item "p_q3" c ;;
  p2 <- sd_item "p_q2" c ;; let p2 := transpose12 p2 in
  temp <- matmul33 (map3 nl q2) p1 ;; let l1 := tr (mean0 temp) in
  temp <- matmul33 p2 (map3 nl q3) ;; let l2 := mean0 temp in
  temp <- matmul33 (transpose12 q1) p3 ;; let l3 := tr (mean0 temp) in
  os <- store_weight "l1" l1 symmetrized_objects ;; os <- store_bias "l1" (mean0 p1) os ;;
  os <- store_weight "l2" l2 os ;; os <- store_bias "l2" (tr (mean0 p2)) os ;;
  o1 <- sd_item "l1" os ;; o3 <- sd_item "l3" os ;;
  let os := sd_set "l3" (with_weight (divide_by_if_not_none l3 (weight_of_weight o1)) o3) os in
  store_bias "l3" (mean0 p3) os.

(** *** UpdownPeriodic *)

(** sm.py:1901-1913 *)
Definition periodic_objects : pars :=
  [("l1", snn_linear (init "l1") e d true W); ("l2", snn_linear (init "l2") d e true W);
   ("l3", snn_linear (init "l3") d d false W)].

(** sm.py:1915-1926 *)
Definition periodic_rhs (s : states) (p : pars) : result states :=
  l1 <- sd_item "l1" p ;; q2 <- sd_item "q2" s ;; a <- forward l1 (map3 nl q2) ;;
  l3 <- sd_item "l3" p ;; q1 <- sd_item "q1" s ;; b <- forward l3 q1 ;;
  r1 <- zip3 Rplus a b ;;
  l2 <- sd_item "l2" p ;; r2 <- forward l2 q1 ;;
  Ok [("dot_q1", r1); ("dot_q2", r2)].

(** sm.py:1967-2012 *)
Definition periodic_costate (s c : states) (p : pars) : result states :=
  l1 <- sd_item "l1" p ;; l2 <- sd_item "l2" p ;; l3 <- sd_item "l3" p ;;
  q2 <- sd_item "q2" s ;; p1 <- sd_item "p_q1" c ;; p2 <- sd_item "p_q2" c ;;
  m3 <- matmul32 p1 (lin_weight l3) ;;
  m1 <- matmul32 p1 (lin_weight l1) ;; dp2 <- zip3 Rmult (map3 Ropp (map3 dnl q2)) m1 ;;
  m2 <- matmul32 p2 (lin_weight l2) ;; dp1 <- zip3 Rplus (map3 Ropp m2) (map3 Ropp m3) ;;
  Ok [("dot_p_q1", dp1); ("dot_p_q2", dp2)].

(** sm.py:2015-2066 *)
Definition periodic_parameters (s c : states) : result pars :=
  q1 <- sd_item "q1" s ;; p1 <- sd_item "p_q1" c ;;
  q2 <- sd_item "q2" s ;; let q2 := transpose12 q2 in
  p2 <- sd_item "p_q2" c ;; let p2 := transpose12 p2 in
  temp <- matmul33 (map3 nl q2) p1 ;; let l1 := tr (mean0 temp) in
  temp <- matmul33 p2 q1 ;; let l2 := mean0 temp in
  temp <- matmul33 (transpose12 q1) p1 ;; let l3 := tr (mean0 temp) in
  os <- store_weight "l1" l1 periodic_objects ;; os <- store_bias "l1" (mean0 p1) os ;;
  os <- store_weight "l2" l2 os ;; os <- store_bias "l2" (tr (mean0 p2)) os ;;
  store_weight "l3" l3 os.

(** *** DampenedUpDown; objects as for UpDown *)

(** sm.py:75-105 *)
Definition dampened_rhs (s : states) (p : pars) : result states :=
  l1 <- sd_item "l1" p ;; q2 <- sd_item "q2" s ;; a <- forward l1 (map3 nl q2) ;;
  c1 <- sd_item "c1" s ;; q1 <- sd_item "q1" s ;; b <- zip3 Rmult (map3 nl c1) q1 ;; r1 <- zip3 Rminus a b ;;
  l2 <- sd_item "l2" p ;; a <- forward l2 (map3 nl q1) ;;
  c2 <- sd_item "c2" s ;; b <- zip3 Rmult (map3 nl c2) q2 ;; r2 <- zip3 Rminus a b ;;
  Ok [("dot_c1", zeros_like c1); ("dot_c2", zeros_like c2); ("dot_q1", r1); ("dot_q2", r2)].
End Models.

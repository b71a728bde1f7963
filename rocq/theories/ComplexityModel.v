(** Model of neuro_shooting/validation_measures.py (cited as vm.py): the complexity measures.
    Numbers are reals, with the infinities and NaN of floating point added
    where the logarithm can produce them; rounding is not modelled. *)
From Coq Require Import List String Reals Bool.
From Verif Require Import Base.
Import ListNotations.
Open Scope R_scope.

(** Floating-point results (vm.py:18-30). *)
Inductive ext : Type := EFin (x : R) | EPInf | ENInf | ENaN.

(** numpy's [log2] (vm.py:18,23,28). *)
Definition np_log2 (x : R) : ext :=
  if Rlt_dec 0 x then EFin (ln x / ln 2)
  else if Req_EM_T x 0 then ENInf else ENaN.

(** A finite non-negative factor times an extended number (vm.py:18). *)
Definition np_scale (d : R) (e : ext) : ext :=
  match e with
  | EFin x => EFin (d * x)
  | ENaN => ENaN
  | EPInf => if Req_EM_T d 0 then ENaN else EPInf
  | ENInf => if Req_EM_T d 0 then ENaN else ENInf
  end.

(** Addition in [np.sum] (vm.py:18). *)
Definition np_add (a b : ext) : ext :=
  match a, b with
  | ENaN, _ | _, ENaN => ENaN
  | EPInf, ENInf | ENInf, EPInf => ENaN
  | EPInf, _ | _, EPInf => EPInf
  | ENInf, _ | _, ENInf => ENInf
  | EFin x, EFin y => EFin (x + y)
  end.

(** Pairs of neighbours: [a[0:-1]] and [a[1:]] side by side. *)
Definition neighbours (l : list R) : list (R * R) := combine l (tl l).

(** vm.py:8-13 *)
Definition delta_t (t : list R) : list R :=
  map (fun ab => if Rlt_dec (snd ab - fst ab) 0 then 0 else snd ab - fst ab) (neighbours t).

(** vm.py:15-16 *)
Definition midpoints (ss : list R) : list R :=
  map (fun ab => 1 / 2 * (fst ab + snd ab)) (neighbours ss).

(** numpy's elementwise product with broadcasting of one-element arrays (vm.py:18). *)
Definition np_mul (d : list R) (e : list ext) : result (list ext) :=
  if Nat.eqb (List.length d) (List.length e) then Ok (map (fun p => np_scale (fst p) (snd p)) (combine d e))
  else match d, e with
       | [d0], _ => Ok (map (np_scale d0) e)
       | _, [e0] => Ok (map (fun x => np_scale x e0) d)
       | _, _ => Raise ValueError
       end.

(** vm.py:15-18 for one of the three measures. *)
Definition log_measure (t ss : list R) : result ext :=
  p <- np_mul (delta_t t) (map np_log2 (midpoints ss)) ;;
  Ok (fold_left np_add p (EFin 0)).

(** vm.py:4-35: the three measures in the order frobenius, nuclear, spectral. *)
Definition compute_complexity_measures (data : sdict (list R)) : result (ext * ext * ext) :=
  t <- sd_item "t"%string data ;;
  fro <- sd_item "sum_sqr_frobenius_norm"%string data ;;
  f <- log_measure t fro ;;
  nuc <- sd_item "sum_sqr_nuclear_norm"%string data ;;
  n <- log_measure t nuc ;;
  spe <- sd_item "sum_sqr_spectral_norm"%string data ;;
  s <- log_measure t spe ;;
  Ok (f, n, s).

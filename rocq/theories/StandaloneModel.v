(** Model of tests/test_standalone_shooting_updown.py (cited as ts.py), the reference implementation of
    the up-down model that does not use the package, up to the drawing (ts.py:189-211).

    Numbers are reals; tensors and torch operations are those of VecModel.  [nl] and [dnl] are
    parameters because the file switches them by hand (ts.py:42-45).  [clone] (ts.py:79-80, 103, 109)
    copies values, so that it leaves no trace here.  A mean over no particles gives NaN in the code,
    which reals do not have: theorems exclude it. *)
From Coq Require Import List String Bool Reals Arith ZArith.
From Verif Require Import Base RealSum VecModel.
Import ListNotations.
Open Scope string_scope.
Open Scope R_scope.

Notation mats := (sdict t2).

(** [x + b] of a batch of matrices and a matrix (torch, external) *)
Definition add32 (x : t3) (b : t2) : result t3 := zip3 Rplus x (mkT3 1 (m0 b) (m1 b) (fun _ => v2 b)).

(** [torch.sum] of all entries (external) *)
Definition sum3 (x : t3) : R := sum2 (sum0 x).

(** [x[i,j,k]] (external) *)
Definition entry (x : t3) (i j k : nat) : result R :=
  if Nat.ltb i (n0 x) && Nat.ltb j (n1 x) && Nat.ltb k (n2 x) then Ok (v3 x i j k) else Raise IndexError.

(** [x[i,j,k] = y] (external) *)
Definition set_entry (x : t3) (i j k : nat) (y : R) : result t3 :=
  if Nat.ltb i (n0 x) && Nat.ltb j (n1 x) && Nat.ltb k (n2 x)
  then Ok (mkT3 (n0 x) (n1 x) (n2 x) (fun a b c =>
         if Nat.eqb a i && Nat.eqb b j && Nat.eqb c k then y else v3 x a b c))
  else Raise IndexError.

(** [int(x)] of a float: the fractional part is cut off (Python, external). *)
Definition py_int (x : R) : Z := if Rle_dec 0 x then Int_part x else Z.opp (Int_part (- x)).

Section Standalone.
Variables nl dnl : R -> R.

(** ts.py:6-22 *)
Definition compute_parameters (states : states) : result mats :=
  q1 <- sd_item "q1" states ;; p1 <- sd_item "p1" states ;;
  q2 <- sd_item "q2" states ;; let q2 := transpose12 q2 in
  p2 <- sd_item "p2" states ;; let p2 := transpose12 p2 in
  t1 <- matmul33 (map3 nl q2) p1 ;; let l1 := tr (mean0 t1) in
  t2 <- matmul33 p2 q1 ;; let l2 := mean0 t2 in
  Ok [("l2_weight", l2); ("l1_weight", l1); ("l2_bias", tr (mean0 p2)); ("l1_bias", mean0 p1)].

(** ts.py:47-72; the dictionary is a SortedDict *)
Definition compute_rhs (states : states) : result (sdict t3) :=
  parameters <- compute_parameters states ;;
  _ <- sd_item "p1" states ;;
  l1 <- sd_item "l1_weight" parameters ;; l2 <- sd_item "l2_weight" parameters ;;
  bias1 <- sd_item "l1_bias" parameters ;; bias2 <- sd_item "l2_bias" parameters ;;
  q1 <- sd_item "q1" states ;; q2 <- sd_item "q2" states ;;
  p1 <- sd_item "p1" states ;; p2 <- sd_item "p2" states ;;
  a <- matmul32 (map3 nl q2) (tr l1) ;; rhs_q1 <- add32 a bias1 ;;
  b <- matmul32 q1 (tr l2) ;; rhs_q2 <- add32 b bias2 ;;
  m <- matmul32 p1 l1 ;; dot_p2 <- zip3 Rmult (map3 Ropp (map3 dnl q2)) m ;;
  m' <- matmul32 p2 l2 ;; let dot_p1 := map3 Ropp m' in
  Ok [("p1", dot_p1); ("p2", dot_p2); ("q1", rhs_q1); ("q2", rhs_q2)].

(** ts.py:29-34 *)
Definition compute_energy (states : states) : result R :=
  parameters <- compute_parameters states ;;
  Ok (fold_left (fun result kx => result + 1 / 2 * sum2 (map2 (fun x => x ^ 2) (snd kx))) parameters 0).

(** ts.py:36-40 *)
Definition compute_lagrangian (states : states) : result R :=
  p1 <- sd_item "p1" states ;; let A := n0 p1 in
  rhs <- compute_rhs states ;;
  r1 <- sd_item "q1" rhs ;; a <- zip3 Rmult p1 r1 ;;
  p2 <- sd_item "p2" states ;; r2 <- sd_item "q2" rhs ;; b <- zip3 Rmult p2 r2 ;;
  Ok ((sum3 a + sum3 b) / INR A).

(** ts.py:24-27 *)
Definition compute_hamiltonian (states : states) : result R :=
  energy <- compute_energy states ;; lagrangian <- compute_lagrangian states ;;
  p1 <- sd_item "p1" states ;; Ok ((lagrangian - energy) * INR (n0 p1)).

(** ts.py:88-89 and, with the whole step, ts.py:92: every state moves along the given derivative. *)
Definition moved (h : R) (states : sdict t3) (rhs : sdict t3) : result (sdict t3) :=
  mapM (fun nx => r <- sd_item (fst nx) rhs ;; z <- zip3 Rplus (snd nx) (map3 (Rmult h) r) ;; Ok (fst nx, z)) states.

(** [result[name].append(x)] *)
Definition append_to (name : string) (x : R) (result : sdict (list R)) : Base.result (sdict (list R)) :=
  l <- sd_item name result ;; Ok (sd_set name (l ++ [x])%list result).

(** ts.py:86-95, one step; ts.py:92 reads and writes the entry of one name at a time. *)
Definition advect_step (timestep : R) (sr : sdict t3 * sdict (list R)) : result (sdict t3 * sdict (list R)) :=
  let states := fst sr in
  rhs <- compute_rhs states ;;
  states_temp <- moved (1 / 2 * timestep) states rhs ;;
  rhs2 <- compute_rhs states_temp ;;
  states <- moved timestep states rhs2 ;;
  result <- foldM (fun res nx => x <- entry (snd nx) 0 0 0 ;; append_to (fst nx) x res) states (snd sr) ;;
  energy <- compute_energy states ;; result <- append_to "energy" energy result ;;
  lagrangian <- compute_lagrangian states ;; result <- append_to "lagrangian" lagrangian result ;;
  Ok (states, result).

(** ts.py:78-83 *)
Definition empty_results (initial_states : sdict t3) : sdict (list R) :=
  sd_set "lagrangian" [] (sd_set "energy" [] (fold_left (fun d nx => sd_set (fst nx) [] d) initial_states [])).

(** ts.py:84; [range] of a negative number is empty. *)
Definition number_of_steps (timestep : R) : result nat :=
  if Req_EM_T timestep 0 then Raise ZeroDivisionError else Ok (Z.to_nat (py_int (1 / timestep))).

(** ts.py:74-97 *)
Definition advect (timestep : R) (initial_states : sdict t3) : result (sdict t3 * sdict (list R)) :=
  n <- number_of_steps timestep ;;
  foldM (fun sr _ => advect_step timestep sr) (seq 0 n) (initial_states, empty_results initial_states).

(** ts.py:109-112, one entry *)
Definition quotient (initial_states : sdict t3) (x : t3) (l1 epsilon : R) (state_name : string) (i j : nat) : result R :=
  y <- entry x i 0 j ;; x' <- set_entry x i 0 j (y + epsilon) ;;
  l2 <- compute_hamiltonian (sd_set state_name x' initial_states) ;;
  if Req_EM_T epsilon 0 then Raise ZeroDivisionError else Ok ((l2 - l1) / epsilon).

(** ts.py:99-113; the division of tensors by zero gives infinity or NaN in the code, here an error. *)
Definition finite_differences (initial_states : sdict t3) (epsilon : R) (state_name costate_name : string)
    : result (t3 * t3) :=
  rhs <- compute_rhs initial_states ;;
  l1 <- compute_hamiltonian initial_states ;;
  x <- sd_item state_name initial_states ;;
  gradient <- foldM (fun g i => foldM (fun g j =>
      v <- quotient initial_states x l1 epsilon state_name i j ;; set_entry g i 0 j v) (seq 0 (n2 x)) g)
    (seq 0 (n0 x)) (zeros_like x) ;;
  c <- sd_item costate_name rhs ;; Ok (gradient, c).
End Standalone.

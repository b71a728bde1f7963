(** Specification for the parameter computations: parameter objects seen as one vector of reals. *)
From Coq Require Import List String Reals Arith.
From Verif Require Import Base Tensor EnergyModel RealSum.
Import ListNotations.
Open Scope R_scope.

(** Objects are well formed: sorted names, tensors with as many entries as their shape says. *)
Definition objects_wf (os : pobjs) : Prop :=
  sd_wf os /\ Forall (fun op => sd_wf (po_pars (snd op)) /\ Forall (fun kt => twf (snd kt)) (po_pars (snd op))) os.

(** All parameters. *)
Definition parameters (os : pobjs) : list (tensor R) := flat_map (fun op => map snd (po_pars (snd op))) os.

(** All entries of all parameters. *)
Definition entries (os : pobjs) : list R := flat_map tdata (parameters os).

(** Same objects up to the values of the entries. *)
Definition same_layout (a b : pobjs) : Prop :=
  Forall2 (fun x y => fst x = fst y /\ po_weights (snd x) = po_weights (snd y) /\
             Forall2 (fun u v => fst u = fst v /\ tshape (snd u) = tshape (snd v))
               (po_pars (snd x)) (po_pars (snd y))) a b.

(** The weight of a parameter; missing or None counts as 1 (si.py:317-336). *)
Definition effective_weight (ws : sdict (option R)) (k : string) : R :=
  match sd_get k ws with Some (Some w) => w | _ => 1 end.

(** The weight of each entry. *)
Definition weights (os : pobjs) : list R :=
  flat_map (fun op =>
    flat_map (fun kt => repeat (effective_weight (po_weights (snd op)) (fst kt)) (List.length (tdata (snd kt))))
      (po_pars (snd op))) os.

(** The objects with other entries. *)
Fixpoint fill_pars (d : sdict (tensor R)) (x : list R) : sdict (tensor R) :=
  match d with
  | [] => []
  | (k, t) :: r => let n := List.length (tdata t) in
                   (k, mkT (tshape t) (firstn n x)) :: fill_pars r (skipn n x)
  end.

Definition size_of (d : sdict (tensor R)) : nat := List.length (flat_map (fun kt => tdata (snd kt)) d).

Fixpoint with_entries (os : pobjs) (x : list R) : pobjs :=
  match os with
  | [] => []
  | (o, p) :: r => let n := size_of (po_pars p) in
                   (o, mkPobj (fill_pars (po_pars p) (firstn n x)) (po_weights p)) :: with_entries r (skipn n x)
  end.

(** Entry [e] of a vector. *)
Definition at_ (x : list R) (e : nat) : R := nth e x 0.

(** [g] holds the partial derivatives of [f] at [os], in tensors of the parameters' shapes. *)
Definition is_gradient (f : pobjs -> R) (os : pobjs) (g : list (tensor R)) : Prop :=
  Forall2 (fun t d => tshape d = tshape t /\ twf d) (parameters os) g /\
  forall e, (e < List.length (entries os))%nat ->
    derivable_pt_lim (fun y => f (with_entries os (set_nth e y (entries os))))
      (at_ (entries os) e) (at_ (flat_map tdata g) e).

(** The energy is affine in the parameters: a constant plus a linear form. *)
Definition affine_in (f : pobjs -> R) (os : pobjs) (c : R) (g : nat -> R) : Prop :=
  forall os', same_layout os os' -> objects_wf os' ->
    f os' = c + rsum (List.length (entries os)) (fun e => g e * at_ (entries os') e).

(** The energy is a quadratic polynomial: half a symmetric form minus a linear form. *)
Definition quadratic_in (f : pobjs -> R) (os : pobjs) (c : R) (a : nat -> nat -> R) (g : nat -> R) : Prop :=
  (forall i j, a i j = a j i) /\
  forall os', same_layout os os' -> objects_wf os' ->
    let n := List.length (entries os) in let x := at_ (entries os') in
    f os' = c + 1 / 2 * rsum n (fun i => rsum n (fun j => a i j * x i * x j)) - rsum n (fun e => g e * x e).

(** [v] is an eigenvector of the matrix [a] for the eigenvalue [lambda]. *)
Definition eigenvector (n : nat) (a : nat -> nat -> R) (lambda : R) (v : nat -> R) : Prop :=
  forall j, (j < n)%nat -> rsum n (fun e => a j e * v e) = lambda * v j.

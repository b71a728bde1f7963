(** Model of neuro_shooting/parameter_initialization.py (cited as pi.py): the
    initialisers of particle parameters.  Numbers are real numbers.
    [nn.Parameter(t)] is the tensor [t].  What a call of [torch.randn] draws is
    an argument ([noise]).  Sizes are natural numbers; additional positional or
    keyword arguments ([argv], [kwargs]) are left out, no method uses them. *)
From Coq Require Import List Arith Reals Bool.
From Verif Require Import Base Tensor.
Import ListNotations.

(** The classes of pi.py: [ParameterInitializer] (5-102), the vector base class
    (105-117) and its subclasses (119-128, 130-139), the convolution base class
    (141-153) and its subclasses (155-168, 170-183). *)
Inductive cls : Type :=
| CBase | CVecBase | CVec | CVecSample | CConvBase | CConv | CConvSample.

(** An initialiser object (pi.py:7-11; all constructors pass the arguments on). *)
Record initializer : Type := mkInit {
  i_cls : cls;
  only_random : bool;
  magnitude : R;
  sample_batch : option (tensor R) }.

(** The [particle_size] argument: a number, or a tuple or list of numbers. *)
Inductive psize : Type := PNum (n : nat) | PSeq (l : list nat).

(** torch broadcasting of two shapes, last axes aligned (arguments and result
    reversed); [None] is torch's RuntimeError. *)
Fixpoint bc_rev (a b : list nat) : option (list nat) :=
  match a, b with
  | [], _ => Some b
  | _, [] => Some a
  | x :: a', y :: b' =>
      match bc_rev a' b' with
      | None => None
      | Some r => if x =? y then Some (x :: r)
                  else if x =? 1 then Some (y :: r)
                  else if y =? 1 then Some (x :: r) else None
      end
  end.

(** Index into a tensor of (reversed) shape [s] for a (reversed) index of the
    broadcast shape: missing axes are dropped, axes of extent 1 repeat. *)
Fixpoint bc_idx_rev (s idx : list nat) : list nat :=
  match s, idx with
  | n :: s', i :: idx' => (if n =? 1 then 0 else i) :: bc_idx_rev s' idx'
  | _, _ => []
  end.

(** [a[...]] at an index of the broadcast shape (torch). *)
Definition bc_get (a : tensor R) (idx : list nat) : option R :=
  tget a (rev (bc_idx_rev (rev (tshape a)) (rev idx))).

(** [a + b] of two tensors (torch, with broadcasting; pi.py:139, 182). *)
Definition tadd (a b : tensor R) : result (tensor R) :=
  match bc_rev (rev (tshape a)) (rev (tshape b)) with
  | None => Raise RuntimeError
  | Some r => Ok (tgather (rev r) (fun idx => match bc_get a idx, bc_get b idx with
                                              | Some x, Some y => Some (x + y)%R
                                              | _, _ => None
                                              end))
  end.

(** [torch.zeros(size)] *)
Definition zeros (s : list nat) : tensor R := tfill 0%R s.
(** [constant*torch.ones(size)] (pi.py:29, 55, 117) *)
Definition constants (c : R) (s : list nat) : tensor R := tmap (fun x => (c * x)%R) (tfill 1%R s).
(** [self.random_initialization_magnitude * torch.randn(size)] (pi.py:32, 58, 128, 167) *)
Definition randoms (self : initializer) (noise : list nat -> tensor R) (s : list nat) : tensor R :=
  tmap (fun x => (magnitude self * x)%R) (noise s).

(** [tuple([nr_of_particles,particle_dimension,particle_size])] as a torch size
    (pi.py:112, 116, 127, 138): torch rejects a nested sequence. *)
Definition vec_size (n : nat) (ps : psize) (dim : nat) : result (list nat) :=
  match ps with
  | PNum d => Ok [n; dim; d]
  | PSeq _ => Raise TypeError
  end.

(** The check and [tuple([nr_of_particles,particle_dimension,*particle_size])]
    (pi.py:149-152, 163-166, 178-181). *)
Definition conv_size (n : nat) (ps : psize) (dim : nat) : result (list nat) :=
  match ps with
  | PNum _ => Raise ValueError
  | PSeq l => Ok (n :: dim :: l)
  end.

(** [create_zero_parameters]: pi.py:13-15 (a method without a body, which
    returns None), 111-113, 147-153. *)
Definition create_zero_parameters (self : initializer) (n : nat) (ps : psize) (dim : nat)
  : result (option (tensor R)) :=
  match i_cls self with
  | CBase => Ok None
  | CVecBase | CVec | CVecSample => s <- vec_size n ps dim ;; Ok (Some (zeros s))
  | CConvBase | CConv | CConvSample => s <- conv_size n ps dim ;; Ok (Some (zeros s))
  end.

(** [create_constant_parameters]: only the vector classes have it (pi.py:115-117);
    calling it on another object raises AttributeError. *)
Definition create_constant_parameters (self : initializer) (n : nat) (ps : psize) (dim : nat)
  (constant : R) : result (option (tensor R)) :=
  match i_cls self with
  | CVecBase | CVec | CVecSample => s <- vec_size n ps dim ;; Ok (Some (constants constant s))
  | CBase | CConvBase | CConv | CConvSample => Raise AttributeError
  end.

(** [self.sample_batch + magnitude*torch.randn(size)] (pi.py:139, 182); None has
    no addition with a tensor. *)
Definition add_sample (self : initializer) (t : tensor R) : result (option (tensor R)) :=
  match sample_batch self with
  | None => Raise TypeError
  | Some b => r <- tadd b t ;; Ok (Some r)
  end.

(** [create_random_parameters]: pi.py:17-19 (no body), 126-128, 137-139, 162-167,
    177-182. *)
Definition create_random_parameters (self : initializer) (noise : list nat -> tensor R)
  (n : nat) (ps : psize) (dim : nat) : result (option (tensor R)) :=
  match i_cls self with
  | CBase | CVecBase | CConvBase => Ok None
  | CVec => s <- vec_size n ps dim ;; Ok (Some (randoms self noise s))
  | CVecSample => s <- vec_size n ps dim ;; add_sample self (randoms self noise s)
  | CConv => s <- conv_size n ps dim ;; Ok (Some (randoms self noise s))
  | CConvSample => s <- conv_size n ps dim ;; add_sample self (randoms self noise s)
  end.

(** [set_to_constant is not None] *)
Definition given (c : option R) : bool := match c with Some _ => true | None => false end.

(** pi.py:77-102 [create_parameters]; [create_custom_parameters] (21-22) raises
    ValueError and is not overridden. *)
Definition create_parameters (self : initializer) (noise : list nat -> tensor R)
  (n : nat) (ps : psize) (dim : nat) (set_to_zero : bool) (set_to_constant : option R)
  : result (option (tensor R)) :=
  if set_to_zero && given set_to_constant then Raise ValueError
  else if set_to_zero then create_zero_parameters self n ps dim
  else match set_to_constant with
       | Some c => create_constant_parameters self n ps dim c
       | None => if only_random self then create_random_parameters self noise n ps dim
                 else Raise ValueError
       end.

(** pi.py:63-75 [create_parameters_of_size], with 51-61. *)
Definition create_parameters_of_size (self : initializer) (noise : list nat -> tensor R)
  (size : list nat) (set_to_zero : bool) (set_to_constant : option R) : result (tensor R) :=
  if set_to_zero && given set_to_constant then Raise ValueError
  else if set_to_zero then Ok (zeros size)
  else match set_to_constant with
       | Some c => Ok (constants c size)
       | None => if only_random self then Ok (randoms self noise size) else Raise ValueError
       end.

(** pi.py:37-49 [create_parameters_like], with 25-35: the [_like] functions of
    torch use the size of the given tensor. *)
Definition create_parameters_like (self : initializer) (noise : list nat -> tensor R)
  (like_tensor : tensor R) (set_to_zero : bool) (set_to_constant : option R)
  : result (tensor R) :=
  if set_to_zero && given set_to_constant then Raise ValueError
  else if set_to_zero then Ok (zeros (tshape like_tensor))
  else match set_to_constant with
       | Some c => Ok (constants c (tshape like_tensor))
       | None => if only_random self then Ok (randoms self noise (tshape like_tensor))
                 else Raise ValueError
       end.

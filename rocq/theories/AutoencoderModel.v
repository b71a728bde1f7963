(** Model of demos/neurips20/autoencoder.py (cited as ae.py) and of the training
    step of demos/neurips20/rot.py: shapes exactly, values of convolutions, linear
    layers, normalisation and activations by an arbitrary function. *)
From Coq Require Import List Arith ZArith Bool.
From Verif Require Import Base Tensor.
Import ListNotations.

Section Autoencoder.
Context {A : Type}.
(** The element at an index computed by a layer, given its number and input
    (torch, external). *)
Variable value : nat -> tensor A -> list nat -> A.
(** [sub a b] is [a - b] on elements (rot.py:358). *)
Variable sub : A -> A -> A.
(** The shooting block (ae.py:78, 163). *)
Variable blk : tensor A -> result (tensor A).
(** [np.random.shuffle] at the n-th call (ae.py:151). *)
Variable shuffle : nat -> list Z -> list Z.
(** Constructor arguments (ae.py:27, 95). *)
Variables n_filt shooting_dim T : nat.
Variables n_skip i_eval : Z.

(** The output of a layer (torch, external). *)
Definition layer (k : nat) (s : list nat) (t : tensor A) : tensor A :=
  tgather s (fun i => Some (value k t i)).

(** [nn.Conv2d] (ae.py:34-40, 106-112): four dimensions, matching channels, kernel
    not larger than the padded image. *)
Definition conv2d (k cin cout ks stride pad : nat) (t : tensor A) : result (tensor A) :=
  match tshape t with
  | [n; c; h; w] =>
      if (c =? cin) && (ks <=? h + 2 * pad) && (ks <=? w + 2 * pad) then
        Ok (layer k [n; cout; (h + 2 * pad - ks) / stride + 1; (w + 2 * pad - ks) / stride + 1] t)
      else Raise RuntimeError
  | _ => Raise RuntimeError
  end.

(** [nn.ConvTranspose2d] (ae.py:50-59, 122-131). *)
Definition conv_transpose2d (k cin cout ks stride pad opad : nat) (t : tensor A) : result (tensor A) :=
  match tshape t with
  | [n; c; h; w] =>
      if (c =? cin) && (0 <? h) && (0 <? w) && (2 * pad <? (h - 1) * stride + ks + opad)
         && (2 * pad <? (w - 1) * stride + ks + opad) then
        Ok (layer k [n; cout; (h - 1) * stride + ks + opad - 2 * pad; (w - 1) * stride + ks + opad - 2 * pad] t)
      else Raise RuntimeError
  | _ => Raise RuntimeError
  end.

(** [nn.BatchNorm2d] (ae.py:35 and others). *)
Definition batch_norm2d (k c : nat) (t : tensor A) : result (tensor A) :=
  match tshape t with
  | [_; c'; _; _] => if c' =? c then Ok (layer k (tshape t) t) else Raise RuntimeError
  | _ => Raise ValueError
  end.

(** [nn.ReLU], [nn.Sigmoid] (ae.py:36, 60 and others). *)
Definition pointwise (k : nat) (t : tensor A) : result (tensor A) := Ok (layer k (tshape t) t).

(** [nn.Linear] (ae.py:45-46, 117-118). *)
Definition linear (k fin fout : nat) (t : tensor A) : result (tensor A) :=
  match tshape t with
  | [n; f] => if f =? fin then Ok (layer k [n; fout] t) else Raise RuntimeError
  | _ => Raise RuntimeError
  end.

(** ae.py:7-9 [Flatten]: [view(size(0), -1)]; the second extent is undetermined
    without elements. *)
Definition flatten (t : tensor A) : result (tensor A) :=
  match tshape t with
  | [] => Raise IndexError
  | n :: r => if prod (n :: r) =? 0 then Raise RuntimeError else tview (tdata t) [n; prod (n :: r) / n]
  end.

(** ae.py:12-19 [UnFlatten]. *)
Definition unflatten (w : nat) (t : tensor A) : result (tensor A) :=
  match tshape t with
  | [] | 0 :: _ => Raise IndexError
  | n :: r => tview (tdata t) [n; prod r / (w * w); w; w]
  end.

(** ae.py:29, 105. *)
Definition h_dim : nat := n_filt * 64.

(** ae.py:33-43, 106-115: the encoder, for [cin] input channels. *)
Definition encoder (cin : nat) (x : tensor A) : result (tensor A) :=
  x <- conv2d 0 cin n_filt 5 2 2 x ;;
  x <- batch_norm2d 1 n_filt x ;;
  x <- pointwise 2 x ;;
  x <- conv2d 3 n_filt (n_filt * 2) 5 2 2 x ;;
  x <- batch_norm2d 4 (n_filt * 2) x ;;
  x <- pointwise 5 x ;;
  x <- conv2d 6 (n_filt * 2) (n_filt * 4) 5 2 2 x ;;
  x <- pointwise 7 x ;;
  flatten x.

(** ae.py:45, 117 *)
Definition fc1 (x : tensor A) : result (tensor A) := linear 8 h_dim shooting_dim x.
(** ae.py:46, 118 *)
Definition fc2 (x : tensor A) : result (tensor A) := linear 9 shooting_dim h_dim x.

(** ae.py:48-61, 120-133: the decoder. *)
Definition decoder (s : tensor A) : result (tensor A) :=
  s <- unflatten 4 s ;;
  s <- conv_transpose2d 10 (h_dim / 16) (n_filt * 8) 3 1 0 0 s ;;
  s <- batch_norm2d 11 (n_filt * 8) s ;;
  s <- pointwise 12 s ;;
  s <- conv_transpose2d 13 (n_filt * 8) (n_filt * 4) 5 2 1 0 s ;;
  s <- batch_norm2d 14 (n_filt * 4) s ;;
  s <- pointwise 15 s ;;
  s <- conv_transpose2d 16 (n_filt * 4) (n_filt * 2) 5 2 1 1 s ;;
  s <- batch_norm2d 17 (n_filt * 2) s ;;
  s <- pointwise 18 s ;;
  s <- conv_transpose2d 19 (n_filt * 2) 1 5 1 2 0 s ;;
  pointwise 20 s.

(** [t.unsqueeze(1)] (ae.py:78, 163). *)
Definition unsqueeze1 (t : tensor A) : result (tensor A) :=
  match tshape t with
  | [] => Raise IndexError
  | n :: r => Ok (mkT (n :: 1 :: r) (tdata t))
  end.

(** [t.squeeze()]: every extent of one is dropped (ae.py:79, 165). *)
Definition squeeze (t : tensor A) : tensor A :=
  mkT (filter (fun n => negb (n =? 1)) (tshape t)) (tdata t).

(** [t.permute(1,0,2)]: RuntimeError unless there are three dimensions (ae.py:79, 165). *)
Definition permute102 (t : tensor A) : result (tensor A) :=
  match tshape t with
  | [a; b; c] => Ok (tgather [b; a; c] (fun i => match i with [x; y; z] => tget t [y; x; z] | _ => None end))
  | _ => Raise RuntimeError
  end.

(** ae.py:75-79, 159-165: the latent trajectories of a batch. *)
Definition trajectories (cin : nat) (x : tensor A) : result (tensor A) :=
  e <- encoder cin x ;;
  enc <- fc1 e ;;
  u <- unsqueeze1 enc ;;
  out <- blk u ;;
  permute102 (squeeze out).

(** ae.py:83, 174-177, 184-186: decoding of latent vectors. *)
Definition decode (s : tensor A) : result (tensor A) := h <- fc2 s ;; decoder h.

(** ae.py:72-84 [ShootingAE.forward]. *)
Definition forward (x : tensor A) : result (tensor A * tensor A) :=
  match tshape x with
  | [] => Raise IndexError
  | N :: _ =>
      out <- trajectories 3 x ;;
      s <- tview (tdata out) [N * T; shooting_dim] ;;
      s <- decode s ;;
      r <- tview (tdata s) [N; T; 1; 28; 28] ;;
      Ok (out, r)
  end.

(** One element of a sorted list of distinct values (for [np.setdiff1d]). *)
Fixpoint insert_unique (z : Z) (l : list Z) : list Z :=
  match l with
  | [] => [z]
  | y :: r => if (z <? y)%Z then z :: l else if (z =? y)%Z then l else y :: insert_unique z r
  end.

(** [np.setdiff1d(a, b)]: the distinct values of [a] not in [b], sorted (ae.py:152). *)
Definition setdiff1d (a b : list Z) : list Z :=
  fold_right insert_unique [] (filter (fun z => negb (existsb (Z.eqb z) b)) a).

(** [l[:n]]: a negative [n] counts from the end (ae.py:152). *)
Definition first_of (n : Z) (l : list Z) : list Z :=
  firstn (Z.to_nat (if (n <? 0)%Z then Z.of_nat (length l) + n else n)%Z) l.

(** ae.py:150-152: the timepoints kept for one sample. *)
Definition kept (call : nat) : list Z :=
  let valid_idx := filter (fun j => negb (j =? i_eval)%Z) (map Z.of_nat (seq 0 T)) in
  let valid_idx := shuffle call valid_idx in
  setdiff1d valid_idx (first_of n_skip valid_idx ++ [i_eval]).

(** ae.py:153-154: the rows of all samples, each value repeated along the last
    dimension, concatenated; nothing to concatenate or different lengths are a
    RuntimeError. *)
Definition cat_rows (rows : list (list Z)) : result (tensor Z) :=
  match rows with
  | [] => Raise RuntimeError
  | r0 :: _ =>
      if forallb (fun r => length r =? length r0) rows then
        Ok (tgather [length rows; length r0; shooting_dim]
              (fun i => match i with
                        | [n; j; _] => match nth_error rows n with Some r => nth_error r j | None => None end
                        | _ => None
                        end))
      else Raise RuntimeError
  end.

(** ae.py:143-154 [generate_selection_indices]. *)
Definition generate_selection_indices (batch : tensor A) : result (tensor Z) :=
  match tshape batch with
  | [] => Raise IndexError
  | n :: _ => cat_rows (map kept (seq 0 n))
  end.

(** [t.gather(1, idx)] for three dimensions (ae.py:169, rot.py:352): RuntimeError if
    the index is larger in another dimension or has a value out of range. *)
Definition gather1 (t : tensor A) (idx : tensor Z) : result (tensor A) :=
  match tshape t, tshape idx with
  | [a; b; c], [a'; b'; c'] =>
      if (a' <=? a) && (c' <=? c) && forallb (fun z => (0 <=? z)%Z && (z <? Z.of_nat b)%Z) (tdata idx) then
        Ok (tgather [a'; b'; c'] (fun i => match i with
              | [n; j; k] => match tget idx i with Some z => tget t [n; Z.to_nat z; k] | None => None end
              | _ => None
              end))
      else Raise RuntimeError
  | _, _ => Raise RuntimeError
  end.

(** [view] to a shape whose leading extents are integers: negative ones are a
    RuntimeError (ae.py:171, rot.py:350). *)
Definition view_z {B : Type} (l : list B) (s : list Z) : result (tensor B) :=
  if forallb (fun z => (0 <=? z)%Z) s then tview l (map Z.to_nat s) else Raise RuntimeError.

(** [self.T-(self.n_skip+1)] (ae.py:171, 178; rot.py:350). *)
Definition nr_kept : Z := (Z.of_nat T - (n_skip + 1))%Z.

(** ae.py:156-188 [ShootingAEMasked.forward]; the indices are [None] without mask. *)
Definition forward_masked (x : tensor A) (use_mask : bool) : result (tensor A * option (tensor Z) * tensor A) :=
  match tshape x with
  | [] => Raise IndexError
  | N :: _ =>
      out <- trajectories 1 x ;;
      if use_mask then
        idx <- generate_selection_indices out ;;
        out <- gather1 out idx ;;
        s <- view_z (tdata out) [(Z.of_nat N * nr_kept)%Z; Z.of_nat shooting_dim] ;;
        s <- decode s ;;
        r <- view_z (tdata s) [Z.of_nat N; nr_kept; 1; 28; 28]%Z ;;
        Ok (out, Some idx, r)
      else
        s <- tview (tdata out) [N * T; shooting_dim] ;;
        s <- decode s ;;
        r <- tview (tdata s) [N; T; 1; 28; 28] ;;
        Ok (out, None, r)
  end.

(** [inp[:,0,:,:]] (rot.py:344). *)
Definition first_frame (inp : tensor A) : result (tensor A) :=
  match tshape inp with
  | n :: t :: r =>
      if 0 <? t then Ok (tgather (n :: r) (fun i => match i with x :: y => tget inp (x :: 0 :: y) | [] => None end))
      else Raise IndexError
  | _ => Raise IndexError
  end.

(** rot.py:349-350: [idx[:,:,0].view(N, m, 1).expand(-1, -1, p)]. *)
Definition frame_indices (idx : tensor Z) (N p : nat) : result (tensor Z) :=
  match tshape idx with
  | [a; b; c] =>
      if 0 <? c then
        let first := tgather [a; b] (fun i => match i with [x; y] => tget idx [x; y; 0] | _ => None end) in
        v <- view_z (tdata first) [Z.of_nat N; nr_kept; 1%Z] ;;
        Ok (tgather [N; Z.to_nat nr_kept; p]
              (fun i => match i with [x; y; _] => tget v [x; y; 0] | _ => None end))
      else Raise IndexError
  | _ => Raise IndexError
  end.

(** [a - b] for tensors of one shape; broadcasting is left out, the shapes here are
    always equal (rot.py:358). *)
Definition tsub (a b : tensor A) : result (tensor A) :=
  if eqb_list (tshape a) (tshape b)
  then Ok (mkT (tshape a) (map (fun p => sub (fst p) (snd p)) (combine (tdata a) (tdata b))))
  else Raise RuntimeError.

(** rot.py:343-358: the differences the similarity loss is made of. *)
Definition train_differences (inp : tensor A) : result (tensor A) :=
  match tshape inp with
  | N :: T' :: _ =>
      x <- first_frame inp ;;
      r <- forward_masked x true ;;
      match r with
      | (_, Some idx, out) =>
          idx <- frame_indices idx N (28 * 28) ;;
          inp <- tview (tdata inp) [N; T'; 28 * 28] ;;
          inp <- gather1 inp idx ;;
          match tshape out with
          | o0 :: o1 :: _ => o <- tview (tdata out) [o0; o1; 28 * 28] ;; tsub inp o
          | _ => Raise IndexError
          end
      | (_, None, _) => Raise TypeError
      end
  | _ => Raise IndexError
  end.
End Autoencoder.

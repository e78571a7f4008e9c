(** numpy arrays: a shape and a content function on multi-indices.  Only the numpy
    operations used by echidna are modelled. *)
From Verif Require Import Model.Base.

(** numpy.ndarray of floats, e.g. spectra.py:52. *)
Record ndarray := ND { ashape : list nat; aget : list nat -> Qc }.

(** Number of dimensions and of elements. spectra.py:52, 313 *)
Definition andim (a : ndarray) : nat := length (ashape a).
(** Number of entries of an array of shape [sh] (a.size). spectra.py:374 *)
Definition asize (sh : list nat) : nat := fold_right Nat.mul 1 sh.

(** Is a multi-index inside a shape?; spectra.py:52, 200 *)
Fixpoint in_shape (idx sh : list nat) : bool :=
  match idx, sh with
  | [], [] => true
  | i :: idx', n :: sh' => (i <? n)%nat && in_shape idx' sh'
  | _, _ => false
  end.

(** Sum of [f 0 .. f (n-1)]. spectra.py:319 *)
Fixpoint qsumn (n : nat) (f : nat -> Qc) : Qc :=
  match n with
  | O => 0%Qc
  | S n' => (qsumn n' f + f n')%Qc
  end.

(** Sum over all multi-indices of a shape. spectra.py:571 *)
Fixpoint sum_over (sh : list nat) (f : list nat -> Qc) : Qc :=
  match sh with
  | [] => f []
  | n :: sh' => qsumn n (fun i => sum_over sh' (fun idx => f (i :: idx)))
  end.

(** [a.sum()]; spectra.py:571 *)
Definition asum (a : ndarray) : Qc := sum_over (ashape a) (aget a).

(** numpy.zeros; spectra.py:52-53 *)
Definition azeros (sh : list nat) : ndarray := ND sh (fun _ => 0%Qc).

(** A list without its k-th element: the index of a.sum(axis) (spectra.py:319). *)
Fixpoint remove_at {A} (k : nat) (l : list A) : list A :=
  match k, l with
  | _, [] => []
  | O, _ :: l' => l'
  | S k', x :: l' => x :: remove_at k' l'
  end.
(** A list with an element inserted before position k: the indices summed over by a.sum(axis).
    spectra.py:319, 338-340 *)
Fixpoint insert_at {A} (k : nat) (a : A) (l : list A) : list A :=
  match k, l with
  | O, _ => a :: l
  | S k', x :: l' => x :: insert_at k' a l'
  | S _, [] => [a]
  end.

(** [a.sum(axis)]; numpy accepts [-ndim <= axis < ndim], otherwise raises. spectra.py:319, 338-340, 376 *)
Definition norm_axis (axis : Z) (nd : nat) : res nat :=
  let ax := if (axis <? 0)%Z then (axis + Z.of_nat nd)%Z else axis in
  if ((0 <=? ax) && (ax <? Z.of_nat nd))%Z then Ok (Z.to_nat ax) else Err EAxisError.
(** a.sum(axis) for an axis that exists, spectra.py:319, 338-340, 376, 598. *)
Definition sum_at (k : nat) (a : ndarray) : ndarray :=
  ND (remove_at k (ashape a))
     (fun idx => qsumn (nth k (ashape a) 0%nat) (fun i => aget a (insert_at k i idx))).
(** a.sum(axis) with numpy's treatment of negative axes and its AxisError, spectra.py:319, 376. *)
Definition asum_axis (axis : Z) (a : ndarray) : res ndarray :=
  do k <- norm_axis axis (andim a); Ok (sum_at k a).

(** [a[tuple(bins)] += w].  Negative indices wrap around, other indices out of range
    raise IndexError.  A wrong number of indices raises IndexError (numpy would
    broadcast when there are fewer; never the case in echidna). spectra.py:200 *)
Definition norm_index (i : Z) (n : nat) : res nat :=
  let j := if (i <? 0)%Z then (i + Z.of_nat n)%Z else i in
  if ((0 <=? j) && (j <? Z.of_nat n))%Z then Ok (Z.to_nat j) else Err EIndexError.
(** Indices as numpy takes them, negative ones from the end (spectra.py:200). *)
Fixpoint norm_indices (is : list Z) (sh : list nat) : res (list nat) :=
  match is, sh with
  | [], [] => Ok []
  | i :: is', n :: sh' => do k <- norm_index i n; do ks <- norm_indices is' sh'; Ok (k :: ks)
  | _, _ => Err EIndexError
  end.
(** Equality of two tuples of integers, e.g. spectra.py:85. *)
Fixpoint idx_eqb (a b : list nat) : bool :=
  match a, b with
  | [], [] => true
  | x :: a', y :: b' => (x =? y)%nat && idx_eqb a' b'
  | _, _ => false
  end.
(** a[idx] = v for a full index. minimise.py:515-519, 536-540 *)
Definition aset (a : ndarray) (idx : list nat) (v : Qc) : ndarray :=
  ND (ashape a) (fun j => if idx_eqb j idx then v else aget a j).
(** a[bins] += w, spectra.py:200. *)
Definition aadd_at (a : ndarray) (bins : list Z) (w : Qc) : res ndarray :=
  do idx <- norm_indices bins (ashape a); Ok (aset a idx (aget a idx + w)%Qc).

(** Element-wise operations. spectra.py:390 *)
Definition amap (f : Qc -> Qc) (a : ndarray) : ndarray :=
  ND (ashape a) (fun idx => f (aget a idx)).
(** [a + b] for equal shapes (echidna checks equality of shapes first). spectra.py:136 *)
Definition aplus (a b : ndarray) : ndarray :=
  ND (ashape a) (fun idx => (aget a idx + aget b idx)%Qc).

(** Row-major (C order) position of a multi-index and back; [reshape]. spectra.py:374 *)
Fixpoint ravel (sh idx : list nat) : nat :=
  match sh, idx with
  | _ :: sh', i :: idx' => i * asize sh' + ravel sh' idx'
  | _, _ => 0
  end.
(** Inverse of [ravel] (numpy.unravel_index, minimise.py:349). *)
Fixpoint unravel (sh : list nat) (k : nat) : list nat :=
  match sh with
  | [] => []
  | _ :: sh' => (k / asize sh') :: unravel sh' (k mod asize sh')
  end.
(** a.reshape(new), spectra.py:374. *)
Definition areshape (new : list nat) (a : ndarray) : res ndarray :=
  if (asize new =? asize (ashape a))%nat
  then Ok (ND new (fun idx => aget a (unravel (ashape a) (ravel new idx))))
  else Err EValueError.

(** Basic slicing [a[l0:h0, l1:h1, ...]] (step 1): negative bounds count from the end,
    everything is clipped to the axis. spectra.py:530-536 *)
Definition clip_bound (b : Z) (n : nat) : nat :=
  let b' := if (b <? 0)%Z then (b + Z.of_nat n)%Z else b in
  Z.to_nat (Z.max 0 (Z.min b' (Z.of_nat n))).
(** low:high on an axis of length n, Python's rules (spectra.py:530-536). *)
Definition slice_axis (lh : Z * Z) (n : nat) : nat * nat :=   (* start, length *)
  let s := clip_bound (fst lh) n in
  let e := clip_bound (snd lh) n in
  (s, e - s).
(** zip; spectra.py:530-536 *)
Fixpoint zip_with {A B C} (f : A -> B -> C) (l : list A) (m : list B) : list C :=
  match l, m with
  | a :: l', b :: m' => f a b :: zip_with f l' m'
  | _, _ => []
  end.
(** a[l0:h0, l1:h1, ...], spectra.py:530-536. *)
Definition aslice (sl : list (Z * Z)) (a : ndarray) : res ndarray :=
  if (length sl =? andim a)%nat then
    let se := zip_with slice_axis sl (ashape a) in
    Ok (ND (map snd se) (fun idx => aget a (zip_with Nat.add (map fst se) idx)))
  else Err EIndexError.

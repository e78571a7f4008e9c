(** The numbers of a spectrum in IEEE binary64 (numpy's float64): what fill, add, scale,
    shrink, cut, rebin, sum and the projections do to the array and to the number of decays,
    rounding by rounding.  Which bins an operation touches is an argument here: the index of
    a fill is the subject of Model/FloatFill.v, slices and new bins come from
    Model/Spectra.v.
    numpy does not promise an order of summation (it adds pairwise, in blocks, with one or
    more accumulators), so every sum takes its order as an argument. *)
From Coq Require Import ZArith.
From Flocq Require Import Core IEEE754.BinarySingleNaN IEEE754.Binary IEEE754.Bits.
From Verif Require Import Model.Base Model.NDArray Model.Spectra Model.FloatFill.
Import ListNotations.

(** [+] and [+=] on float64, spectra.py:136, 138, 200 *)
Definition f_add (x y : binary64) : binary64 := b64_plus mode_NE x y.
(** 0.0, spectra.py:52 *)
Definition f_zero64 : binary64 := B754_zero 53 1024 false.

(** numpy.ndarray with dtype float64, spectra.py:52-53 *)
Record farray := FND { fshape : list nat; fget : list nat -> binary64 }.
(** numpy.zeros, spectra.py:52-53 *)
Definition f_zeros (sh : list nat) : farray := FND sh (fun _ => f_zero64).

(** An order of summation of numbers f 0, f 1, ...: [Start] is an accumulator that starts
    from 0.0. spectra.py:376, 571, 598 *)
Inductive tree := Start | Leaf (i : nat) | Node (l r : tree).
(** The sum in that order. spectra.py:376, 571, 598 *)
Fixpoint tree_sum (f : nat -> binary64) (t : tree) : binary64 :=
  match t with
  | Start => f_zero64
  | Leaf i => f i
  | Node l r => f_add (tree_sum f l) (tree_sum f r)
  end.
(** a.sum(), spectra.py:571; the numbers are counted in row-major order *)
Definition f_total (t : tree) (a : farray) : binary64 :=
  tree_sum (fun i => fget a (unravel (fshape a) i)) t.
(** a.sum(axis), spectra.py:319, 338-340, 376, 598; [ord] gives the order for each entry of
    the result *)
Definition f_sum_at (ord : list nat -> tree) (k : nat) (a : farray) : farray :=
  FND (remove_at k (fshape a)) (fun idx => tree_sum (fun i => fget a (insert_at k i idx)) (ord idx)).
(** spectra.py:319, 338-340, 376, 598 *)
Definition f_sum_axis (ord : list nat -> tree) (axis : Z) (a : farray) : res farray :=
  do k <- norm_axis axis (length (fshape a)); Ok (f_sum_at ord k a).

(** a[bins] += w, spectra.py:200 *)
Definition f_add_at (a : farray) (bins : list Z) (w : binary64) : res farray :=
  do idx <- norm_indices bins (fshape a);
  Ok (FND (fshape a) (fun j => if idx_eqb j idx then f_add (fget a idx) w else fget a j)).
(** a += b, spectra.py:136, for equal shapes (checked at 85) *)
Definition f_plus (a b : farray) : farray :=
  FND (fshape a) (fun idx => f_add (fget a idx) (fget b idx)).
(** numpy.multiply(a, c), spectra.py:390 *)
Definition f_times (a : farray) (c : binary64) : farray :=
  FND (fshape a) (fun idx => f_mul (fget a idx) c).
(** a.reshape(new), spectra.py:374 *)
Definition f_reshape (new : list nat) (a : farray) : res farray :=
  if (asize new =? asize (fshape a))%nat
  then Ok (FND new (fun idx => fget a (unravel (fshape a) (ravel new idx))))
  else Err EValueError.
(** a[l0:h0, l1:h1, ...], spectra.py:530-536 *)
Definition f_slice (sl : list (Z * Z)) (a : farray) : res farray :=
  if (length sl =? length (fshape a))%nat then
    let se := zip_with slice_axis sl (fshape a) in
    Ok (FND (map snd se) (fun idx => fget a (zip_with Nat.add (map fst se) idx)))
  else Err EIndexError.
(** spectra.py:375-376; [ords i] gives the orders of the i-th sum *)
Fixpoint f_rebin_sums (ords : nat -> list nat -> tree) (is : list nat) (a : farray) : res farray :=
  match is with
  | [] => Ok a
  | i :: r => do a' <- f_sum_axis (ords i) (- (Z.of_nat i + 1))%Z a; f_rebin_sums ords r a'
  end.
(** spectra.py:371-376 *)
Definition f_rebin (ords : nat -> list nat -> tree) (new_bins : list Z) (a : farray) : res farray :=
  do sh <- rebin_shape new_bins (fshape a);
  do a' <- f_reshape sh a;
  f_rebin_sums ords (seq 0 (length new_bins)) a'.

(** _data and _num_decays, spectra.py:52-56 *)
Record fspectrum := FS { fs_data : farray; fs_decays : binary64 }.
(** The operations, as far as they compute with the contents and the decays.
    spectra.py:65, 140, 168, 343, 378, 425 *)
Inductive fop :=
| FFill (bins : list Z) (w : binary64)                    (* fill *)
| FAdd (o : fspectrum)                                    (* add *)
| FScale (n : binary64)                                   (* scale *)
| FShrink (sl : list (Z * Z))                             (* shrink, shrink_to_roi *)
| FCut (sl : list (Z * Z)) (before after : tree)          (* cut *)
| FRebin (new_bins : list Z) (ords : nat -> list nat -> tree).   (* rebin *)
(** One operation: the spectrum when it returns or raises, and the exception.
    spectra.py:65-166, 200, 371-376, 390-392, 530-536 *)
Definition f_step (o : fop) (s : fspectrum) : fspectrum * out :=
  let ret r := match r with Ok a => (FS a (fs_decays s), None) | Err e => (s, Some e) end in
  match o with
  | FFill bins w => ret (f_add_at (fs_data s) bins w)                                (* 200 *)
  | FAdd o =>
      if shape_eqb (fshape (fs_data s)) (fshape (fs_data o))                         (* 85 *)
      then (FS (f_plus (fs_data s) (fs_data o)) (f_add (fs_decays s) (fs_decays o)), None)
                                                                                     (* 136-138 *)
      else (s, Some EValueError)
  | FScale n =>                                                                      (* 390-392 *)
      if f_zero (fs_decays s) then (s, Some EZeroDivisionError)
      else (FS (f_times (fs_data s) (f_div n (fs_decays s))) n, None)
  | FShrink sl => ret (f_slice sl (fs_data s))                                       (* 536 *)
  | FCut sl before after =>
      let initial := f_total before (fs_data s) in                                   (* 158 *)
      match f_slice sl (fs_data s) with                                              (* 159 *)
      | Err e => (s, Some e)
      | Ok a =>
          if f_zero initial then (FS a (fs_decays s), Some EZeroDivisionError)       (* 161 *)
          else (FS a (f_mul (fs_decays s) (f_div (f_total after a) initial)), None)  (* 160-166 *)
      end
  | FRebin new_bins ords => ret (f_rebin ords new_bins (fs_data s))                  (* 371-376 *)
  end.
(** A history: an operation that raises is followed by the next one all the same. fill_spectrum.py:36-41 *)
Fixpoint f_run (p : list fop) (s : fspectrum) : fspectrum * list out :=
  match p with
  | [] => (s, [])
  | o :: p' => let (s1, e) := f_step o s in let (s2, es) := f_run p' s1 in (s2, e :: es)
  end.

(** Filling from a list of events, spectra.py:190-200 with the arithmetic of
    Model/FloatFill.v: first the range checks of all axes, then all indices; an axis is
    (low, high, bins).  A value missing from the event is refused (187-189). *)
Fixpoint f_in_range (axes : list (binary64 * binary64 * Z)) (vs : list binary64) : bool :=
  match axes, vs with
  | [], [] => true
  | (lo, hi, _) :: r, v :: vs' => f_le lo v && f_lt v hi && f_in_range r vs'
  | _, _ => false
  end.
(** spectra.py:194-199 *)
Fixpoint f_bins (axes : list (binary64 * binary64 * Z)) (vs : list binary64) : res (list Z) :=
  match axes, vs with
  | (lo, hi, n) :: r, v :: vs' => do i <- fill_index lo hi n v; do is <- f_bins r vs'; Ok (i :: is)
  | _, _ => Ok []
  end.
(** Spectra.fill, spectra.py:184-200 *)
Definition f_fill (axes : list (binary64 * binary64 * Z)) (w : binary64) (vs : list binary64) (s : fspectrum)
  : fspectrum * out :=
  if negb (f_in_range axes vs) then (s, Some EValueError)
  else match f_bins axes vs with
       | Err e => (s, Some e)
       | Ok bins => f_step (FFill bins w) s
       end.
(** The loops over events (echidna/core/fill_spectrum.py:36-41, 97-103, 133-139): a
    ValueError of fill is caught and the loop goes on, any other exception ends it. *)
Fixpoint f_fill_all (axes : list (binary64 * binary64 * Z)) (w : binary64) (evs : list (list binary64)) (s : fspectrum)
  : fspectrum * out :=
  match evs with
  | [] => (s, None)
  | vs :: r =>
      match f_fill axes w vs s with
      | (s1, None) | (s1, Some EValueError) => f_fill_all axes w r s1
      | (s1, Some e) => (s1, Some e)
      end
  end.

(** echidna/core/shift.py and echidna/core/scale.py: moving a spectrum along an axis.
    The spline of Spectra.interpolate1d (spectra.py:288-300, scipy) is an argument
    [interp]; its construction errors (too few bins) are not modelled.  The data are
    assumed to have as many bins as the parameter says. *)
From Verif Require Import Model.Base Model.PyStr Model.NDArray Model.Param Model.Config Model.Spectra Model.Smear.
Local Open Scope string_scope.

(** Python's [x % y] for floats: the result has the sign of y. shift.py:47, 184 *)
Definition pmod (x y : Qc) : res Qc := do r <- qdiv x y; Ok (x - zq (qfloor r) * y)%Qc.

(** shift.py:47 and 184 *)
Definition is_multiple (shift step : Qc) : res bool :=
  do m <- pmod shift step; Ok (isclose m 0).

(** idx[axis] := b; shift.py:80-168, 190-210 *)
Definition set_at (axis b : nat) (idx : list nat) : list nat := insert_at axis b (remove_at axis idx).

(** shift.py:203-224: the slices [:, ..., b:b+1, ..., :] built as strings and evaluated;
    a slice past the end is empty, its sum is zero. *)
Definition slice_sum (axis b : nat) (a : ndarray) : Qc :=
  if (b <? nth axis (ashape a) 0)%nat
  then sum_over (remove_at axis (ashape a)) (fun idx => aget a (insert_at axis b idx))
  else 0%Qc.
(** The slice of bin [b] of an axis: shift.py:203-220. *)
Definition slice_at (axis b : nat) (a : ndarray) : list nat -> Qc :=
  fun idx => aget a (set_at axis b idx).
(** Adding to the slice of bin [cur]: shift.py:223-225. *)
Definition add_slice (axis cur : nat) (f : list nat -> Qc) (a : ndarray) : ndarray :=
  ND (ashape a)
     (fun idx => if (nth axis idx 0 =? cur)%nat then (aget a idx + f idx)%Qc else aget a idx).

(** A for loop over bins that updates an array and may raise. shift.py:80-168, 190-210 *)
Fixpoint loop_bins (f : nat -> ndarray -> res ndarray) (bins : list nat) (acc : ndarray) : res ndarray :=
  match bins with
  | [] => Ok acc
  | b :: r => do acc' <- f b acc; loop_bins f r acc'
  end.

(** shift.py:195-225: one bin of shift_by_bin *)
Definition shift_one (shift step : Qc) (axis : nat) (p : spar) (a : ndarray) (bin : nat) (acc : ndarray)
  : res ndarray :=
  let x := get_bin_mean (sp_low p) bin step in
  if qlt (x - shift) (sp_low p) || qlt (sp_high p) (x - shift) then Ok acc
  else
    do ob <- get_bin p (x - shift)%Qc;
    let old := Z.to_nat ob in
    if qlt 0 (slice_sum axis old a) then Ok (add_slice axis bin (slice_at axis old a) acc)
    else Ok acc.

(** shift.py:170-226, Shift.shift_by_bin *)
Definition shift_by_bin (suffix : string) (shift : Qc) (dim : string) (s : spectra) : res spectra :=
  do p <- get_par (s_cfg s) dim;
  do step <- get_width p;
  do m <- is_multiple shift step;
  if negb m then Err EValueError
  else
    do axis <- get_index (s_cfg s) dim;
    do d <- loop_bins (shift_one shift step axis p (s_data s)) (seq 0 (Z.to_nat (sp_bins p)))
              (azeros (ashape (s_data s)));
    Ok (with_data (smear_target suffix s) d).

(** shift.py:74-110 and scale.py:78-113: the neighbouring bin and the two areas. *)
Definition areas (interp : Qc -> Qc) (p : spar) (step c ctr : Qc) (b1 : Z) : Z * Qc * Qc :=
  let half := (qq 1 2 * step)%Qc in
  if qlt c ctr then
    let b2 := (b1 - 1)%Z in
    if (0 <=? b2)%Z then
      let xl1 := (ctr - half)%Qc in
      let xh1 := (c + half)%Qc in
      let xh1 := if qlt (sp_high p - half) xh1 then (sp_high p - half - qq 1 1000000)%Qc else xh1 in
      let xl2 := (c - half)%Qc in
      (b2, qabs (qq 1 2 * (xh1 - xl1) * (interp xh1 + interp xl1))%Qc,
           qabs (qq 1 2 * (xl1 - xl2) * (interp xl1 + interp xl2))%Qc)
    else (0%Z, 1%Qc, 0%Qc)
  else
    let b2 := (b1 + 1)%Z in
    if (b2 <? sp_bins p)%Z then
      let xl1 := (c - half)%Qc in
      let xl1 := if qlt xl1 (sp_low p + half) then (sp_low p + half)%Qc else xl1 in
      let xh1 := (ctr + half)%Qc in
      let xh2 := (c + half)%Qc in
      (b2, qabs (qq 1 2 * (xh1 - xl1) * (interp xh1 + interp xl1))%Qc,
           qabs (qq 1 2 * (xh2 - xh1) * (interp xh2 + interp xh1))%Qc)
    else ((sp_bins p - 1)%Z, 1%Qc, 0%Qc).

(** shift.py:61-163 and scale.py:64-166: one bin of the interpolated move; [src x] is
    x - shift (shift.py:63) or x / sf (scale.py:66). *)
Definition resample_one (src : Qc -> Qc) (interp : Qc -> Qc) (step : Qc) (axis : nat) (p : spar)
  (a : ndarray) (bin : nat) (acc : ndarray) : res ndarray :=
  let half := (qq 1 2 * step)%Qc in
  let c0 := src (get_bin_mean (sp_low p) bin step) in
  if qlt c0 (sp_low p) || qle (sp_high p) c0 then Ok acc
  else
    let c := if qlt c0 (sp_low p + half) then (sp_low p + half)%Qc
             else if qlt (sp_high p - half) c0 then (sp_high p - half - qq 1 1000000)%Qc
             else c0 in
    let y := interp c in
    if qle y 0 then Ok acc
    else
      do b1 <- get_bin p c;
      do ctr <- get_bin_centre p b1;
      let '(b2, area1, area2) := areas interp p step c ctr b1 in
      if qeq area1 0 && qeq area2 0 then Ok acc
      else
        let scale1 := (area1 / (area1 + area2))%Qc in
        let scale2 := (area2 / (area1 + area2))%Qc in
        let s1 := slice_sum axis (Z.to_nat b1) a in
        let s2 := slice_sum axis (Z.to_nat b2) a in
        let old1 := slice_at axis (Z.to_nat b1) a in
        let old2 := slice_at axis (Z.to_nat b2) a in
        if qle s1 0 && qle s2 0 then Ok acc
        else if qle s1 0 then
          Ok (add_slice axis bin (fun idx => old2 idx * (y / s2))%Qc acc)
        else if qle s2 0 then
          Ok (add_slice axis bin (fun idx => old1 idx * (y / s1))%Qc acc)
        else
          Ok (add_slice axis bin
                (fun idx => old1 idx * scale1 * (y / s1) + old2 idx * scale2 * (y / s2))%Qc acc).

(** shift.py:50-168 and scale.py:51-171: the loop and the renormalisation.  The divisor
    is a numpy float there: an empty result gives nan with a warning, shown here as
    ZeroDivisionError. *)
Definition resample (suffix : string) (src interp : Qc -> Qc) (dim : string) (s : spectra) : res spectra :=
  do p <- get_par (s_cfg s) dim;
  do step <- get_width p;
  do axis <- get_index (s_cfg s) dim;
  do d <- loop_bins (resample_one src interp step axis p (s_data s)) (seq 0 (Z.to_nat (sp_bins p)))
            (azeros (ashape (s_data s)));
  let t := with_data (smear_target suffix s) d in
  match scale (s_sum s) (with_decays t (s_sum t)) with
  | (t', None) => Ok (with_decays t' (s_decays s))
  | (_, Some e) => Err e
  end.

(** shift.py:33-168, Shift.shift *)
Definition shift_axis (suffix : string) (shift : Qc) (interp : Qc -> Qc) (dim : string) (s : spectra)
  : res spectra :=
  do p <- get_par (s_cfg s) dim;
  do step <- get_width p;
  do m <- is_multiple shift step;
  if m then shift_by_bin suffix shift dim s
  else resample suffix (fun x => x - shift)%Qc interp dim s.

(** scale.py:25-36, Scale.set_scale_factor *)
Definition set_scale_factor (sf : Qc) : res Qc := if qle sf 0 then Err EValueError else Ok sf.

(** scale.py:38-171, Scale.scale *)
Definition scale_axis (suffix : string) (sf : Qc) (interp : Qc -> Qc) (dim : string) (s : spectra)
  : res spectra :=
  if qeq sf 0 then Err EZeroDivisionError
  else resample suffix (fun x => x / sf)%Qc interp dim s.

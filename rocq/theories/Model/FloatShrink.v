(** The arithmetic of Spectra.shrink for one axis (echidna/core/spectra.py:487-528) in IEEE binary64:
    round to nearest, ties to even.  Model/Spectra.v has the same function on exact numbers
    ([shrink_axis]) and the rest of the method. *)
From Coq Require Import ZArith.
From Flocq Require Import Core IEEE754.BinarySingleNaN IEEE754.Binary IEEE754.Bits.
From Verif Require Import Model.Base Model.FloatFill Model.FloatArray Model.FloatAxis.
Local Open Scope Z_scope.

(** 0.99, spectra.py:500, 513 *)
Definition f_99 : binary64 := b64_of_bits 0x3FEFAE147AE147AE.
(** 0.0, spectra.py:506, 518 *)
Definition f_0 : binary64 := b64_of_bits 0.
(** numpy.fabs, spectra.py:500, 513 *)
Definition f_abs (x : binary64) : binary64 :=
  match x with
  | B754_zero _ _ _ => B754_zero 53 1024 false
  | B754_infinity _ _ _ => B754_infinity 53 1024 false
  | B754_nan _ _ _ _ _ => x
  | B754_finite _ _ _ m e b => B754_finite 53 1024 false m e b
  end.
(** Python 2's round: the nearest integer, halves away from zero, as a float; the sign of a zero is not
    kept; parameter.py:1140 *)
Definition f_round (x : binary64) : binary64 :=
  match x with
  | B754_nan _ _ _ _ _ | B754_infinity _ _ _ => x
  | _ =>
      let t := Btrunc 53 1024 x in
      let d := f_sub x (f_int t) in
      f_int (if f_le f_half d then t + 1 else if f_le d (f_sub f_0 f_half) then t - 1 else t)
  end.
(** parameter.py:1131-1140, round *)
Definition f_sp_round (low high : binary64) (bins : Z) (x : binary64) : res binary64 :=
  do w <- f_width low high bins;
  if f_zero w then Err EZeroDivisionError else Ok (f_mul (f_round (f_div x w)) w).
(** low + bin * width, spectra.py:493, 495, 508, 511, 520, 523 *)
Definition f_edge (low : binary64) (w : binary64) (bin : Z) : binary64 := f_add low (f_mul (f_int bin) w).
(** spectra.py:487-528: the new bounds and number of bins, and the slice.  The number of the high bin is
    a float in the code, here an integer. *)
Definition f_shrink_axis (low high : binary64) (bins : Z) (lo hi : binary64) : res (binary64 * binary64 * Z * (Z * Z)) :=
  do w <- f_width low high bins;
  if f_zero w then Err EZeroDivisionError else
  do low_bin <- f_trunc (f_div (f_sub lo low) w);                                   (* 488 *)
  do high_bin <- f_ceil (f_div (f_sub hi low) w);                                   (* 490 *)
  do new_low <- f_sp_round low high bins (f_edge low w low_bin);                    (* 493 *)
  do new_high <- f_sp_round low high bins (f_edge low w high_bin);                  (* 495 *)
  do hb_nh <-
    (if f_lt (f_mul f_99 w) (f_abs (f_sub new_high hi)) then                        (* 500-511 *)
       let hb := if f_lt f_0 (f_sub new_high hi) then high_bin - 1 else high_bin + 1 in
       do nh <- f_sp_round low high bins (f_edge low w hb); Ok (hb, nh)
     else Ok (high_bin, new_high));
  let (hb, nh) := (hb_nh : Z * binary64) in
  let (lb, nl) :=
    (if f_lt (f_mul f_99 w) (f_abs (f_sub new_low lo)) then                         (* 513-524 *)
       let lb := if f_lt f_0 (f_sub new_low lo) then low_bin - 1 else low_bin + 1 in
       (lb, f_edge low w lb)
     else (low_bin, new_low)) in
  Ok (nl, nh, hb - lb, (lb, hb)).                                                   (* 525-528 *)

(** Bins of a SpectraParameter (echidna/core/parameter.py:1055-1115) in IEEE binary64, as
    Python and numpy compute them: round to nearest, ties to even.  Model/Param.v has the same
    functions on exact numbers.  numpy.arange and numpy.linspace are written as numpy's C and
    Python code computes them (1.9 to 1.16, the versions for Python 2). *)
From Coq Require Import ZArith.
From Flocq Require Import Core IEEE754.BinarySingleNaN IEEE754.Binary IEEE754.Bits.
From Verif Require Import Model.Base Model.FloatFill Model.FloatArray.
Import ListNotations.
Local Open Scope Z_scope.

(** 0.5, parameter.py:1105, 1113 *)
Definition f_half : binary64 := b64_of_bits 0x3FE0000000000000.
(** parameter.py:97-103, get_width: division of floats by 0.0 raises *)
Definition f_width (low high : binary64) (bins : Z) : res binary64 :=
  if f_zero (f_int bins) then Err EZeroDivisionError else Ok (f_div (f_sub high low) (f_int bins)).
(** parameter.py:1055-1074, get_bin *)
Definition f_get_bin (low high : binary64) (bins : Z) (x : binary64) : res Z :=
  if f_lt x low then Err EValueError
  else if f_lt high x then Err EValueError
  else do w <- f_width low high bins;
       if f_zero w then Err EZeroDivisionError else f_trunc (f_div (f_sub x low) w).
(** parameter.py:1084-1105, get_bin_centre of an int *)
Definition f_get_bin_centre (low high : binary64) (bins i : Z) : res binary64 :=
  if i <? 0 then Err EValueError
  else if bins - 1 <? i then Err EValueError
  else do w <- f_width low high bins; Ok (f_add low (f_mul (f_add (f_int i) f_half) w)).

(** ceil of the length of numpy.arange; the ValueErrors of numpy for nan and for a length that is
    too large are both EValueError. parameter.py:1113-1115 *)
Definition f_ceil (x : binary64) : res Z :=
  match x with
  | B754_nan _ _ _ _ _ | B754_infinity _ _ _ => Err EValueError
  | _ => let t := Btrunc 53 1024 x in Ok (if f_lt (f_int t) x then t + 1 else t)
  end.
(** Entry k of numpy.arange(start, stop, step): the first two are start and start + step, the
    others start + k * delta with delta the difference of the first two. parameter.py:1113-1115 *)
Definition f_arange_at (start step : binary64) (k : nat) : binary64 :=
  match k with
  | 0%nat => start
  | 1%nat => f_add start step
  | _ => f_add start (f_mul (f_int (Z.of_nat k)) (f_sub (f_add start step) start))
  end.
(** numpy.arange(start, stop, step), parameter.py:1113-1115 *)
Definition f_arange (start stop step : binary64) : res (list binary64) :=
  if f_zero step then Err EZeroDivisionError
  else do n <- f_ceil (f_div (f_sub stop start) step);
       Ok (map (f_arange_at start step) (seq 0 (Z.to_nat n))).
(** parameter.py:1107-1115, get_bin_centres *)
Definition f_get_bin_centres (low high : binary64) (bins : Z) : res (list binary64) :=
  do w <- f_width low high bins; f_arange (f_add low (f_mul w f_half)) high w.

(** Entry k of numpy.linspace(low, high, bins + 1) for bins >= 1: k * step + low, the last one
    replaced by high; a step that underflows to 0.0 is avoided by k / bins * (high - low).
    parameter.py:1082 *)
Definition f_linspace_at (low high : binary64) (bins : Z) (k : nat) : binary64 :=
  let delta := f_sub high low in let step := f_div delta (f_int bins) in
  if Z.of_nat k =? bins then high
  else f_add (if f_zero step then f_mul (f_div (f_int (Z.of_nat k)) (f_int bins)) delta else f_mul (f_int (Z.of_nat k)) step) low.
(** parameter.py:1076-1082, get_bin_boundaries, for bins >= 1 *)
Definition f_get_bin_boundaries (low high : binary64) (bins : Z) : list binary64 :=
  map (f_linspace_at low high bins) (seq 0 (Z.to_nat (bins + 1))).

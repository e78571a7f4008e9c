(** The index arithmetic of Spectra.fill (echidna/core/spectra.py:190-200) in IEEE
    binary64, as Python computes it: round to nearest, ties to even.  The other models use
    exact numbers in its place. *)
From Coq Require Import ZArith.
From Flocq Require Import Core IEEE754.BinarySingleNaN IEEE754.Binary IEEE754.Bits.
From Verif Require Import Model.Base.
Local Open Scope Z_scope.

(** [-] in spectra.py:196-198 *)
Definition f_sub (x y : binary64) : binary64 := b64_minus mode_NE x y.
(** [/] in spectra.py:196-198 *)
Definition f_div (x y : binary64) : binary64 := b64_div mode_NE x y.
(** [*] in spectra.py:196-199 *)
Definition f_mul (x y : binary64) : binary64 := b64_mult mode_NE x y.
(** a <= b and a < b; False if one of them is a nan; spectra.py:191 *)
Definition f_le (x y : binary64) : bool :=
  match b64_compare x y with Some Lt | Some Eq => true | _ => false end.
(** [<] in spectra.py:191 *)
Definition f_lt (x y : binary64) : bool := match b64_compare x y with Some Lt => true | _ => false end.
(** float(n), for n that binary64 holds exactly or not; spectra.py:195-199; parameter.py:103 *)
Definition f_int (n : Z) : binary64 := binary_normalize 53 1024 (eq_refl _) (eq_refl _) mode_NE n 0 false.
(** x == 0.0: division by it raises (spectra.py:197). *)
Definition f_zero (x : binary64) : bool := match x with B754_zero _ _ _ => true | _ => false end.
(** int(x): ValueError for a nan; the OverflowError for an infinity is modelled as Exception;
    spectra.py:195-199 *)
Definition f_trunc (x : binary64) : res Z :=
  match x with
  | B754_nan _ _ _ _ _ => Err EValueError
  | B754_infinity _ _ _ => Err EException
  | _ => Ok (Btrunc 53 1024 x)
  end.
(** spectra.py:190-199 for one axis: range check and index *)
Definition fill_index (low high : binary64) (bins : Z) (v : binary64) : res Z :=
  if negb (f_le low v && f_lt v high) then Err EValueError
  else if f_zero (f_sub high low) then Err EZeroDivisionError
  else f_trunc (f_mul (f_div (f_sub v low) (f_sub high low)) (f_int bins)).
(** spectra.py:200: self._data[i] += weight on an axis with [bins] elements; numpy counts negative
    indices from the end *)
Definition fill_axis (low high : binary64) (bins : Z) (v : binary64) : res Z :=
  do i <- fill_index low high bins v;
  if (0 <=? i) && (i <? bins) then Ok i
  else if (- bins <=? i) && (i <? 0) then Ok (bins + i)
  else Err EIndexError.

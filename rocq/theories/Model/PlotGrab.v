(** echidna/utilities.py 47-70, get_array_errors, and its use on spectra read off a plot
    (scripts/klz_majoron_limits.py 135-138, 198-205, 316-323).  Numbers are reals, extended by what numpy gives
    for the logarithm of zero and of negative numbers.  An array is its shape and its contents in C
    order. *)
From Coq Require Import Reals.
From Verif Require Import Model.Base Model.NDArray.
Local Open Scope R_scope.

(** A float: a number, -inf or nan (utilities.py:53-66). *)
Inductive xr := Fin (x : R) | MInf | NaN.
(** numpy.log and numpy.log10, utilities.py:54, 56 *)
Definition np_ln (v : xr) : xr :=
  match v with
  | Fin x => if Rlt_dec 0 x then Fin (ln x) else if Req_EM_T x 0 then MInf else NaN
  | _ => NaN
  end.
(** utilities.py:56 *)
Definition np_log10 (v : xr) : xr := match np_ln v with Fin x => Fin (x / ln 10) | y => y end.
(** numpy.exp and numpy.power(10., x), utilities.py:64, 66 *)
Definition np_exp (v : xr) : xr := match v with Fin x => Fin (exp x) | MInf => Fin 0 | NaN => NaN end.
(** utilities.py:66 *)
Definition np_pow10 (v : xr) : xr := match v with Fin x => Fin (exp (x * ln 10)) | MInf => Fin 0 | NaN => NaN end.
(** Addition of a finite number, utilities.py:58 *)
Definition x_plus (v : xr) (e : R) : xr := match v with Fin x => Fin (x + e) | y => y end.
(** Multiplication by a finite number that is not 0 (utilities.py:60); -inf times a negative number is
    +inf, which is then treated as nan. *)
Definition x_mult (v : xr) (e : R) : xr :=
  match v with Fin x => Fin (x * e) | MInf => if Rlt_dec 0 e then MInf else NaN | NaN => NaN end.
(** Subtraction and addition of arrays, utilities.py:68; klz_majoron_limits.py:201.  Neither argument
    is -inf here, as contents are finite. *)
Definition x_sub (v w : xr) : xr := match v, w with Fin x, Fin y => Fin (x - y) | _, _ => NaN end.
(** klz_majoron_limits.py:201 *)
Definition x_add (v w : xr) : xr := match v, w with Fin x, Fin y => Fin (x + y) | _, _ => NaN end.

(** The arguments of get_array_errors, utilities.py:47-48. *)
Record eargs := EArgs { ea_lin : option R; ea_frac : option R; ea_log : bool; ea_log10 : bool }.
(** A number as a condition, utilities.py:57, 59. *)
Definition given (o : option R) : option R := match o with Some x => if Req_EM_T x 0 then None else Some x | None => None end.
(** utilities.py:53-67: the loop body *)
Definition shifted (a : eargs) (value : xr) : res xr :=
  let v := if ea_log a then np_ln value else if ea_log10 a then np_log10 value else value in
  do e <- match given (ea_lin a), given (ea_frac a) with
          | Some l, _ => Ok (x_plus v l)
          | None, Some f => Ok (x_mult v f)
          | None, None => Err EValueError
          end;
  Ok (if ea_log a then np_exp e else if ea_log10 a then np_pow10 e else e).
(** Arrays, utilities.py:49-51. *)
Record xarray := XA { x_shape : list nat; x_flat : list xr }.
(** utilities.py:47-70; the result of reshape is not used, so the errors stay flat *)
Definition get_array_errors (a : eargs) (arr : xarray) : res xarray :=
  do es <- rmapM (shifted a) (x_flat arr);
  Ok (XA [length (x_flat arr)] (zip_with x_sub es (x_flat arr))).

(** Adding a one-dimensional array [e] of length [n] to [arr] (klz_majoron_limits.py:201): numpy
    repeats the last axis of either if it has length 1. *)
Definition broadcast (arr : xarray) (n : nat) (e : list xr) : res xarray :=
  match rev (x_shape arr) with
  | [] => Ok (XA [n] (map (x_add (nth 0 (x_flat arr) NaN)) e))
  | d :: sh =>
      if (d =? n)%nat
      then Ok (XA (x_shape arr) (map (fun i => x_add (nth i (x_flat arr) NaN) (nth (i mod n) e NaN)) (seq 0 (asize (x_shape arr)))))
      else if (n =? 1)%nat
      then Ok (XA (x_shape arr) (map (fun x => x_add x (nth 0 e NaN)) (x_flat arr)))
      else if (d =? 1)%nat
      then Ok (XA (rev (n :: sh)) (flat_map (fun x => map (x_add x) e) (x_flat arr)))
      else Err EValueError
  end.
(** klz_majoron_limits.py:199-201: contents with the errors added *)
Definition add_errors (a : eargs) (arr : xarray) : res xarray :=
  do e <- get_array_errors a arr;
  broadcast arr (length (x_flat arr)) (x_flat e).
(** klz_majoron_limits.py:135-138 *)
Definition plot_grab_err : R := sqrt (3 * (4 * (5 / 1000)) ^ 2).
(** klz_majoron_limits.py:198-205, 221-228, 253-260: the data or a background, with --upper_bound and --lower_bound *)
Definition grab (upper lower : bool) (arr : xarray) : res xarray :=
  do arr1 <- if upper then add_errors (EArgs (Some (- plot_grab_err)) None false true) arr else Ok arr;
  if lower then add_errors (EArgs (Some plot_grab_err) None false true) arr1 else Ok arr1.
(** klz_majoron_limits.py:316-323: the signal, the other way round *)
Definition grab_signal (upper lower : bool) (arr : xarray) : res xarray :=
  do arr1 <- if upper then add_errors (EArgs (Some plot_grab_err) None false true) arr else Ok arr;
  if lower then add_errors (EArgs (Some (- plot_grab_err)) None false true) arr1 else Ok arr1.

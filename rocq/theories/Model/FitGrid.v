(** echidna/core/parameter.py, FitParameter.get_values (419-487): the arrays of parameter
    values, over the real numbers (logarithms and exponentials). *)
From Coq Require Import Reals.
From Verif Require Import Model.Base.
Local Open Scope R_scope.

(** The attributes read by get_values; [_values] is None.  A flag that is None counts as
    False. parameter.py:204-230 *)
Record grid := Grid { gr_low : R; gr_high : R; gr_prior : R; gr_bins : Z; gr_logscale : bool; gr_logdev : bool }.

(** numpy.linspace(a, b, n): n values, both ends included; n = 1 gives [a] (x/0 is
    multiplied by 0 here), n < 0 raises ValueError. parameter.py:441, 469-472, 484 *)
Definition rlinspace (a b : R) (n : Z) : res (list R) :=
  if (n <? 0)%Z then Err EValueError
  else Ok (map (fun k => a + INR k * ((b - a) / IZR (n - 1))) (seq 0 (Z.to_nat n))).

(** numpy.rint: to the nearest integer, halves to even; parameter.py:463-466 *)
Definition rint (x : R) : Z :=
  let f := Int_part x in
  let d := x - IZR f in
  if Rlt_dec d (1 / 2) then f
  else if Rlt_dec (1 / 2) d then (f + 1)%Z
  else if Z.even f then f else (f + 1)%Z.

(** parameter.py:435-448.  The base is always e (the [base] argument is not used).  The logarithm of
    [high <= 0] is nan or -inf in numpy; shown as ValueError. *)
Definition log_values (g : grid) : res (list R) :=
  if Rle_dec (gr_high g) 0 then Err EValueError
  else
    let low := if Rle_dec (gr_low g) 0 then - ln (gr_high g) else ln (gr_low g) in
    let high := ln (gr_high g) in
    do l <- rlinspace low high (gr_bins g);
    Ok (map exp l).

(** parameter.py:449-480.  0/0 gives nan, which linspace refuses as a number of values (ValueError). *)
Definition logdev_values (g : grid) : res (list R) :=
  let delta_low := Rabs (gr_low g - gr_prior g) in
  let delta_high := Rabs (gr_high g - gr_prior g) in
  if Req_EM_T (delta_low + delta_high) 0 then Err EValueError
  else
    let bins_low := rint (delta_low / (delta_low + delta_high) * (IZR (gr_bins g) + 1)) in
    let bins_high := rint (delta_high / (delta_low + delta_high) * (IZR (gr_bins g) + 1)) in
    do deltas_low <- rlinspace 0 (ln (delta_low + 1)) bins_low;
    do deltas_high <- rlinspace 0 (ln (delta_high + 1)) bins_high;
    let low := map (fun d => gr_prior g - exp d + 1) (rev deltas_low) in
    let high := map (fun d => gr_prior g + exp d - 1) (tl deltas_high) in
    Ok (low ++ high).

(** parameter.py:419-487 *)
Definition grid_values (g : grid) : res (list R) :=
  if gr_logscale g then log_values g
  else if gr_logdev g then logdev_values g
  else rlinspace (gr_low g) (gr_high g) (gr_bins g).

(** echidna/fit/test_statistic.py over the real numbers (logarithms).
    An array argument is its shape and its flat contents (floats).  A computation returns
    its result together with the two argument arrays as they are afterwards, because some
    of the classes write to them. *)
From Coq Require Import Reals.
From Verif Require Import Model.Base.
Local Open Scope R_scope.

(** The classes of test_statistic.py: 126, 229, 335, 427, 519, 614. *)
Inductive tstat := BakerCousinsChi | BakerCousinsChiUp | BakerCousinsLL | Neyman | Pearson | ExtendedLL.

(** A numpy array argument: its shape and its entries in C order. test_statistic.py:46-74 *)
Record arr := Arr { a_shape : list nat; a_flat : list R }.

(** epsilon = 1e-34; test_statistic.py:165, 196 *)
Definition eps : R := / 10 ^ 34.

(** [if x < epsilon: x = epsilon], e.g. test_statistic.py:169-170. *)
Definition clamp (x : R) : R := if Rlt_dec x eps then eps else x.
(** [x < epsilon], e.g. test_statistic.py:171. *)
Definition below_eps (x : R) : bool := if Rlt_dec x eps then true else false.

(** One iteration of the loop of _get_stats: (observed[i], expected[i], appended value).
    BakerCousinsChi 198-205, ChiUp 304-311: local variables exp, obs;
    BakerCousinsLL 400-408: expected[i] is written; Neyman 493-500: observed[i] is written;
    Pearson 588-595: expected[i] is written; ExtendedLL 678-682: local variables.
    test_statistic.py:198-205, 304-311, 400-408, 493-500, 588-595, 678-682 *)
Definition stats_step (t : tstat) (obs exp : R) : R * R * R :=
  match t with
  | BakerCousinsChi | BakerCousinsChiUp =>
      let e := clamp exp in
      let v := if below_eps obs then e else e - obs + obs * ln (obs / e) in
      (obs, exp, v)
  | BakerCousinsLL =>
      let e := clamp exp in
      let v := if below_eps obs then e else e - obs + obs * ln (obs / e) in
      (obs, e, v)
  | Neyman =>
      let o := clamp obs in
      let v := if below_eps exp then o else (exp - o) ^ 2 / o in
      (o, exp, v)
  | Pearson =>
      let e := clamp exp in
      let v := if below_eps obs then e else (obs - e) ^ 2 / e in
      (obs, e, v)
  | ExtendedLL =>
      let e := clamp exp in (obs, exp, e - obs * ln e)
  end.

(** One iteration of the loop of _compute: (observed[i], expected[i], added to total).
    BakerCousinsChi 167-174, ChiUp 271-280 (bins with obs > exp are skipped),
    BakerCousinsLL 374-382, Neyman 467-474, Pearson 562-569, ExtendedLL 654-658.
    test_statistic.py:167-174, 271-280, 374-382, 467-474, 562-569, 654-658 *)
Definition total_step (t : tstat) (obs exp : R) : R * R * R :=
  match t with
  | BakerCousinsChiUp =>
      if Rlt_dec exp obs then (obs, exp, 0)
      else stats_step BakerCousinsChiUp obs exp
  | ExtendedLL => (obs, exp, obs * ln (clamp exp))
  | _ => stats_step t obs exp
  end.

(** The loops, over the zipped arrays: observed, expected afterwards, and the values.
    test_statistic.py:166, 197, 271, 373 *)
Fixpoint loop (step : R -> R -> R * R * R) (obs exp : list R) : list R * list R * list R :=
  match obs, exp with
  | o :: os, e :: es =>
      let '(o', e', v) := step o e in
      let '(os', es', vs) := loop step os es in
      (o' :: os', e' :: es', v :: vs)
  | _, _ => (obs, exp, [])
  end.

(** [total += ...], e.g. test_statistic.py:174. *)
Definition Rsum (l : list R) : R := fold_right Rplus 0 l.

(** _compute: 146-175, 250-281, 355-383, 447-475, 539-570, 634-659.  Observed and expected
    are arrays of floats (compute_statistic requires arrays; an integer array would
    truncate epsilon when it is written back).
    test_statistic.py:146-175, 250-281, 355-383, 447-475, 539-570, 634-659 *)
Definition compute (t : tstat) (obs exp : list R) : list R * list R * R :=
  let '(obs', exp', vs) := loop (total_step t) obs exp in
  match t with
  | BakerCousinsChi | BakerCousinsChiUp => (obs', exp', 2 * Rsum vs)
  | ExtendedLL => (obs', exp', Rsum exp - Rsum vs)
  | _ => (obs', exp', Rsum vs)
  end.

(** numpy.allclose on two numbers, default tolerances; test_statistic.py:207, 313 *)
Definition allclose (a b : R) : bool :=
  if Rle_dec (Rabs (a - b)) (/ 10 ^ 8 + / 10 ^ 5 * Rabs b) then true else false.

(** _get_stats: 178-211 (with the comparison against _compute, 207-210), 284-317,
    386-409, 478-501, 573-596, 662-683;
    test_statistic.py:178-211, 284-317, 386-409, 478-501, 573-596, 662-683 *)
Definition get_stats (t : tstat) (obs exp : list R) : list R * list R * res (list R) :=
  let '(obs', exp', vs) := loop (stats_step t) obs exp in
  match t with
  | BakerCousinsChi | BakerCousinsChiUp =>
      let stats := map (Rmult 2) vs in
      if allclose (Rsum stats) (snd (compute t obs exp)) then (obs', exp', Ok stats)
      else (obs', exp', Err EValueError)
  | _ => (obs', exp', Ok vs)
  end.

(** compute_statistic returns a number or an array, test_statistic.py:44-86. *)
Inductive sresult := Total (x : R) | PerBin (l : list R).

(** test_statistic.py:46-74, compute_statistic *)
Definition compute_statistic (t : tstat) (per_bin : bool) (obs exp : arr) : arr * arr * res sresult :=
  if negb (Nat.eqb (length (a_shape obs)) 1) then (obs, exp, Err ETypeError)
  else if negb (Nat.eqb (length (a_shape exp)) 1) then (obs, exp, Err ETypeError)
  else if negb (Nat.eqb (hd 0%nat (a_shape obs)) (hd 0%nat (a_shape exp))) then (obs, exp, Err EValueError)
  else if per_bin then
    let '(o, e, r) := get_stats t (a_flat obs) (a_flat exp) in
    (Arr (a_shape obs) o, Arr (a_shape exp) e, rmap PerBin r)
  else
    let '(o, e, x) := compute t (a_flat obs) (a_flat exp) in
    (Arr (a_shape obs) o, Arr (a_shape exp) e, Ok (Total x)).

(** ** Penalty terms, with Python 2's numbers: [/] of two integers is floor division.
    test_statistic.py:88-123 *)
Inductive pynum := PInt (z : Z) | PFloat (r : R).
(** A Python number as a real. test_statistic.py:88-123 *)
Definition to_R (x : pynum) : R := match x with PInt z => IZR z | PFloat r => r end.
(** [a - b] of Python numbers, test_statistic.py:88-105. *)
Definition py_sub (a b : pynum) : pynum :=
  match a, b with PInt x, PInt y => PInt (x - y) | _, _ => PFloat (to_R a - to_R b) end.
(** [a / b] of Python 2 numbers (floor division of integers), test_statistic.py:88-105. *)
Definition py_div (a b : pynum) : res pynum :=
  match a, b with
  | PInt x, PInt y => if (y =? 0)%Z then Err EZeroDivisionError else Ok (PInt (Z.div x y))
  | _, _ => if Req_EM_T (to_R b) 0 then Err EZeroDivisionError else Ok (PFloat (to_R a / to_R b))
  end.
(** float(a); test_statistic.py:226, 332 *)
Definition to_float (a : pynum) : pynum := PFloat (to_R a).
(** get_penalty_term: 214-226 and 320-332 (float(sigma)), 412-424 (half), 504-516, 599-611,
    686-698; test_statistic.py:214-226, 320-332, 412-424, 504-516, 599-611, 686-698 *)
Definition penalty (t : tstat) (value prior sigma : pynum) : res R :=
  match t with
  | BakerCousinsChi | BakerCousinsChiUp =>
      do q <- py_div (py_sub value prior) (to_float sigma); Ok (to_R q ^ 2)
  | BakerCousinsLL => do q <- py_div (py_sub value prior) sigma; Ok (1 / 2 * to_R q ^ 2)
  | _ => do q <- py_div (py_sub value prior) sigma; Ok (to_R q ^ 2)
  end.

(** C30-C35: test statistics. *)
From Coq Require Import Reals Lra.
From Verif Require Import Model.Base Model.TestStat Spec.StatSpec Proofs.StatLemmas.
Local Open Scope R_scope.

(** C30: BakerCousinsChi and BakerCousinsLL are non-negative for all arrays of equal
    length, and zero exactly when observed equals expected (an expected value below 1e-34
    counts as 1e-34). *)
Theorem C30_chi : forall o e, length o = length e ->
  exists x, answer BakerCousinsChi false o e = Ok (Total x) /\ 0 <= x /\
    (x = 0 <-> Forall2 (fun a b => a = Rmax b (/ 10 ^ 34)) o e) /\ (regular e -> (x = 0 <-> o = e)).
Proof. exact chi_nonneg_l. Qed.
Theorem C30_ll : forall o e, length o = length e ->
  exists x, answer BakerCousinsLL false o e = Ok (Total x) /\ 0 <= x /\
    (x = 0 <-> Forall2 (fun a b => a = Rmax b (/ 10 ^ 34)) o e) /\ (regular e -> (x = 0 <-> o = e)).
Proof. exact ll_nonneg_l. Qed.
Theorem C30_neyman_pearson : forall t o e, t = Neyman \/ t = Pearson -> length o = length e ->
  exists x, answer t false o e = Ok (Total x) /\ 0 <= x /\ (regular o -> regular e -> (x = 0 <-> o = e)).
Proof. exact others_nonneg_l. Qed.
(** The one-sided statistic lies between 0 and the two-sided one; it ignores upward
    fluctuations. *)
Theorem C30_chi_up : forall o e, length o = length e ->
  exists x, answer BakerCousinsChiUp false o e = Ok (Total x) /\ 0 <= x /\
    (forall y, answer BakerCousinsChi false o e = Ok (Total y) -> x <= y) /\
    (Forall2 (fun a b => b < a) o e -> x = 0) /\
    (Forall2 (fun a b => a <= b) o e -> answer BakerCousinsChi false o e = Ok (Total x)).
Proof. exact chiup_nonneg_l. Qed.

(** C31 *)
Theorem C31_chi_is_twice_ll : forall o e, length o = length e ->
  exists x, answer BakerCousinsLL false o e = Ok (Total x) /\
  answer BakerCousinsChi false o e = Ok (Total (2 * x)).
Proof. exact chi_ll_l. Qed.
Theorem C31_differences_agree : forall o e1 e2, length o = length e1 -> length o = length e2 ->
  zero_or_regular o -> regular e1 -> regular e2 ->
  exists a1 a2 b1 b2,
    answer BakerCousinsLL false o e1 = Ok (Total a1) /\ answer BakerCousinsLL false o e2 = Ok (Total a2) /\
    answer ExtendedLL false o e1 = Ok (Total b1) /\ answer ExtendedLL false o e2 = Ok (Total b2) /\
    a1 - a2 = b1 - b2.
Proof. exact ll_ext_l. Qed.
(** The textbook formulas. *)
Theorem C31_formulas : forall o e, length o = length e -> regular o -> regular e ->
  answer BakerCousinsChi false o e = Ok (Total (2 * sum2 deviance o e)) /\
  answer BakerCousinsLL false o e = Ok (Total (sum2 deviance o e)) /\
  answer Neyman false o e = Ok (Total (sum2 (fun a b => chi2_term a b a) o e)) /\
  answer Pearson false o e = Ok (Total (sum2 (fun a b => chi2_term a b b) o e)) /\
  answer ExtendedLL false o e = Ok (Total (Rsum e - sum2 (fun a b => a * ln b) o e)).
Proof. exact formulas_l. Qed.

(** C32: the total is the sum of the per-bin array.  For ExtendedLL this needs expected
    values that are not clamped, for BakerCousinsChiUp no bin above its expectation. *)
Theorem C32_total_is_sum : forall t o e,
  t <> BakerCousinsChiUp -> t <> ExtendedLL -> length o = length e ->
  exists l, answer t true o e = Ok (PerBin l) /\ length l = length o /\ answer t false o e = Ok (Total (Rsum l)).
Proof. exact total_bins_l. Qed.
Theorem C32_extended_ll_partial : forall o e, length o = length e -> regular e ->
  exists l, answer ExtendedLL true o e = Ok (PerBin l) /\ length l = length o /\
    answer ExtendedLL false o e = Ok (Total (Rsum l)).
Proof. exact total_bins_ext_l. Qed.
Theorem C32_chi_up_partial : forall o e, length o = length e -> Forall2 (fun a b => a <= b) o e ->
  exists l, answer BakerCousinsChiUp true o e = Ok (PerBin l) /\ length l = length o /\
    answer BakerCousinsChiUp false o e = Ok (Total (Rsum l)).
Proof. exact total_bins_up_l. Qed.
Theorem C32_extended_ll_refuted :
  answer ExtendedLL false [0] [0] = Ok (Total 0) /\
  exists l, answer ExtendedLL true [0] [0] = Ok (PerBin l) /\ 0 < Rsum l.
Proof. exact ext_refuted_l. Qed.
Theorem C32_chi_up_refuted :
  answer BakerCousinsChiUp false [exp 1] [1] = Ok (Total 0) /\
  answer BakerCousinsChiUp true [exp 1] [1] = Err EValueError.
Proof. exact up_refuted_l. Qed.

(** C33 *)
Theorem C33_malformed : forall t pb o e,
  (length (a_shape o) <> 1%nat \/ length (a_shape e) <> 1%nat -> compute_statistic t pb o e = (o, e, Err ETypeError)) /\
  (length (a_shape o) = 1%nat -> length (a_shape e) = 1%nat -> a_shape o <> a_shape e ->
     compute_statistic t pb o e = (o, e, Err EValueError)).
Proof. exact malformed_l. Qed.
(** Every well-formed call answers, except possibly BakerCousinsChiUp per bin, see
    C32_chi_up_refuted. *)
Theorem C33_wellformed_partial : forall t pb o e, length o = length e -> pb = false \/ t <> BakerCousinsChiUp ->
  exists r, answer t pb o e = Ok r.
Proof. exact wellformed_l. Qed.

(** C34: the arguments are left alone if no value has to be raised to 1e-34 ... *)
Theorem C34_unchanged_partial : forall t pb o e, length o = length e ->
  (t = Neyman -> regular o) -> (t = BakerCousinsLL \/ t = Pearson -> regular e) ->
  afterwards t pb o e = (vec1 o, vec1 e).
Proof. exact unchanged_l. Qed.
(** ... and in any case a second evaluation gives the same answer and changes nothing. *)
Theorem C34_twice : forall t pb o e r o' e', length o = length e ->
  answer t pb o e = r -> afterwards t pb o e = (vec1 o', vec1 e') ->
  answer t pb o' e' = r /\ afterwards t pb o' e' = (vec1 o', vec1 e').
Proof. exact twice_l. Qed.
(** A zero in the expected (LL) or observed (Neyman) array is overwritten. *)
Theorem C34_unchanged_refuted :
  exists e', snd (afterwards BakerCousinsLL false [1] [0]) = vec1 e' /\ e' <> [0] /\
  exists o', fst (afterwards Neyman false [0] [1]) = vec1 o' /\ o' <> [0].
Proof. exact altered_refuted_l. Qed.

(** C35: penalty terms on floats. *)
Theorem C35_penalty : forall t v p s, s <> 0 ->
  penalty t (PFloat v) (PFloat p) (PFloat s) =
  Ok ((match t with BakerCousinsLL => 1 / 2 | _ => 1 end) * ((v - p) / s) ^ 2).
Proof. exact penalty_l. Qed.
Theorem C35_penalty_shape : forall t p s, s <> 0 ->
  exists f, (forall v, penalty t (PFloat v) (PFloat p) (PFloat s) = Ok (f v)) /\
    (forall v, 0 <= f v) /\ (forall v, f v = 0 <-> v = p) /\
    (forall d, f (p + d) = f (p - d)) /\
    (forall v w, Rabs (v - p) < Rabs (w - p) -> f v < f w).
Proof. exact penalty_shape_l. Qed.
Theorem C35_zero_sigma : forall t v p, penalty t (PFloat v) (PFloat p) (PFloat 0) = Err EZeroDivisionError.
Proof. exact penalty_zero_l. Qed.
(** On integers Python 2 divides with floor, except in the chi-squared classes that
    convert sigma: 3 +- 2 has penalty 1 instead of 9/4. *)
Theorem C35_integers_refuted :
  penalty Neyman (PInt 3) (PInt 0) (PInt 2) = Ok 1 /\ penalty BakerCousinsChi (PInt 3) (PInt 0) (PInt 2) = Ok (9 / 4).
Proof. exact int_penalty_l. Qed.

(** Arrays meeting the hypotheses. *)
Example C30_ex : length [2; 3] = length [1; 3] /\ regular [1; 3] /\ zero_or_regular [0; 2] /\ [2; 3] <> [1; 3] /\
  Forall2 (fun a b => a <= b) [1; 3] [2; 3].
Proof.
  pose proof one_regular as H. split; [reflexivity|]. split; [repeat constructor; lra|].
  split; [repeat constructor; lra|]. split; [intro E; injection E; lra|repeat constructor; lra].
Qed.

Print Assumptions C30_chi.
Print Assumptions C31_differences_agree.
Print Assumptions C32_total_is_sum.
Print Assumptions C34_twice.
Print Assumptions C35_penalty_shape.

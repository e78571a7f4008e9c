(** C55: the index arithmetic of fill in binary64.  Missing for the full statement: values
    next to the upper bound of an axis that does not start at 0, for which it is false
    (C55_refuted and C55_positive_low_refuted). *)
From Coq Require Import ZArith Reals Lra.
From Flocq Require Import Core IEEE754.Binary IEEE754.Bits.
From Verif Require Import Model.Base Model.FloatFill Spec.FloatSpec Proofs.FloatLemmas.
Local Open Scope R_scope.

(** Exactly which accepted values are filled: those whose distance from the lower bound is,
    after rounding, below that of the upper bound.  It is never above. *)
Theorem C55_exact_partial : forall low high bins v, accepted_value low high bins v ->
  (real (f_sub v low) < real (f_sub high low) -> exists i, fill_axis low high bins v = Ok i /\ (0 <= i < bins)%Z) /\
  (real (f_sub v low) = real (f_sub high low) -> fill_axis low high bins v = Err EIndexError) /\
  real (f_sub v low) <= real (f_sub high low).
Proof. exact axis_iff_l. Qed.
(** Axes that start at zero. *)
Theorem C55_zero_partial : forall high bins v low, accepted_value low high bins v -> real low = 0 ->
  exists i, fill_axis low high bins v = Ok i /\ (0 <= i < bins)%Z.
Proof. exact axis_zero_l. Qed.
(** Axes whose upper bound is at most twice the lower bound. *)
Theorem C55_narrow_partial : forall low high bins v, accepted_value low high bins v -> real high <= 2 * real low ->
  exists i, fill_axis low high bins v = Ok i /\ (0 <= i < bins)%Z.
Proof. exact axis_sterbenz_l. Qed.
(** Values further from the upper bound than the spacing of numbers around the range. *)
Theorem C55_away_partial : forall low high bins v, accepted_value low high bins v ->
  spacing (real high - real low) < real high - real v ->
  exists i, fill_axis low high bins v = Ok i /\ (0 <= i < bins)%Z.
Proof. exact axis_away_l. Qed.
(** Rounding does not reverse the order of values: every bin is filled from an interval. *)
Theorem C55_monotone : forall low high bins v w,
  accepted_value low high bins v -> accepted_value low high bins w -> real v <= real w ->
  exists i j, fill_index low high bins v = Ok i /\ fill_index low high bins w = Ok j /\ (i <= j)%Z.
Proof. exact axis_mono_l. Qed.

(** Values outside the bounds, infinities and nan are refused with ValueError, whatever the
    number of bins. *)
Theorem C55_outside : forall low high bins v, is_number low -> is_number high ->
  (is_number v -> real v < real low \/ real high <= real v) -> fill_axis low high bins v = Err EValueError.
Proof. exact outside_l. Qed.
Example C55_outside_ex :
  fill_axis (b64_of_bits 0) (b64_of_bits 0x3FF0000000000000) 10 (b64_of_bits 0x3FF0000000000000) = Err EValueError /\
  ~ is_number (b64_of_bits 0x7FF0000000000000) /\ ~ is_number (b64_of_bits 0x7FF8000000000000).
Proof. split; [vm_compute; reflexivity|]. split; vm_compute; discriminate. Qed.

(** -1.0, 0.1 and the number below 0.1 *)
Definition m_one : binary64 := b64_of_bits 0xBFF0000000000000.
Definition tenth : binary64 := b64_of_bits 0x3FB999999999999A.
Definition below_tenth : binary64 := b64_of_bits 0x3FB9999999999999.
Theorem C55_refuted : f_le m_one below_tenth = true /\ f_lt below_tenth tenth = true /\
  fill_axis m_one tenth 10 below_tenth = Err EIndexError.
Proof. repeat split; vm_compute; reflexivity. Qed.
(** 2^-53, 1 + 3*2^-52 and 1 + 2*2^-52 *)
Definition tiny : binary64 := b64_of_bits 0x3CA0000000000000.
Definition one3 : binary64 := b64_of_bits 0x3FF0000000000003.
Definition one2 : binary64 := b64_of_bits 0x3FF0000000000002.
Theorem C55_positive_low_refuted : f_le tiny one2 = true /\ f_lt one2 one3 = true /\
  fill_axis tiny one3 10 one2 = Err EIndexError.
Proof. repeat split; vm_compute; reflexivity. Qed.

Lemma accepted_by_check low high bins v : is_number low -> is_number high -> is_number v -> is_number (f_sub high low) ->
  (1 <= bins <= 2 ^ 53)%Z -> f_le low v = true -> f_lt v high = true -> accepted_value low high bins v.
Proof.
  intros Fl Fh Fv Fw N L H. unfold accepted_value. repeat (split; [assumption|]). split.
  - now apply le_ok.
  - now apply lt_ok.
Qed.
(** 10.0 and the number below it, on an axis with 1000 bins from 0; 5.0 and 5.5 on an axis
    from 5 to 10 *)
Definition ten : binary64 := b64_of_bits 0x4024000000000000.
Definition below_ten : binary64 := b64_of_bits 0x4023FFFFFFFFFFFF.
Definition zero : binary64 := b64_of_bits 0.
Definition five : binary64 := b64_of_bits 0x4014000000000000.
Definition five_half : binary64 := b64_of_bits 0x4016000000000000.
Example C55_ex : accepted_value zero ten 1000 below_ten /\ real zero = 0 /\ fill_axis zero ten 1000 below_ten = Ok 999%Z.
Proof. split; [apply accepted_by_check; vm_compute; split + reflexivity; (reflexivity + discriminate)|]. split; [reflexivity|vm_compute; reflexivity]. Qed.
Example C55_ex2 : accepted_value five ten 1000 below_ten /\ accepted_value five ten 1000 five_half /\ real ten <= 2 * real five /\
  real five_half <= real below_ten /\ fill_axis five ten 1000 below_ten = Ok 999%Z /\ fill_axis five ten 1000 five_half = Ok 100%Z.
Proof.
  split; [apply accepted_by_check; vm_compute; split + reflexivity; (reflexivity + discriminate)|].
  split; [apply accepted_by_check; vm_compute; split + reflexivity; (reflexivity + discriminate)|].
  split; [apply Req_le; cbv -[Rmult Rplus IZR Rinv Rdiv]; field|].
  split; [now apply le_ok|]. split; vm_compute; reflexivity.
Qed.

Print Assumptions C55_exact_partial.
Print Assumptions C55_zero_partial.
Print Assumptions C55_narrow_partial.
Print Assumptions C55_away_partial.
Print Assumptions C55_monotone.
Print Assumptions C55_outside.
Print Assumptions C55_refuted.
Print Assumptions C55_positive_low_refuted.

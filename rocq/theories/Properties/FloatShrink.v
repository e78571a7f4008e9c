(** C89: shrinking an axis in binary64. *)
From Coq Require Import ZArith Reals Lra Lia List.
From Flocq Require Import Core IEEE754.Binary IEEE754.Bits.
From Verif Require Import Model.Base Model.FloatFill Model.FloatArray Model.FloatAxis Model.FloatShrink Spec.FloatSpec Spec.FloatAxisSpec Spec.FloatShrinkSpec
  Proofs.FloatLemmas Proofs.FloatAxisLemmas Proofs.FloatShrinkLemmas.
Import ListNotations.
Local Open Scope R_scope.

(** The bins kept are those that the bounds ask for, in spite of rounding, and the new bounds are their
    edges up to 1/500 of a bin. *)
Theorem C89_shrink_partial low high bins lo hi i j : aligned_axis low high bins -> (0 <= i <= bins)%Z -> (0 <= j <= bins)%Z ->
  lower_request low high bins i lo -> upper_request low high bins j hi ->
  exists new_low new_high, f_shrink_axis low high bins lo hi = Ok (new_low, new_high, j - i, (i, j))%Z /\ is_number new_low /\ is_number new_high /\
    Rabs (real new_low - bin_edge low high bins i) <= / 500 * bin_width low high bins /\ Rabs (real new_high - bin_edge low high bins j) <= / 500 * bin_width low high bins.
Proof. exact (shrink_l low high bins lo hi i j). Qed.
(** Bounds taken from get_bin_boundaries: exactly the bins between them. *)
Theorem C89_boundaries low high bins i j lo hi : aligned_axis low high bins ->
  nth_error (f_get_bin_boundaries low high bins) i = Some lo -> nth_error (f_get_bin_boundaries low high bins) j = Some hi ->
  exists new_low new_high, f_shrink_axis low high bins lo hi = Ok (new_low, new_high, Z.of_nat j - Z.of_nat i, (Z.of_nat i, Z.of_nat j))%Z /\
    Rabs (real new_low - real lo) <= / 400 * bin_width low high bins /\ Rabs (real new_high - real hi) <= / 400 * bin_width low high bins.
Proof.
  intros A Lo Hi. destruct (boundary_l _ _ _ _ _ A Lo) as (Ri & Fi & Ei). destruct (boundary_l _ _ _ _ _ A Hi) as (Rj & Fj & Ej).
  pose proof (w_pos _ _ _ (proj1 A)) as W. apply ab in Ei. apply ab in Ej.
  destruct (C89_shrink_partial low high bins lo hi (Z.of_nat i) (Z.of_nat j) A Ri Rj) as (nl & nh & E & _ & _ & El & Eh).
  - split; [exact Fi|]. rewrite (edge_s low high bins). lra.
  - split; [exact Fj|]. rewrite (edge_p low high bins). lra.
  - exists nl, nh. split; [exact E|]. apply ab in El. apply ab in Eh. split; apply Rabs_le; lra.
Qed.
(** Without arguments (the bounds of the axis itself) every bin is kept. *)
Theorem C89_whole low high bins : aligned_axis low high bins ->
  exists new_low new_high, f_shrink_axis low high bins low high = Ok (new_low, new_high, bins, (0%Z, bins)) /\
    Rabs (real new_low - real low) <= / 500 * bin_width low high bins /\ Rabs (real new_high - real high) <= / 500 * bin_width low high bins.
Proof.
  intro A. pose proof (proj1 A) as P. pose proof P as (Fl & Fh & N & _). pose proof (w_pos _ _ _ P) as W. pose proof (w_n _ _ _ P) as WN.
  assert (E0 : bin_edge low high bins 0 = real low) by (unfold bin_edge; lra). assert (En : bin_edge low high bins bins = real high) by (unfold bin_edge; lra).
  destruct (C89_shrink_partial low high bins low high 0 bins A ltac:(lia) ltac:(lia)) as (nl & nh & E & _ & _ & El & Eh).
  - split; [exact Fl|]. rewrite (edge_s low high bins), E0. lra.
  - split; [exact Fh|]. rewrite (edge_p low high bins), En. lra.
  - rewrite E0 in El. rewrite En in Eh. rewrite Z.sub_0_r in E. exists nl, nh. auto.
Qed.

(** Ten bins from 0 to 1 cut at 0.3, which is 2.9999999999999996 bin widths, and at 0.6 and
    0.30000000000000004, which are 5.999999999999999 and 3.0000000000000004. *)
Definition x0 := b64_of_bits 0. Definition x1 := b64_of_bits 0x3FF0000000000000.
Definition x03 := b64_of_bits 0x3FD3333333333333. Definition x03' := b64_of_bits 0x3FD3333333333334. Definition x06 := b64_of_bits 0x3FE3333333333333.
Definition shown (r : res (binary64 * binary64 * Z * (Z * Z))) : res (Z * Z * Z * (Z * Z)) :=
  rmap (fun '(l, h, n, s) => (bits_of_b64 l, bits_of_b64 h, n, s)) r.
Ltac val := unfold real; cbn; unfold F2R; cbn; lra.
Example C89_sat : aligned_axis x0 x1 10 /\ lower_request x0 x1 10 3 x03 /\ upper_request x0 x1 10 6 x06 /\ upper_request x0 x1 10 3 x03' /\
  shown (f_shrink_axis x0 x1 10 x03 x06) = Ok (0x3FD3333333333334, 0x3FE3333333333334, 3, (3, 6))%Z /\
  shown (f_shrink_axis x0 x1 10 x0 x03') = Ok (0, 0x3FD3333333333334, 3, (0, 3))%Z /\
  f_trunc (f_div x03 (f_div x1 (f_int 10))) = Ok 2%Z /\ f_ceil (f_div x03' (f_div x1 (f_int 10))) = Ok 4%Z.
Proof.
  assert (R0 : real x0 = 0) by reflexivity. assert (R1 : real x1 = 1) by val.
  assert (R3 : real x03 = 5404319552844595 / 18014398509481984) by val. assert (R3' : real x03' = 5404319552844596 / 18014398509481984) by val.
  assert (R6 : real x06 = 5404319552844595 / 9007199254740992) by val.
  assert (W : bin_width x0 x1 10 = / 10) by (unfold bin_width; rewrite R0, R1; lra).
  assert (E : forall i, bin_edge x0 x1 10 i = IZR i * / 10) by (intro i; unfold bin_edge; rewrite R0, W; lra).
  split; [|split; [|split; [|split]]].
  - split; [|rewrite R0, R1, W; split; [rewrite Rabs_R0; lra|split; [rewrite Rabs_R1; lra|exists 0%Z; rewrite Rmult_0_l, Rminus_0_r, Rabs_R0; lra]]].
    split; [reflexivity|]. split; [reflexivity|]. split; [lia|]. rewrite R0, R1, Rabs_R0, Rabs_R1.
    assert (1 <= 2 ^ 1000) by (apply pow_R1_Rle; lra). assert (1 <= 2 ^ 800) by (apply pow_R1_Rle; lra).
    split; [lra|]. split; [lra|]. rewrite Rminus_0_r. rewrite <- Rinv_1. apply Rinv_le_contravar; lra.
  - split; [reflexivity|]. rewrite !E, W, R3. replace (3 + 1)%Z with 4%Z by reflexivity. lra.
  - split; [reflexivity|]. rewrite !E, W, R6. replace (6 - 1)%Z with 5%Z by reflexivity. lra.
  - split; [reflexivity|]. rewrite !E, W, R3'. replace (3 - 1)%Z with 2%Z by reflexivity. lra.
  - repeat split; vm_compute; reflexivity.
Qed.

(** On an axis whose lower bound is not a multiple of the bin width, ten bins from 0.5 to 10.5: a bin
    that is asked for is lost (a cut at 4.6 keeps the bins up to 4.5), and a cut at the bounds of the axis
    itself moves them to 1.0 and 11.0. *)
Definition xh := b64_of_bits 0x3FE0000000000000. Definition xt := b64_of_bits 0x4025000000000000. Definition x46 := b64_of_bits 0x4012666666666666.
Theorem C89_unaligned_refuted : plain_axis xh xt 10 /\ upper_request xh xt 10 5 x46 /\
  shown (f_shrink_axis xh xt 10 xh x46) = Ok (0x3FF0000000000000, 0x4014000000000000, 4, (0, 4))%Z /\
  shown (f_shrink_axis xh xt 10 xh xt) = Ok (0x3FF0000000000000, 0x4026000000000000, 10, (0, 10))%Z.
Proof.
  assert (R0 : real xh = / 2) by val. assert (R1 : real xt = 21 / 2) by val. assert (R4 : real x46 = 5179139571476070 / 1125899906842624) by val.
  assert (W : bin_width xh xt 10 = 1) by (unfold bin_width; rewrite R0, R1; lra).
  split; [|split; [|split; vm_compute; reflexivity]].
  - split; [reflexivity|]. split; [reflexivity|]. split; [lia|]. rewrite R0, R1, !Rabs_pos_eq by lra.
    assert (2 ^ 4 <= 2 ^ 1000) by (apply Rle_pow; [lra|lia]). assert (1 <= 2 ^ 800) by (apply pow_R1_Rle; lra).
    split; [lra|]. split; [lra|]. apply Rle_trans with 1; [|lra]. rewrite <- Rinv_1. apply Rinv_le_contravar; lra.
  - split; [reflexivity|]. unfold bin_edge. rewrite R0, W, R4. replace (5 - 1)%Z with 4%Z by reflexivity. lra.
Qed.

Print Assumptions C89_shrink_partial.
Print Assumptions C89_boundaries.
Print Assumptions C89_whole.
Print Assumptions C89_unaligned_refuted.

(** C82: bins of a SpectraParameter in binary64: lookups, fills, centres and edges. *)
From Coq Require Import ZArith Reals Lra Lia List.
From Flocq Require Import Core IEEE754.Binary IEEE754.Bits.
From Verif Require Import Model.Base Model.FloatFill Model.FloatAxis Spec.FloatSpec Spec.FloatAxisSpec
  Proofs.FloatAxisLemmas Proofs.FloatAxisCentres.
Import ListNotations.
Local Open Scope R_scope.

(** A value that is not within a few roundings of an edge is looked up and filled into its bin. *)
Theorem C82_lookup low high bins i x : plain_axis low high bins -> (0 <= i < bins)%Z -> well_inside low high bins i x ->
  f_get_bin low high bins x = Ok i /\ fill_axis low high bins x = Ok i.
Proof. intros P I X. split; [now apply get_bin_inside|now apply fill_inside]. Qed.
(** Every value from the lower to the upper bound is looked up; the answer grows with the value. *)
Theorem C82_monotone low high bins x y : plain_axis low high bins -> is_number x -> is_number y ->
  real low <= real x -> real x <= real y -> real y <= real high ->
  exists i j, f_get_bin low high bins x = Ok i /\ f_get_bin low high bins y = Ok j /\ (0 <= i <= j)%Z /\ (j <= bins)%Z.
Proof.
  intros P Fx Fy L XY H. destruct (mono_l low high bins P x y Fx Fy L XY H) as (i & j & A & C & IJ).
  destruct (range_l low high bins P x Fx ltac:(lra)) as (i' & A' & R). destruct (range_l low high bins P y Fy ltac:(lra)) as (j' & C' & R').
  exists i, j. assert (i' = i) by congruence. assert (j' = j) by congruence. subst. repeat split; try assumption; lia.
Qed.
(** The centre of a bin, as returned, is looked up and filled into that bin. *)
Theorem C82_centre low high bins i : fine_axis low high bins -> (0 <= i < bins)%Z ->
  exists c, f_get_bin_centre low high bins i = Ok c /\ Rabs (real c - bin_centre low high bins i) <= bin_width low high bins / 8 /\
    f_get_bin low high bins c = Ok i /\ fill_axis low high bins c = Ok i.
Proof.
  intros F I. destruct (centre_l low high bins F i I) as (c & E & Fc & D). exists c. split; [exact E|]. split; [exact D|].
  apply (both low high bins F); [exact I|exact Fc|]. pose proof (w_pos _ _ _ (proj1 F)). lra.
Qed.
(** get_bin_centres has one entry per bin, in order. *)
Theorem C82_centres low high bins : very_fine_axis low high bins ->
  exists l, f_get_bin_centres low high bins = Ok l /\ length l = Z.to_nat bins /\
    forall k c, nth_error l k = Some c ->
      Rabs (real c - bin_centre low high bins (Z.of_nat k)) <= bin_width low high bins / 4 /\
      f_get_bin low high bins c = Ok (Z.of_nat k) /\ fill_axis low high bins c = Ok (Z.of_nat k).
Proof.
  intro F. destruct (centres_l low high bins F) as (l & E & L & H). exists l. split; [exact E|]. split; [exact L|].
  intros k c K. destruct (H k c K) as [Fc D]. split; [exact D|].
  assert (k < length l)%nat by (apply nth_error_Some; congruence).
  apply (both low high bins (fine _ _ _ F)); [lia|exact Fc|]. pose proof (w_pos _ _ _ (proj1 F)). lra.
Qed.
(** get_bin_boundaries has one more entry than bins, rises from the lower to the upper bound. *)
Theorem C82_boundaries low high bins : fine_axis low high bins ->
  let l := f_get_bin_boundaries low high bins in
  length l = Z.to_nat (bins + 1) /\ real (nth 0 l high) = real low /\ last l low = high /\
  (forall k x, nth_error l k = Some x -> Rabs (real x - bin_edge low high bins (Z.of_nat k)) <= bin_width low high bins / 8) /\
  (forall j k x y, (j < k)%nat -> nth_error l j = Some x -> nth_error l k = Some y -> real x < real y).
Proof.
  intros F l. pose proof F as ((_ & _ & B1 & _) & _).
  assert (Len : length l = Z.to_nat (bins + 1)) by (unfold l, f_get_bin_boundaries; rewrite map_length, seq_length; reflexivity).
  assert (At : forall k x, nth_error l k = Some x -> (Z.of_nat k <= bins)%Z /\ x = f_linspace_at low high bins k).
  { intros k x K. assert (k < length l)%nat by (apply nth_error_Some; congruence). split; [lia|].
    unfold l, f_get_bin_boundaries in K. rewrite nth_error_map in K. rewrite (nth_error_nth' _ 0%nat) in K by (rewrite seq_length; lia).
    rewrite seq_nth in K by lia. cbn [option_map Nat.add] in K. congruence. }
  split; [exact Len|]. split; [|split; [|split]].
  - destruct (nth_error l 0) as [x|] eqn:E; [|apply nth_error_None in E; lia].
    rewrite (nth_error_nth _ _ _ E). destruct (At _ _ E) as [_ ->]. apply (linspace_l low high bins F 0); [lia|reflexivity].
  - assert (X : l = removelast l ++ [last l low]) by (apply app_removelast_last; intro C; rewrite C in Len; cbn in Len; lia).
    assert (E : nth_error l (Z.to_nat bins) = Some (last l low)).
    { rewrite X at 1. rewrite nth_error_app2; [|rewrite X in Len; rewrite app_length in Len; cbn in Len; lia].
      replace (Z.to_nat bins - length (removelast l))%nat with 0%nat; [reflexivity|]. rewrite X in Len. rewrite app_length in Len. cbn in Len. lia. }
    destruct (At _ _ E) as [_ ->]. apply (linspace_l low high bins F); lia.
  - intros k x K. destruct (At _ _ K) as [L ->]. apply (linspace_l low high bins F). lia.
  - intros j k x y J Kx Ky. destruct (At _ _ Kx) as [_ ->]. destruct (At _ _ Ky) as [L ->]. now apply linspace_lt.
Qed.
(** A value between two neighbouring boundaries, a quarter of a bin away from both, belongs to the
    bin between them. *)
Theorem C82_between low high bins i x lo hi : fine_axis low high bins -> (i < Z.to_nat bins)%nat -> is_number x ->
  nth_error (f_get_bin_boundaries low high bins) i = Some lo -> nth_error (f_get_bin_boundaries low high bins) (S i) = Some hi ->
  real lo + bin_width low high bins / 4 <= real x <= real hi - bin_width low high bins / 4 ->
  f_get_bin low high bins x = Ok (Z.of_nat i) /\ fill_axis low high bins x = Ok (Z.of_nat i).
Proof.
  intros F I Fx Lo Hi X. destruct (C82_boundaries low high bins F) as (_ & _ & _ & D & _).
  pose proof (D _ _ Lo) as Dl. pose proof (D _ _ Hi) as Dh. apply ab in Dl. apply ab in Dh.
  apply C82_lookup; [exact (proj1 F)|lia|]. split; [exact Fx|].
  pose proof (w_pos _ _ _ (proj1 F)) as W0. pose proof (n_ok _ _ _ (proj1 F)) as N.
  replace (Z.of_nat i + 1)%Z with (Z.of_nat (S i)) by lia.
  assert (Ik : 0 <= IZR (Z.of_nat i) <= IZR bins - 1) by (split; [apply IZR_le; lia|rewrite <- minus_IZR; apply IZR_le; lia]).
  assert (T : (IZR (Z.of_nat i) + 1) * / 2 ^ 50 * bin_width low high bins <= / 16 * bin_width low high bins).
  { apply Rmult_le_compat_r; [lra|]. replace (/ 2 ^ 50) with (8 * / 9007199254740992) by (cbn; lra). lra. }
  lra.
Qed.

(** ** Concrete axes *)
Definition f0 := b64_of_bits 0. Definition f1 := b64_of_bits 0x3FF0000000000000. Definition f03 := b64_of_bits 0x3FD3333333333333.
(** 2^53, 2^53 + 2, 2^53 + 4, 2^53 + 16 *)
Definition g0 := b64_of_bits 0x4340000000000000. Definition g2 := b64_of_bits 0x4340000000000001.
Definition g4 := b64_of_bits 0x4340000000000002. Definition g16 := b64_of_bits 0x4340000000000008.
Lemma f0_r : real f0 = 0. Proof. reflexivity. Qed.
Ltac val := unfold real; cbn; unfold F2R; cbn; lra.
Lemma f1_r : real f1 = 1. Proof. val. Qed.
Lemma f03_r : real f03 = 5404319552844595 / 18014398509481984. Proof. val. Qed.
Lemma g0_r : real g0 = 9007199254740992. Proof. val. Qed.
Lemma g2_r : real g2 = 9007199254740994. Proof. val. Qed.
Lemma g4_r : real g4 = 9007199254740996. Proof. val. Qed.
Lemma g16_r : real g16 = 9007199254741008. Proof. val. Qed.
Lemma plain_by low high bins : is_number low -> is_number high -> (1 <= bins <= 2 ^ 46)%Z ->
  0 <= real low <= 2 ^ 54 -> 0 <= real high <= 2 ^ 54 -> 1 <= real high - real low -> plain_axis low high bins.
Proof.
  intros Fl Fh N L H W. assert (2 ^ 54 <= 2 ^ 1000) by (apply Rle_pow; [lra|lia]). assert (X : 1 <= 2 ^ 800) by (apply pow_R1_Rle; lra).
  assert (I : / 2 ^ 800 <= real high - real low).
  { apply Rle_trans with 1; [|exact W]. rewrite <- Rinv_1. apply Rinv_le_contravar; lra. }
  unfold plain_axis. rewrite !Rabs_pos_eq by tauto. repeat split; try assumption; try lia; lra.
Qed.
Lemma unit_axis bins : (1 <= bins <= 2 ^ 20)%Z -> very_fine_axis f0 f1 bins.
Proof.
  intro N. assert (I : 1 <= IZR bins <= 1048576) by (split; apply IZR_le; lia). split; [|split].
  - apply plain_by; try reflexivity; try lia; rewrite ?f0_r, ?f1_r; cbn; lra.
  - rewrite f0_r, Rabs_R0, Rmult_0_r. unfold bin_width. rewrite f0_r, f1_r. apply Rmult_le_pos; [cbn; lra|]. apply Rmult_le_pos; [lra|]. left. apply Rinv_0_lt_compat. lra.
  - unfold bin_width. rewrite f0_r, f1_r, (Rabs_pos_eq 1) by lra. apply (Rmult_le_reg_r (IZR bins)); [lra|].
    replace (2 ^ 48 * ((1 - 0) / IZR bins) * IZR bins) with (2 ^ 48) by (field; lra).
    assert (IZR bins * 1 * IZR bins <= 1048576 * 1048576) by (apply Rmult_le_compat; lra). cbn. lra.
Qed.
Lemma unit_fine bins : (1 <= bins <= 2 ^ 20)%Z -> fine_axis f0 f1 bins.
Proof. intro N. apply fine, unit_axis, N. Qed.

(** At an edge the two lookups of one value can differ: 0.3 on [0, 1) with ten bins is looked up in
    bin 2 and filled into bin 3. *)
Theorem C82_edge_refuted : ~ (forall low high bins x, very_fine_axis low high bins -> is_number x -> real low <= real x < real high ->
  f_get_bin low high bins x = fill_axis low high bins x).
Proof.
  intro H. assert (C : f_get_bin f0 f1 10 f03 = fill_axis f0 f1 10 f03).
  { apply H; [apply unit_axis; lia|reflexivity|]. rewrite f0_r, f1_r, f03_r. lra. }
  vm_compute in C. discriminate.
Qed.
(** The upper bound is accepted; it is looked up one past the last bin on some axes, in the last
    bin on others: [0, 1] with 10 and with 93 bins. *)
Theorem C82_top_refuted : (~ (forall low high bins, very_fine_axis low high bins -> f_get_bin low high bins high = Ok bins)) /\
  (~ (forall low high bins, very_fine_axis low high bins -> f_get_bin low high bins high = Ok (bins - 1)%Z)).
Proof.
  split; intro H.
  - specialize (H f0 f1 93%Z (unit_axis 93 ltac:(lia))). vm_compute in H. discriminate.
  - specialize (H f0 f1 10%Z (unit_axis 10 ltac:(lia))). vm_compute in H. discriminate.
Qed.
Lemma plain16 : plain_axis g0 g16 16.
Proof. apply plain_by; try reflexivity; try lia; rewrite ?g0_r, ?g16_r; cbn; lra. Qed.
(** Bins too narrow for the size of the bounds: the centre of bin 1 of 16 unit bins from 2^53 is
    looked up in bin 2, and all 16 entries of get_bin_centres are the lower bound. *)
Theorem C82_coarse_refuted : ~ (forall low high bins i c, plain_axis low high bins -> (0 <= i < bins)%Z ->
  f_get_bin_centre low high bins i = Ok c -> f_get_bin low high bins c = Ok i).
Proof.
  intro H. assert (X : rbind (f_get_bin_centre g0 g16 16 1) (f_get_bin g0 g16 16) = Ok 2%Z) by (vm_compute; reflexivity).
  destruct (f_get_bin_centre g0 g16 16 1) as [c|] eqn:E; [|discriminate X]. cbn [rbind] in X. rewrite (H g0 g16 16%Z 1%Z c plain16 ltac:(lia) E) in X. discriminate.
Qed.
Theorem C82_coarse_centres_refuted : plain_axis g0 g16 16 /\
  exists l, f_get_bin_centres g0 g16 16 = Ok l /\ length l = 16%nat /\ Forall (fun c => bits_of_b64 c = bits_of_b64 g0) l.
Proof.
  split; [exact plain16|].
  assert (X : rbind (f_get_bin_centres g0 g16 16) (fun l => Ok (map bits_of_b64 l)) = Ok (repeat (bits_of_b64 g0) 16)) by (vm_compute; reflexivity).
  destruct (f_get_bin_centres g0 g16 16) as [l|]; [|discriminate X]. exists l. split; [reflexivity|]. cbn [rbind] in X.
  assert (Y : map bits_of_b64 l = repeat (bits_of_b64 g0) 16) by congruence. clear X. split.
  - rewrite <- (map_length bits_of_b64 l), Y. apply repeat_length.
  - apply Forall_forall. intros c C. apply (in_map bits_of_b64) in C. rewrite Y in C. exact (repeat_spec _ _ _ C).
Qed.
(** There may be no bin centre at all: one bin from 2^53 + 2 to 2^53 + 4. *)
Theorem C82_missing_centre_refuted : plain_axis g2 g4 1 /\ f_get_bin_centres g2 g4 1 = Ok [].
Proof. split; [apply plain_by; try reflexivity; try lia; rewrite ?g2_r, ?g4_r; cbn; lra|vm_compute; reflexivity]. Qed.

(** The hypotheses hold of 49 bins on [0, 1]. *)
Example C82_ex : very_fine_axis f0 f1 49 /\ fine_axis f0 f1 49 /\ plain_axis f0 f1 49.
Proof. split; [apply unit_axis; lia|]. split; [apply unit_fine; lia|]. exact (proj1 (unit_axis 49 ltac:(lia))). Qed.
Example C82_lookup_ex : well_inside f0 f1 49 14 f03 /\ f_get_bin f0 f1 49 f03 = Ok 14%Z /\ fill_axis f0 f1 49 f03 = Ok 14%Z.
Proof.
  split; [|split; vm_compute; reflexivity]. split; [reflexivity|]. unfold bin_edge, bin_width. rewrite f0_r, f1_r, f03_r. cbn. lra.
Qed.
Example C82_between_ex : exists lo hi, nth_error (f_get_bin_boundaries f0 f1 45) 13 = Some lo /\ nth_error (f_get_bin_boundaries f0 f1 45) 14 = Some hi /\
  real lo + bin_width f0 f1 45 / 4 <= real f03 <= real hi - bin_width f0 f1 45 / 4.
Proof.
  destruct (C82_boundaries f0 f1 45 (unit_fine 45 ltac:(lia))) as (L & _ & _ & D & _).
  destruct (nth_error (f_get_bin_boundaries f0 f1 45) 13) as [lo|] eqn:El; [|apply nth_error_None in El; lia].
  destruct (nth_error (f_get_bin_boundaries f0 f1 45) 14) as [hi|] eqn:Eh; [|apply nth_error_None in Eh; lia].
  exists lo, hi. split; [reflexivity|]. split; [reflexivity|]. apply D in El. apply D in Eh. apply ab in El. apply ab in Eh.
  unfold bin_edge, bin_width in *. rewrite f0_r, f1_r in *. rewrite f03_r. cbn [Z.of_nat Pos.of_succ_nat Pos.succ] in *. lra.
Qed.
Example C82_centre_ex : rbind (f_get_bin_centre f0 f1 49 14) (f_get_bin f0 f1 49) = Ok 14%Z.
Proof. vm_compute. reflexivity. Qed.

Print Assumptions C82_lookup.
Print Assumptions C82_monotone.
Print Assumptions C82_centre.
Print Assumptions C82_centres.
Print Assumptions C82_boundaries.
Print Assumptions C82_between.
Print Assumptions C82_edge_refuted.
Print Assumptions C82_top_refuted.
Print Assumptions C82_coarse_refuted.
Print Assumptions C82_coarse_centres_refuted.
Print Assumptions C82_missing_centre_refuted.

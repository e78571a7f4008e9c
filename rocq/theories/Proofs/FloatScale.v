(** Repeated scaling in binary64. *)
From Coq Require Import ZArith Reals Qreals Lra Lia.
From Flocq Require Import Core IEEE754.BinarySingleNaN IEEE754.Binary IEEE754.Bits.
From Verif Require Import Model.Base Model.NDArray Model.Spectra Model.FloatFill Model.FloatArray.
From Verif Require Import Spec.ArraySpec Spec.FloatSpec Spec.FloatRunSpec.
From Verif Require Import Proofs.QcLemmas Proofs.NDArrayLemmas Proofs.FloatLemmas Proofs.FloatSums Proofs.FloatRun Proofs.FloatNear.
Import ListNotations.
Local Open Scope R_scope.

Lemma pow_bpow n : 2 ^ n = bpow radix2 (Z.of_nat n).
Proof. rewrite <- IZR_Zpower by lia. rewrite pow_IZR. reflexivity. Qed.
Lemma inv_bpow n : / 2 ^ n = bpow radix2 (- Z.of_nat n).
Proof. rewrite bpow_opp. f_equal. apply pow_bpow. Qed.
Lemma rnd_between a b x : (-1074 <= a)%Z -> (-1074 <= b)%Z -> bpow radix2 a <= x <= bpow radix2 b -> bpow radix2 a <= rnd x <= bpow radix2 b.
Proof.
  intros A B [L U]. split.
  - rewrite <- (rnd_id (bpow radix2 a)) by now apply fmt_bpow. now apply rnd_le.
  - rewrite <- (rnd_id (bpow radix2 b)) by now apply fmt_bpow. now apply rnd_le.
Qed.
Lemma bound_mult a b x y e f : 0 < a -> 0 < b -> a <= x <= e -> b <= y <= f -> a * b <= x * y <= e * f.
Proof. intros A B [L U] [L' U']. split; apply Rmult_le_compat; lra. Qed.
Lemma factor_ok n m : usual_decays n -> usual_decays m ->
  real m <> 0 /\ is_number (f_div n m) /\ bpow radix2 (-200) <= real n / real m <= bpow radix2 200 /\
  bpow radix2 (-200) <= real (f_div n m) <= bpow radix2 200.
Proof.
  intros [Fn Bn] [Fm Bm]. rewrite inv_bpow, pow_bpow in Bn, Bm. change (- Z.of_nat 100)%Z with (-100)%Z in *. change (Z.of_nat 100) with 100%Z in *.
  pose proof (bpow_gt_0 radix2 (-100)) as P. pose proof (bpow_gt_0 radix2 100) as P'.
  assert (Bi : bpow radix2 (-100) <= / real m <= bpow radix2 100).
  { split.
    - change (-100)%Z with (Z.opp 100). rewrite bpow_opp. apply Rinv_le_contravar; lra.
    - replace 100%Z with (- -100)%Z by reflexivity. rewrite bpow_opp. apply Rinv_le_contravar; lra. }
  assert (Q : bpow radix2 (-200) <= real n / real m <= bpow radix2 200).
  { change (-200)%Z with (-100 + -100)%Z. change 200%Z with (100 + 100)%Z. rewrite !bpow_plus. unfold Rdiv. apply bound_mult; assumption. }
  assert (Nz : real m <> 0) by lra.
  pose proof (rnd_between (-200) 200 _ ltac:(lia) ltac:(lia) Q) as Rq.
  destruct (div_ok n m Fn Nz) as [E F].
  { change (toR n) with (real n). change (toR m) with (real m). rewrite Rabs_pos_eq by (pose proof (bpow_gt_0 radix2 (-200)); lra).
    apply Rle_lt_trans with (1 := proj2 Rq). apply bpow_lt. lia. }
  split; [exact Nz|]. split; [exact F|]. split; [exact Q|]. unfold real at 1 2. rewrite E. exact Rq.
Qed.
Lemma product_ok x c : is_number x -> is_number c -> (real x = 0 \/ bpow radix2 (-701) <= real x <= bpow radix2 701) -> bpow radix2 (-200) <= real c <= bpow radix2 200 ->
  is_number (f_mul x c) /\ held (real x * real c).
Proof.
  intros Fx Fc X C. destruct X as [X|X].
  - rewrite X, Rmult_0_l. split; [|now left]. apply mul_ok; [exact Fx|exact Fc|]. change (toR x) with (real x). rewrite X, Rmult_0_l, rnd_id by apply fmt0.
    rewrite Rabs_R0. apply bpow_gt_0.
  - assert (B : bpow radix2 (-901) <= real x * real c <= bpow radix2 901).
    { change (-901)%Z with (-701 + -200)%Z. change 901%Z with (701 + 200)%Z. rewrite !bpow_plus. apply bound_mult; try assumption; apply bpow_gt_0. }
    split.
    + apply mul_ok; [exact Fx|exact Fc|]. change (toR x) with (real x). change (toR c) with (real c).
      pose proof (rnd_between (-901) 901 _ ltac:(lia) ltac:(lia) B) as Rq. rewrite Rabs_pos_eq by (pose proof (bpow_gt_0 radix2 (-901)); lra).
      apply Rle_lt_trans with (1 := proj2 Rq). apply bpow_lt. lia.
    + right. rewrite inv_bpow. apply Rle_trans with (2 := proj1 B). apply bpow_le. lia.
Qed.
Lemma g_two k : INR k <= 2 ^ 52 -> g k <= 2.
Proof.
  intro H. assert (K' : INR k * u <= / 2).
  { unfold unit_roundoff. apply (Rmult_le_reg_r (2 ^ 53)); [apply pow_lt; lra|]. rewrite Rmult_assoc, Rinv_l by (apply pow_nonzero; lra).
    replace (/ 2 * 2 ^ 53) with (2 ^ 52) by field. lra. }
  pose proof (g_upper k K'). lra.
Qed.
Lemma near_usual k x q : near k x q -> INR k <= 2 ^ 52 -> (Rof q = 0 \/ bpow radix2 (-700) <= Rof q <= bpow radix2 700) ->
  real x = 0 \/ bpow radix2 (-701) <= real x <= bpow radix2 701.
Proof.
  rewrite near_nr. intros [_ N] K [Z|B]; [left; now apply (nr_zero _ _ _ N)|right].
  destruct N as (_ & L & U). pose proof (g_two k K) as G. pose proof (g_ge1 k) as G1. unfold Rdiv in L.
  assert (I : / 2 <= / g k) by (apply Rinv_le_contravar; lra).
  change (-701)%Z with (-700 + -1)%Z. change 701%Z with (700 + 1)%Z. rewrite !bpow_plus. change (bpow radix2 1) with 2. change (bpow radix2 (-1)) with (/ 2).
  pose proof (bpow_gt_0 radix2 (-700)). pose proof (bpow_gt_0 radix2 700). split; nra.
Qed.
Fixpoint lastn (m : binary64) (ns : list binary64) : binary64 := match ns with [] => m | n :: r => lastn n r end.
Lemma lastn_last m ns : lastn m ns = last ns m.
Proof. revert m. induction ns as [|n ns IH]; intro m; [reflexivity|]. cbn [lastn]. rewrite IH. destruct ns as [|a ns]; [reflexivity|]. cbn [last]. clear. revert a. induction ns as [|b ns IH]; intro a; [reflexivity|]. apply IH. Qed.
Lemma usual_pos m : usual_decays m -> 0 < real m.
Proof. intros [_ [L _]]. apply Rlt_le_trans with (2 := L). apply Rinv_0_lt_compat, pow_lt. lra. Qed.
Lemma ratio_ok a b x : usual_decays a -> usual_decays b -> usual_content x -> real x * (real a / real b) = 0 \/ bpow radix2 (-700) <= real x * (real a / real b) <= bpow radix2 700.
Proof.
  intros A B [_ X]. destruct (factor_ok a b A B) as (_ & _ & Q & _). destruct X as [->|X]; [left; ring|right].
  rewrite inv_bpow, pow_bpow in X. change (-700)%Z with (-500 + -200)%Z. change 700%Z with (500 + 200)%Z. rewrite !bpow_plus.
  apply bound_mult; try assumption; apply bpow_gt_0.
Qed.
Lemma scalings_l m0 a0 : usual_decays m0 -> (forall idx, valid_idx (fshape a0) idx -> usual_content (fget a0 idx)) ->
  forall ns k s, Forall usual_decays ns -> usual_decays (fs_decays s) -> fshape (fs_data s) = fshape a0 ->
  (forall idx, valid_idx (fshape a0) idx -> near k (fget (fs_data s) idx) (exact (fget a0 idx) * (exact (fs_decays s) / exact m0))%Qc) ->
  INR (k + 2 * length ns) <= 2 ^ 52 ->
  snd (f_run (map FScale ns) s) = map (fun _ => None) ns /\ fs_decays (fst (f_run (map FScale ns) s)) = lastn (fs_decays s) ns /\
  fshape (fs_data (fst (f_run (map FScale ns) s))) = fshape a0 /\
  forall idx, valid_idx (fshape a0) idx ->
    near (k + 2 * length ns) (fget (fs_data (fst (f_run (map FScale ns) s))) idx) (exact (fget a0 idx) * (exact (lastn (fs_decays s) ns) / exact m0))%Qc.
Proof.
  intros M0 A0. assert (Nz : exact m0 <> 0%Qc).
  { intro C. pose proof (usual_pos _ M0). rewrite <- exact_real, C, Rof_0 in *. lra. }
  induction ns as [|n ns IH]; intros k s U Ud Sh Ne K.
  - cbn. rewrite Nat.add_0_r. repeat (split; [first [reflexivity|exact Sh]|]). exact Ne.
  - inversion U as [|? ? U1 U2]; subst. cbn [length] in K.
    destruct (factor_ok n (fs_decays s) U1 Ud) as (Nd & Fc & Bq & Bc).
    assert (Fz : f_zero (fs_decays s) = false) by (apply (proj2 (zero_ok _ (proj1 Ud))); exact Nd).
    assert (Step : f_step (FScale n) s = (FS (f_times (fs_data s) (f_div n (fs_decays s))) n, None)) by (cbn [f_step]; now rewrite Fz).
    cbn [map f_run]. rewrite Step. cbn [lastn].
    assert (Dn : exact (fs_decays s) <> 0%Qc).
    { intro C. pose proof (usual_pos _ Ud). rewrite <- exact_real, C, Rof_0 in *. lra. }
    destruct (IH (k + 2)%nat (FS (f_times (fs_data s) (f_div n (fs_decays s))) n) U2 U1) as (A & B & C & D).
    + exact Sh.
    + cbn [fs_data fs_decays f_times fget]. intros idx V. pose proof (Ne idx V) as Nx.
      assert (Kk : INR k <= 2 ^ 52) by (apply Rle_trans with (2 := K); apply le_INR; lia).
      assert (X : Rof (exact (fget a0 idx) * (exact (fs_decays s) / exact m0))%Qc = 0 \/ bpow radix2 (-700) <= Rof (exact (fget a0 idx) * (exact (fs_decays s) / exact m0))%Qc <= bpow radix2 700).
      { rewrite Rof_mult, Rof_div, !exact_real by exact Nz. apply ratio_ok; [exact Ud|exact M0|now apply A0]. }
      pose proof (near_usual _ _ _ Nx Kk X) as Bx.
      destruct (product_ok (fget (fs_data s) idx) (f_div n (fs_decays s)) (proj1 Nx) Fc Bx Bc) as [Fp Hp].
      assert (Nc : near (0 + 0 + 1) (f_div n (fs_decays s)) (exact n / exact (fs_decays s))%Qc).
      { apply near_div; [apply near_exact|apply near_exact|exact Dn|exact Fc|].
        - split; [apply U1|]. apply Rlt_le, usual_pos, U1.
        - split; [apply Ud|]. apply Rlt_le, usual_pos, Ud.
        - right. rewrite inv_bpow. apply Rle_trans with (2 := proj1 Bq). apply bpow_le. lia. }
      pose proof (near_mul _ _ _ _ _ _ Nx Nc Fp Hp) as Np. replace (k + 2)%nat with (k + (0 + 0 + 1) + 1)%nat by lia.
      replace (exact (fget a0 idx) * (exact n / exact m0))%Qc with (exact (fget a0 idx) * (exact (fs_decays s) / exact m0) * (exact n / exact (fs_decays s)))%Qc by (field; split; assumption).
      exact Np.
    + replace (k + 2 + 2 * length ns)%nat with (k + 2 * S (length ns))%nat by lia. exact K.
    + rewrite pair_let. cbn [fst snd fs_decays] in *. rewrite A. split; [reflexivity|]. split; [exact B|]. split; [exact C|].
      cbn [length]. replace (k + 2 * S (length ns))%nat with (k + 2 + 2 * length ns)%nat by lia. exact D.
Qed.

(** Rounding facts behind C55. *)
From Coq Require Import ZArith Reals Lra Lia.
From Flocq Require Import Core IEEE754.BinarySingleNaN IEEE754.Binary IEEE754.Bits Sterbenz Plus_error.
From Verif Require Import Model.Base Model.FloatFill Spec.FloatSpec.
Local Open Scope R_scope.

Notation fexp := (FLT_exp (-1074) 53).
Notation fmt := (generic_format radix2 fexp).
Notation rnd := (round radix2 fexp ZnearestE).
Local Instance p53 : Prec_gt_0 53 := eq_refl.

Lemma rnd_le x y : x <= y -> rnd x <= rnd y.
Proof. apply round_le; [apply FLT_exp_valid; exact p53|apply valid_rnd_N]. Qed.
Lemma rnd_id x : fmt x -> rnd x = x.
Proof. apply round_generic. apply valid_rnd_N. Qed.
Lemma rnd_fmt x : fmt (rnd x).
Proof. apply generic_format_round; [apply FLT_exp_valid; exact p53|apply valid_rnd_N]. Qed.
Lemma fmt0 : fmt 0. Proof. apply generic_format_0. Qed.
Lemma fmt_bpow e : (-1074 <= e)%Z -> fmt (bpow radix2 e).
Proof. intro. apply generic_format_bpow. unfold FLT_exp. lia. Qed.
Lemma fmt1 : fmt 1. Proof. change 1 with (bpow radix2 0). apply fmt_bpow. lia. Qed.
Lemma two53 : IZR (2 ^ 53) = bpow radix2 53.
Proof. rewrite <- (IZR_Zpower radix2 53) by lia. reflexivity. Qed.
Lemma fmt_int n : (Z.abs n <= 2 ^ 53)%Z -> fmt (IZR n).
Proof.
  intro H. destruct (Z.eq_dec (Z.abs n) (2 ^ 53)) as [E|E].
  - destruct (Z.abs_spec n) as [[_ A]|[_ A]].
    + replace (IZR n) with (bpow radix2 53) by (rewrite <- two53; f_equal; lia).
      apply fmt_bpow. lia.
    + replace n with (- (2 ^ 53))%Z by lia. rewrite opp_IZR. apply generic_format_opp.
      rewrite two53. apply fmt_bpow. lia.
  - apply generic_format_FLT. exists (Float radix2 n 0).
    + unfold F2R. cbn. ring.
    + cbn -[Z.pow]. change (radix_val radix2) with 2%Z. lia.
    + cbn. lia.
Qed.

(** A number and its predecessor. *)
Lemma gap_ge b : 0 < b -> fmt b -> b * bpow radix2 (-53) <= ulp radix2 fexp (pred radix2 fexp b).
Proof.
  intros P F. set (p := pred radix2 fexp b).
  assert (E : p + ulp radix2 fexp p = b) by (apply pred_plus_ulp; [apply FLT_exp_valid; exact p53|exact P|exact F]).
  assert (P0 : 0 <= p) by (apply pred_ge_0; [apply FLT_exp_valid; exact p53|exact P|exact F]).
  assert (U : 0 <= ulp radix2 fexp p) by apply ulp_ge_0.
  assert (S : bpow radix2 (-53) <= 1) by (change 1 with (bpow radix2 0); apply bpow_le; lia).
  destruct P0 as [P0|P0].
  - assert (Fp : fmt p) by (apply generic_format_pred; [apply FLT_exp_valid; exact p53|exact F]).
    assert (L : b <= bpow radix2 (mag radix2 p)).
    { rewrite <- E. apply id_p_ulp_le_bpow; [exact P0|exact Fp|]. pose proof (bpow_mag_gt radix2 p) as G.
      rewrite Rabs_pos_eq in G by lra. exact G. }
    rewrite (ulp_neq_0 radix2 fexp p) by lra. unfold cexp.
    apply Rle_trans with (bpow radix2 (mag radix2 p) * bpow radix2 (-53)).
    + apply Rmult_le_compat_r; [apply bpow_ge_0|exact L].
    + rewrite <- bpow_plus. apply bpow_le. unfold FLT_exp. lia.
  - rewrite <- E at 1. rewrite <- P0 at 1. rewrite Rplus_0_l. rewrite <- (Rmult_1_r (ulp radix2 fexp p)) at 2.
    apply Rmult_le_compat_l; lra.
Qed.
Lemma quotient_lt a b : fmt a -> fmt b -> 0 <= a -> a < b -> rnd (a / b) <= 1 - bpow radix2 (-53).
Proof.
  intros Fa Fb A L. assert (B : 0 < b) by lra.
  assert (Fm : fmt (1 - bpow radix2 (-53))).
  { apply generic_format_FLT. exists (Float radix2 (2 ^ 53 - 1) (-53)).
    - unfold F2R. cbn -[Z.pow bpow]. rewrite minus_IZR, two53.
      rewrite Rmult_minus_distr_r, <- bpow_plus. cbn [Z.add Z.pos_sub]. rewrite Rmult_1_l. reflexivity.
    - cbn -[Z.pow]. change (radix_val radix2) with 2%Z. lia.
    - cbn. lia. }
  rewrite <- (rnd_id _ Fm). apply rnd_le.
  apply (Rmult_le_reg_r b); [exact B|]. unfold Rdiv. rewrite Rmult_assoc, Rinv_l, Rmult_1_r by lra.
  assert (a <= pred radix2 fexp b) by (apply pred_ge_gt; try assumption; apply FLT_exp_valid; exact p53).
  pose proof (gap_ge b B Fb) as G.
  assert (E : pred radix2 fexp b + ulp radix2 fexp (pred radix2 fexp b) = b) by (apply pred_plus_ulp; [apply FLT_exp_valid; exact p53|exact B|exact Fb]).
  lra.
Qed.
Lemma quotient_ge a b : 0 <= a -> 0 < b -> 0 <= rnd (a / b).
Proof.
  intros A B. rewrite <- (rnd_id 0 fmt0). apply rnd_le. unfold Rdiv. apply Rmult_le_pos; [exact A|]. left. now apply Rinv_0_lt_compat.
Qed.
Lemma product_lt q n : fmt n -> 1 <= n -> q <= 1 - bpow radix2 (-53) -> rnd (q * n) < n.
Proof.
  intros Fn N Q. set (x := (1 - bpow radix2 (-53)) * n).
  assert (B0 : 0 < bpow radix2 (-53)) by apply bpow_gt_0.
  assert (X : rnd (q * n) <= rnd x) by (apply rnd_le; apply Rmult_le_compat_r; lra).
  apply Rle_lt_trans with (1 := X).
  assert (XN : x < n) by (unfold x; nra).
  assert (R : rnd x <= n) by (rewrite <- (rnd_id n Fn); apply rnd_le; lra).
  destruct R as [R|R]; [exact R|]. exfalso.
  destruct (round_N_pt radix2 fexp (fun x => negb (Z.even x)) x) as [_ M].
  assert (V : Valid_exp fexp) by (apply FLT_exp_valid; exact p53).
  set (p := pred radix2 fexp n).
  assert (Fp : fmt p) by (apply generic_format_pred; assumption).
  assert (E : p + ulp radix2 fexp p = n) by (apply pred_plus_ulp; [assumption|lra|exact Fn]).
  specialize (M p Fp). change (Znearest (fun x => negb (Z.even x))) with ZnearestE in M. rewrite R in M.
  pose proof (gap_ge n ltac:(lra) Fn) as G. fold p in G.
  assert (P1 : 1 - bpow radix2 (-53) <= p).
  { unfold p. apply pred_ge_gt; try assumption.
    - apply generic_format_FLT. exists (Float radix2 (2 ^ 53 - 1) (-53)).
      + unfold F2R. cbn -[Z.pow bpow]. rewrite minus_IZR, two53.
        rewrite Rmult_minus_distr_r, <- bpow_plus. cbn [Z.add Z.pos_sub]. rewrite Rmult_1_l. reflexivity.
      + cbn -[Z.pow]. change (radix_val radix2) with 2%Z. lia.
      + cbn. lia.
    - lra. }
  assert (H53 : bpow radix2 (-53) <= 1 / 2) by (replace (1 / 2) with (bpow radix2 (-1)) by (cbn; lra); apply bpow_le; lia).
  assert (U : ulp radix2 fexp p <= p * bpow radix2 (-52)).
  { pose proof (ulp_FLT_le radix2 (-1074) 53 p) as U. rewrite Rabs_pos_eq in U by lra. apply U.
    apply Rle_trans with (bpow radix2 (-1)); [apply bpow_le; lia|]. replace (bpow radix2 (-1)) with (1 / 2) by (cbn; lra). lra. }
  assert (D : bpow radix2 (-52) = 2 * bpow radix2 (-53)).
  { change (-52)%Z with (1 + -53)%Z. rewrite bpow_plus. reflexivity. }
  rewrite Rabs_pos_eq in M by lra.
  assert (PX : p <= x) by (unfold x; lra).
  rewrite Rabs_left1 in M by lra. unfold x in M.
  assert (PN : p < n) by (pose proof (bpow_gt_0 radix2 (-52)); nra).
  assert (p * bpow radix2 (-52) < n * bpow radix2 (-52)) by (apply Rmult_lt_compat_r; [apply bpow_gt_0|exact PN]).
  rewrite D in *. lra.
Qed.
Lemma product_ge q n : 0 <= q -> 0 <= n -> 0 <= rnd (q * n).
Proof. intros. rewrite <- (rnd_id 0 fmt0). apply rnd_le. nra. Qed.

(** ** Operations on binary64 *)
Notation toR := (B2R 53 1024).
Notation finite := (is_finite 53 1024).
Lemma fmt_toR x : fmt (toR x).
Proof. exact (generic_format_B2R 53 1024 x). Qed.
Lemma big : bpow radix2 53 < bpow radix2 1024.
Proof. apply bpow_lt. lia. Qed.
Lemma sub_ok x y : finite x = true -> finite y = true -> Rabs (rnd (toR x - toR y)) < bpow radix2 1024 ->
  toR (f_sub x y) = rnd (toR x - toR y) /\ finite (f_sub x y) = true.
Proof.
  intros Fx Fy B. pose proof (Bminus_correct 53 1024 eq_refl eq_refl binop_nan_pl64 mode_NE x y Fx Fy) as C.
  change (SpecFloat.fexp 53 1024) with fexp in C. cbn [round_mode] in C.
  rewrite Rlt_bool_true in C by exact B. destruct C as (C1 & C2 & _). split; assumption.
Qed.
Lemma sub_finite x y : finite x = true -> finite y = true -> finite (f_sub x y) = true -> Rabs (rnd (toR x - toR y)) < bpow radix2 1024.
Proof.
  intros Fx Fy F. pose proof (Bminus_correct 53 1024 eq_refl eq_refl binop_nan_pl64 mode_NE x y Fx Fy) as C.
  change (SpecFloat.fexp 53 1024) with fexp in C. cbn [round_mode] in C.
  destruct (Rlt_bool_spec (Rabs (rnd (toR x - toR y))) (bpow radix2 1024)) as [L|L]; [exact L|].
  exfalso. destruct C as (C & _). change (Bminus 53 1024 eq_refl eq_refl binop_nan_pl64 mode_NE x y) with (f_sub x y) in C.
  destruct (f_sub x y); cbn in *; unfold binary_overflow in C; cbn in C; discriminate.
Qed.
Lemma div_ok x y : finite x = true -> toR y <> 0 -> Rabs (rnd (toR x / toR y)) < bpow radix2 1024 ->
  toR (f_div x y) = rnd (toR x / toR y) /\ finite (f_div x y) = true.
Proof.
  intros Fx Ny B. pose proof (Bdiv_correct 53 1024 eq_refl eq_refl binop_nan_pl64 mode_NE x y Ny) as C.
  change (SpecFloat.fexp 53 1024) with fexp in C. cbn [round_mode] in C.
  rewrite Rlt_bool_true in C by exact B. destruct C as (C1 & C2 & _). split; [exact C1|]. rewrite <- Fx. exact C2.
Qed.
Lemma mul_ok x y : finite x = true -> finite y = true -> Rabs (rnd (toR x * toR y)) < bpow radix2 1024 ->
  toR (f_mul x y) = rnd (toR x * toR y) /\ finite (f_mul x y) = true.
Proof.
  intros Fx Fy B. pose proof (Bmult_correct 53 1024 eq_refl eq_refl binop_nan_pl64 mode_NE x y) as C.
  change (SpecFloat.fexp 53 1024) with fexp in C. cbn [round_mode] in C.
  rewrite Rlt_bool_true in C by exact B. destruct C as (C1 & C2 & _). split; [exact C1|]. rewrite Fx, Fy in C2. exact C2.
Qed.
Lemma int_ok n : (0 <= n <= 2 ^ 53)%Z -> toR (f_int n) = IZR n /\ finite (f_int n) = true.
Proof.
  intro N. pose proof (binary_normalize_correct 53 1024 eq_refl eq_refl mode_NE n 0 false) as C.
  change (SpecFloat.fexp 53 1024) with fexp in C. cbn [round_mode] in C.
  assert (E : F2R (Float radix2 n 0) = IZR n) by (unfold F2R; cbn; ring).
  rewrite E in C. rewrite (rnd_id (IZR n)) in C by (apply fmt_int; lia).
  rewrite Rlt_bool_true in C.
  - destruct C as (C1 & C2 & _). split; assumption.
  - rewrite <- abs_IZR. apply Rle_lt_trans with (2 := big). rewrite <- two53. apply IZR_le. lia.
Qed.
Lemma trunc_ok x : finite x = true -> f_trunc x = Ok (Ztrunc (toR x)).
Proof.
  intro F. assert (E : f_trunc x = Ok (Btrunc 53 1024 x)) by (destruct x; cbn in *; congruence).
  rewrite E. f_equal. apply eq_IZR. rewrite Btrunc_correct by reflexivity.
  unfold round, F2R, scaled_mantissa, cexp, FIX_exp. cbn. rewrite !Rmult_1_r. reflexivity.
Qed.
Lemma zero_ok x : finite x = true -> f_zero x = false <-> toR x <> 0.
Proof.
  intro F. destruct x as [s|s|s pl e|s m e B]; cbn in F; try discriminate; cbn [f_zero].
  - cbn. split; intro H; [discriminate|]. now destruct H.
  - split; [intros _|reflexivity]. intro Z.
    assert (N : F2R (Float radix2 (cond_Zopp s (Zpos m)) e) <> 0) by (apply F2R_neq_0; destruct s; discriminate).
    apply N. exact Z.
Qed.
Lemma le_ok x y : finite x = true -> finite y = true -> f_le x y = true <-> toR x <= toR y.
Proof.
  intros Fx Fy. unfold f_le, b64_compare. rewrite Bcompare_correct by assumption.
  destruct (Rcompare_spec (toR x) (toR y)); split; intros; try reflexivity; try discriminate; lra.
Qed.
Lemma lt_ok x y : finite x = true -> finite y = true -> f_lt x y = true <-> toR x < toR y.
Proof.
  intros Fx Fy. unfold f_lt, b64_compare. rewrite Bcompare_correct by assumption.
  destruct (Rcompare_spec (toR x) (toR y)); split; intros; try reflexivity; try discriminate; lra.
Qed.

Definition index_of (a b n : R) : Z := Ztrunc (rnd (rnd (a / b) * n)).
Lemma fill_index_ok low high n v : finite low = true -> finite high = true -> finite v = true ->
  finite (f_sub high low) = true -> (1 <= n <= 2 ^ 53)%Z -> toR low <= toR v < toR high ->
  let a := rnd (toR v - toR low) in let b := rnd (toR high - toR low) in
  0 <= a <= b /\ 0 < b /\ fill_index low high n v = Ok (index_of a b (IZR n)).
Proof.
  intros Fl Fh Fv Fw N [L H] a b.
  assert (A : 0 <= a) by (rewrite <- (rnd_id 0 fmt0); apply rnd_le; lra).
  assert (AB : a <= b) by (apply rnd_le; lra).
  assert (B0 : b <> 0).
  { unfold b, Rminus. apply round_plus_neq_0; try apply valid_rnd_N; try apply fmt_toR.
    - apply FLT_exp_valid; exact p53.
    - apply monotone_exp_not_FTZ; [apply FLT_exp_valid; exact p53|apply FLT_exp_monotone].
    - apply generic_format_opp, fmt_toR.
    - lra. }
  assert (B : 0 < b) by lra.
  split; [lra|]. split; [exact B|].
  assert (Bb := sub_finite _ _ Fh Fl Fw). fold b in Bb.
  destruct (sub_ok _ _ Fh Fl Bb) as [Eb _]. fold b in Eb.
  destruct (sub_ok v low Fv Fl) as [Ea Fa]. { fold a. rewrite Rabs_pos_eq in * by lra. lra. } fold a in Ea.
  unfold fill_index. rewrite (proj2 (le_ok _ _ Fl Fv) L), (proj2 (lt_ok _ _ Fv Fh) H). cbn [andb negb].
  rewrite (proj2 (zero_ok _ Fw)) by (rewrite Eb; exact B0).
  assert (Q1 : rnd (a / b) <= 1).
  { rewrite <- (rnd_id 1 fmt1). apply rnd_le. apply (Rmult_le_reg_r b); [exact B|].
    unfold Rdiv. rewrite Rmult_assoc, Rinv_l by lra. lra. }
  pose proof (quotient_ge a b A B) as Q0.
  assert (P1 : 1 < bpow radix2 1024) by (change 1 with (bpow radix2 0); apply bpow_lt; lia).
  destruct (div_ok (f_sub v low) (f_sub high low) Fa) as [Eq Fq].
  { rewrite Eb. exact B0. } { rewrite Ea, Eb, Rabs_pos_eq by lra. lra. }
  rewrite Ea, Eb in Eq. destruct (int_ok n ltac:(lia)) as [En Fn].
  assert (Nb : IZR n <= bpow radix2 53) by (rewrite <- two53; apply IZR_le; lia).
  assert (N1 : 1 <= IZR n) by (apply IZR_le; lia).
  assert (M0 : 0 <= rnd (rnd (a / b) * IZR n)) by (apply product_ge; lra).
  assert (M1 : rnd (rnd (a / b) * IZR n) <= IZR n).
  { rewrite <- (rnd_id (IZR n)) at 2 by (apply fmt_int; lia). apply rnd_le. nra. }
  destruct (mul_ok (f_div (f_sub v low) (f_sub high low)) (f_int n) Fq Fn) as [Em Fm].
  { rewrite Eq, En, Rabs_pos_eq by exact M0. pose proof big. lra. }
  rewrite (trunc_ok _ Fm), Em, Eq, En. reflexivity.
Qed.
Lemma index_bounds a b n : fmt a -> fmt b -> 0 <= a -> a < b -> (1 <= n <= 2 ^ 53)%Z -> (0 <= index_of a b (IZR n) < n)%Z.
Proof.
  intros Fa Fb A L N. unfold index_of.
  assert (N1 : 1 <= IZR n) by (apply IZR_le; lia).
  assert (P : 0 <= rnd (rnd (a / b) * IZR n)) by (apply product_ge; [apply quotient_ge|]; lra).
  assert (Q : rnd (rnd (a / b) * IZR n) < IZR n) by (apply product_lt; [apply fmt_int; lia|exact N1|now apply quotient_lt]).
  rewrite Ztrunc_floor by exact P. split.
  - apply le_IZR. pose proof (Zfloor_lub 0 _ P). apply IZR_le. exact H.
  - apply lt_IZR. apply Rle_lt_trans with (2 := Q). apply Zfloor_lb.
Qed.
Lemma index_edge b n : 0 < b -> (1 <= n <= 2 ^ 53)%Z -> index_of b b (IZR n) = n.
Proof.
  intros B N. unfold index_of. unfold Rdiv. rewrite Rinv_r by lra. rewrite (rnd_id 1 fmt1), Rmult_1_l, rnd_id by (apply fmt_int; lia).
  apply Ztrunc_IZR.
Qed.
Lemma index_mono a a' b n : 0 <= a -> a <= a' -> 0 < b -> 0 <= n -> (index_of a b n <= index_of a' b n)%Z.
Proof.
  intros A L B N. unfold index_of. apply Ztrunc_le, rnd_le, Rmult_le_compat_r; [exact N|]. apply rnd_le.
  unfold Rdiv. apply Rmult_le_compat_r; [|exact L]. left. now apply Rinv_0_lt_compat.
Qed.

(** ** C55 *)
Lemma axis_iff_l low high n v : accepted_value low high n v ->
  (real (f_sub v low) < real (f_sub high low) -> exists i, fill_axis low high n v = Ok i /\ (0 <= i < n)%Z) /\
  (real (f_sub v low) = real (f_sub high low) -> fill_axis low high n v = Err EIndexError) /\
  real (f_sub v low) <= real (f_sub high low).
Proof.
  unfold real, spacing.
  intros (Fl & Fh & Fv & Fw & N & L). unfold is_number, real in *. destruct (fill_index_ok low high n v Fl Fh Fv Fw N L) as (A & B & E).
  set (a := rnd (toR v - toR low)) in *. set (b := rnd (toR high - toR low)) in *.
  assert (Bb := sub_finite _ _ Fh Fl Fw). fold b in Bb. destruct (sub_ok _ _ Fh Fl Bb) as [Eb _]. fold b in Eb.
  destruct (sub_ok v low Fv Fl) as [Ea _]. { fold a. rewrite Rabs_pos_eq in * by lra. lra. } fold a in Ea.
  rewrite Ea, Eb. unfold fill_axis. rewrite E. cbn [rbind]. split; [|split; [|lra]].
  - intro S. pose proof (index_bounds a b n (rnd_fmt _) (rnd_fmt _) ltac:(lra) S N) as I.
    exists (index_of a b (IZR n)). split; [|exact I].
    destruct (Z.leb_spec 0 (index_of a b (IZR n))); [|lia]. destruct (Z.ltb_spec (index_of a b (IZR n)) n); [reflexivity|lia].
  - intros ->. rewrite (index_edge b n B N). rewrite Z.ltb_irrefl, andb_false_r.
    destruct (Z.ltb_spec n 0); [lia|]. rewrite andb_false_r. reflexivity.
Qed.
Lemma axis_zero_l high n v low : accepted_value low high n v -> real low = 0 -> exists i, fill_axis low high n v = Ok i /\ (0 <= i < n)%Z.
Proof.
  unfold real, spacing.
  intros S Z. pose proof S as (Fl & Fh & Fv & Fw & N & L). unfold is_number, real in *. apply (axis_iff_l low high n v S). unfold real.
  assert (Bb := sub_finite _ _ Fh Fl Fw). destruct (sub_ok _ _ Fh Fl Bb) as [Eb _].
  assert (Bv : Rabs (rnd (toR v - toR low)) < bpow radix2 1024).
  { destruct (fill_index_ok low high n v Fl Fh Fv Fw N L) as (A & B & _). rewrite Rabs_pos_eq in * by lra. lra. }
  destruct (sub_ok _ _ Fv Fl Bv) as [Ea _].
  rewrite Ea, Eb, Z, !Rminus_0_r, !rnd_id by apply fmt_toR. lra.
Qed.
Lemma axis_sterbenz_l low high n v : accepted_value low high n v -> real high <= 2 * real low ->
  exists i, fill_axis low high n v = Ok i /\ (0 <= i < n)%Z.
Proof.
  unfold real, spacing.
  intros S Z. pose proof S as (Fl & Fh & Fv & Fw & N & L). unfold is_number, real in *. apply (axis_iff_l low high n v S). unfold real.
  assert (Bb := sub_finite _ _ Fh Fl Fw). destruct (sub_ok _ _ Fh Fl Bb) as [Eb _].
  assert (Bv : Rabs (rnd (toR v - toR low)) < bpow radix2 1024).
  { destruct (fill_index_ok low high n v Fl Fh Fv Fw N L) as (A & B & _). rewrite Rabs_pos_eq in * by lra. lra. }
  destruct (sub_ok _ _ Fv Fl Bv) as [Ea _].
  assert (St : forall x, fmt x -> toR low <= x -> x <= 2 * toR low -> fmt (x - toR low)).
  { intros x Fx A B. apply sterbenz; try assumption; try apply fmt_toR.
    - apply FLT_exp_valid; exact p53.
    - apply FLT_exp_monotone.
    - lra. }
  rewrite Ea, Eb, !rnd_id; [lra| |]; apply St; try apply fmt_toR; lra.
Qed.
(** Further from the upper bound than one unit in the last place of the range. *)
Lemma axis_away_l low high n v : accepted_value low high n v -> spacing (real high - real low) < real high - real v ->
  exists i, fill_axis low high n v = Ok i /\ (0 <= i < n)%Z.
Proof.
  unfold real, spacing.
  intros S Z. pose proof S as (Fl & Fh & Fv & Fw & N & L). unfold is_number, real in *. apply (axis_iff_l low high n v S). unfold real.
  assert (Bb := sub_finite _ _ Fh Fl Fw). destruct (sub_ok _ _ Fh Fl Bb) as [Eb _].
  destruct (fill_index_ok low high n v Fl Fh Fv Fw N L) as (A & B & _).
  assert (Bv : Rabs (rnd (toR v - toR low)) < bpow radix2 1024).
  { rewrite Rabs_pos_eq in * by lra. lra. }
  destruct (sub_ok _ _ Fv Fl Bv) as [Ea _]. rewrite Ea, Eb.
  assert (V : Valid_exp fexp) by (apply FLT_exp_valid; exact p53).
  pose proof (error_le_half_ulp radix2 fexp (fun x => negb (Z.even x)) (toR high - toR low)) as E1.
  pose proof (error_le_half_ulp radix2 fexp (fun x => negb (Z.even x)) (toR v - toR low)) as E2.
  assert (U : ulp radix2 fexp (toR v - toR low) <= ulp radix2 fexp (toR high - toR low)).
  { apply ulp_le; try assumption; [apply FLT_exp_monotone|]. rewrite !Rabs_pos_eq by lra. lra. }
  apply Rabs_le_inv in E1. apply Rabs_le_inv in E2. lra.
Qed.
Lemma axis_mono_l low high n v w : accepted_value low high n v -> accepted_value low high n w -> real v <= real w ->
  exists i j, fill_index low high n v = Ok i /\ fill_index low high n w = Ok j /\ (i <= j)%Z.
Proof.
  unfold real, spacing.
  intros (Fl & Fh & Fv & Fw & N & L) (_ & _ & Fx & _ & _ & L2) LE. unfold is_number, real in *.
  destruct (fill_index_ok low high n v Fl Fh Fv Fw N L) as (A & B & E).
  destruct (fill_index_ok low high n w Fl Fh Fx Fw N L2) as (A2 & B2 & E2).
  eexists _, _. split; [exact E|]. split; [exact E2|]. apply index_mono; try lra.
  - apply rnd_le. lra.
  - apply IZR_le. lia.
Qed.

Lemma outside_l low high bins v : is_number low -> is_number high -> (is_number v -> real v < real low \/ real high <= real v) ->
  fill_axis low high bins v = Err EValueError.
Proof.
  intros L H O. unfold fill_axis, fill_index. assert (f_le low v && f_lt v high = false)%bool as ->; [|reflexivity].
  destruct (finite v) eqn:F.
  - specialize (O F). apply Bool.not_true_is_false. intro E. apply andb_prop in E as [E1 E2]. apply (le_ok _ _ L F) in E1. apply (lt_ok _ _ F H) in E2. unfold real in O. lra.
  - unfold is_number in L, H. unfold f_le, f_lt, b64_compare. destruct v as [| [|] | |]; try discriminate F; destruct low as [| | |]; try discriminate L; destruct high as [| | |]; try discriminate H; cbn; now rewrite ?Bool.andb_false_r.
Qed.

(** Centres and edges behind C82. *)
From Coq Require Import ZArith Reals Lra Lia List.
From Flocq Require Import Core IEEE754.BinarySingleNaN IEEE754.Binary IEEE754.Bits Relative.
From Verif Require Import Model.Base Model.FloatFill Model.FloatArray Model.FloatAxis Spec.FloatSpec Spec.FloatAxisSpec
  Proofs.FloatLemmas Proofs.FloatSums Proofs.FloatNear Proofs.FloatAxisLemmas.
Local Open Scope R_scope.
#[local] Instance p53 : Prec_gt_0 53 := eq_refl.

Section Axis.
Variables (low high : binary64) (bins : Z).
Hypothesis Fi : fine_axis low high bins.
Notation n := (IZR bins).
Notation w := (bin_width low high bins).
Notation W := (real high - real low).
Let P : plain_axis low high bins := proj1 Fi.

Lemma A_ok : - (562949953421312 * w) <= real low /\ real low + n * w <= 562949953421312 * w.
Proof.
  pose proof Fi as (_ & L & H). replace (2 ^ 49) with 562949953421312 in * by (cbn; lra). apply ab in L. apply ab in H.
  pose proof (w_n low high bins P). rewrite (Rmult_comm n). lra.
Qed.
Lemma facts : 0 < w /\ 1 <= n <= 70368744177664 /\ 0 < eta /\ eta <= u * u * w /\ n * w <= 2 * M /\ - M <= real low <= M /\ real high <= M /\ 9007199254740992 <= M /\
  real low + n * w = real high.
Proof.
  pose proof (w_pos _ _ _ P). pose proof (n_ok _ _ _ P). pose proof eta0. pose proof (w_eta _ _ _ P). pose proof (W_ok _ _ _ P) as (K & L & Hh2). pose proof M_big.
  rewrite <- (w_n _ _ _ P) in K. apply ab in L. apply ab in Hh2. pose proof (w_n _ _ _ P). lra.
Qed.
Lemma inside_of x i : (0 <= i < bins)%Z -> is_number x -> Rabs (real x - bin_centre low high bins i) <= 2 / 5 * w -> well_inside low high bins i x.
Proof.
  intros I Fx E. pose proof (i_ok _ _ I) as Ik. pose proof facts as (W0 & N & _). split; [exact Fx|].
  apply ab in E. unfold bin_centre, bin_edge in *. rewrite plus_IZR. replace (/ 2 ^ 50) with (8 * u) by (cbn; lra).
  assert (T : (IZR i + 1) * (8 * u) * w <= / 16 * w) by (apply Rmult_le_compat_r; lra).
  lra.
Qed.
Lemma both x i : (0 <= i < bins)%Z -> is_number x -> Rabs (real x - bin_centre low high bins i) <= 2 / 5 * w ->
  f_get_bin low high bins x = Ok i /\ fill_axis low high bins x = Ok i.
Proof. intros I Fx E. pose proof (inside_of x i I Fx E). split; [now apply get_bin_inside|now apply fill_inside]. Qed.

Lemma mulw_ok a ww c v : is_number a -> is_number ww -> 0 <= c -> c * w <= n * w -> Rabs (real a - c) <= (u + u * u) * c -> v = (2 * u + 10 * u * u) * w -> Rabs (real ww - w) <= v ->
  is_number (f_mul a ww) /\ Rabs (real (f_mul a ww) - c * w) <= 6 * u * (c * w) + eta.
Proof.
  intros Fa Fw C Cn Ea -> Ew. pose proof facts as (W0 & N & E0 & E1 & S & L & H & Mb & _). apply ab in Ea. apply ab in Ew.
  assert (Y0 : 0 <= c * w) by (apply Rmult_le_pos; lra).
  assert (Pr : c * w * (1 - 4 * u) <= real a * real ww <= c * w * (1 + 4 * u)).
  { split.
    - apply Rle_trans with ((c * (1 - u - u * u)) * (w * (1 - (2 * u + 10 * u * u)))).
      + replace ((c * (1 - u - u * u)) * (w * (1 - (2 * u + 10 * u * u)))) with (c * w * (1 - u - u * u) * (1 - (2 * u + 10 * u * u))) by ring. lra.
      + apply Rmult_le_compat; [apply Rmult_le_pos; lra|apply Rmult_le_pos; lra|lra|lra].
    - apply Rle_trans with ((c * (1 + u + u * u)) * (w * (1 + (2 * u + 10 * u * u)))).
      + apply Rmult_le_compat; [|lra|lra|lra]. assert (0 <= c * (1 - u - u * u)) by (apply Rmult_le_pos; lra). lra.
      + replace ((c * (1 + u + u * u)) * (w * (1 + (2 * u + 10 * u * u)))) with (c * w * (1 + u + u * u) * (1 + (2 * u + 10 * u * u))) by ring. lra. }
  destruct (mul_err a ww Fa Fw) as [F E]. { rewrite Rabs_pos_eq by lra. rewrite B_M. lra. }
  rewrite (Rabs_pos_eq (real a * real ww)) in E by lra. apply ab in E. split; [exact F|]. apply Rabs_le. lra.
Qed.

Lemma centre_l i : (0 <= i < bins)%Z -> exists c, f_get_bin_centre low high bins i = Ok c /\ is_number c /\ Rabs (real c - bin_centre low high bins i) <= w / 8.
Proof.
  intro I. destruct (width_ok _ _ _ P) as (ww & Eww & _ & Fw & Zw & Ew). pose proof facts as (W0 & N & E0 & E1 & S & L & H & Mb & _). pose proof (i_ok _ _ I) as Ik.
  unfold f_get_bin_centre. destruct (Z.ltb_spec i 0); [lia|]. destruct (Z.ltb_spec (bins - 1) i); [lia|]. rewrite Eww. cbn [rbind].
  eexists. split; [reflexivity|]. destruct half_ok as [Fh Eh]. pose proof (bins53 _ _ _ P).
  destruct (int_ok i ltac:(lia)) as [Ei F_i]. change (real (f_int i) = IZR i) in Ei.
  pose proof (n_eta _ _ _ P) as Ne. assert (N1 : eta <= u * u * u) by (assert (eta * 1 <= eta * n) by (apply Rmult_le_compat_l; lra); lra).
  destruct (add_err (f_int i) f_half F_i Fh) as [Fa Ea]. { rewrite Ei, Eh, Rabs_pos_eq, B_M by lra. lra. }
  rewrite Ei, Eh in Ea. rewrite (Rabs_pos_eq (IZR i + / 2)) in Ea by lra.
  assert (Cw : (IZR i + / 2) * w <= n * w) by (apply Rmult_le_compat_r; lra).
  destruct (mulw_ok _ ww (IZR i + / 2) _ Fa Fw ltac:(lra) Cw ltac:(lra) eq_refl Ew) as [Fm Em]. apply ab in Em.
  assert (0 <= (IZR i + / 2) * w) by (apply Rmult_le_pos; lra).
  pose proof A_ok as [A1 A2].
  assert (Nw : n * w <= 70368744177664 * w) by (apply Rmult_le_compat_r; lra).
  destruct (add_err low _ (proj1 P) Fm) as [Fc Ec]. { apply Rabs_le. rewrite B_M. lra. }
  split; [exact Fc|]. unfold bin_centre.
  assert (Ab : Rabs (real low + real (f_mul (f_add (f_int i) f_half) ww)) <= 562949953421313 * w) by (apply Rabs_le; lra).
  apply ab in Ec. apply Rabs_le. lra.
Qed.

Lemma boundaries_at k ww : Rabs (real ww - w) <= (2 * u + 10 * u * u) * w -> is_number ww -> (0 <= k < bins)%Z ->
  let y := f_add (f_mul (f_int k) ww) low in is_number y /\ Rabs (real y - bin_edge low high bins k) <= w / 8.
Proof.
  intros Ew Fw I y. pose proof facts as (W0 & N & E0 & E1 & S & L & H & Mb & _). pose proof (i_ok _ _ I) as Ik. pose proof (bins53 _ _ _ P).
  destruct (int_ok k ltac:(lia)) as [Ei F_i]. change (real (f_int k) = IZR k) in Ei.
  assert (Cw : IZR k * w <= n * w) by (apply Rmult_le_compat_r; lra).
  assert (Ea : Rabs (real (f_int k) - IZR k) <= (u + u * u) * IZR k).
  { rewrite Ei. unfold Rminus. rewrite Rplus_opp_r, Rabs_R0. apply Rmult_le_pos; lra. }
  destruct (mulw_ok (f_int k) ww (IZR k) _ F_i Fw ltac:(lra) Cw Ea eq_refl Ew) as [Fm Em].
  apply ab in Em. assert (0 <= IZR k * w) by (apply Rmult_le_pos; lra). assert (1 * w <= n * w) by (apply Rmult_le_compat_r; lra). pose proof A_ok as [A1 A2].
  assert (Nw : n * w <= 70368744177664 * w) by (apply Rmult_le_compat_r; lra).
  destruct (add_err _ low Fm (proj1 P)) as [Fc Ec]. { apply Rabs_le. rewrite B_M. lra. }
  fold y in Fc, Ec. split; [exact Fc|].
  assert (Ab : Rabs (real (f_mul (f_int k) ww) + real low) <= 562949953421313 * w) by (apply Rabs_le; lra).
  apply ab in Ec. apply Rabs_le. unfold bin_edge. lra.
Qed.
Lemma linspace_l k : (0 <= Z.of_nat k <= bins)%Z ->
  is_number (f_linspace_at low high bins k) /\ Rabs (real (f_linspace_at low high bins k) - bin_edge low high bins (Z.of_nat k)) <= w / 8 /\
  (k = 0%nat -> real (f_linspace_at low high bins k) = real low) /\ (Z.of_nat k = bins -> f_linspace_at low high bins k = high).
Proof.
  intro K. destruct (width_ok _ _ _ P) as (ww & Eww & E2 & Fw & Zw & Ew). pose proof facts as (W0 & N & E0 & E1 & S & L & H & Mb & Hn).
  unfold f_linspace_at. rewrite <- E2, Zw. destruct (Z.eqb_spec (Z.of_nat k) bins) as [E|E].
  - split; [exact (proj1 (proj2 P))|]. split; [|split; [|reflexivity]].
    + unfold bin_edge. rewrite E, <- Hn. unfold Rminus. rewrite Rplus_opp_r, Rabs_R0. lra.
    + intros ->. pose proof P as (_ & _ & B1 & _). cbn in E. lia.
  - destruct (boundaries_at (Z.of_nat k) ww Ew Fw ltac:(lia)) as [F D]. split; [exact F|]. split; [exact D|]. split; [|contradiction].
    intros ->. destruct (int_ok 0 ltac:(lia)) as [Ei F_i]. change (real (f_int (Z.of_nat 0)) = 0) in Ei.
    assert (Em : real (f_mul (f_int (Z.of_nat 0)) ww) = 0 /\ is_number (f_mul (f_int (Z.of_nat 0)) ww)).
    { destruct (mul_ok (f_int (Z.of_nat 0)) ww F_i Fw) as [Q R].
      - apply rnd_small. change (toR (f_int (Z.of_nat 0))) with (real (f_int (Z.of_nat 0))). rewrite Ei, Rmult_0_l, Rabs_R0, B_M. lra.
      - split; [|exact R]. unfold real. rewrite Q. change (toR (f_int (Z.of_nat 0))) with (real (f_int (Z.of_nat 0))). rewrite Ei, Rmult_0_l. apply rnd_id, fmt0. }
    destruct Em as [Em Fm]. destruct (add_ok (f_mul (f_int (Z.of_nat 0)) ww) low Fm (proj1 P)) as [Q _].
    + apply rnd_small. rewrite Em, Rplus_0_l. apply Rabs_le. rewrite B_M. lra.
    + rewrite Q, Em, Rplus_0_l. apply rnd_id, fmt_toR.
Qed.
Lemma linspace_lt j k : (j < k)%nat -> (Z.of_nat k <= bins)%Z -> real (f_linspace_at low high bins j) < real (f_linspace_at low high bins k).
Proof.
  intros J K. destruct (linspace_l j ltac:(lia)) as (_ & A & _). destruct (linspace_l k ltac:(lia)) as (_ & C & _).
  apply ab in A. apply ab in C. unfold bin_edge in *. pose proof facts as (W0 & _).
  assert (IZR (Z.of_nat j) + 1 <= IZR (Z.of_nat k)) by (rewrite <- plus_IZR; apply IZR_le; lia).
  assert ((IZR (Z.of_nat j) + 1) * w <= IZR (Z.of_nat k) * w) by (apply Rmult_le_compat_r; lra). lra.
Qed.
End Axis.

Lemma ceil_ok x n : is_number x -> (1 <= n <= 2 ^ 53)%Z -> IZR n - 1 < real x <= IZR n -> f_ceil x = Ok n.
Proof.
  intros F N [A C]. assert (E : f_trunc x = Ok (Btrunc 53 1024 x)) by (destruct x; cbn in *; unfold is_number in F; cbn in F; congruence).
  assert (N1 : 1 <= IZR n) by (apply IZR_le; lia).
  assert (T : Btrunc 53 1024 x = Zfloor (real x)).
  { assert (Q := trunc_ok x F). rewrite E in Q. injection Q as ->. unfold real in *. apply Ztrunc_floor. lra. }
  assert (G : f_ceil x = Ok (if f_lt (f_int (Zfloor (real x))) x then Zfloor (real x) + 1 else Zfloor (real x))%Z).
  { unfold f_ceil. rewrite <- T. destruct x; unfold is_number in F; cbn in F; try discriminate; reflexivity. }
  rewrite G. f_equal. destruct C as [C|C].
  - assert (Z : Zfloor (real x) = (n - 1)%Z) by (apply Zfloor_imp; rewrite plus_IZR, minus_IZR; lra).
    rewrite Z. destruct (int_ok (n - 1) ltac:(lia)) as [Ei F_i].
    rewrite (proj2 (lt_ok _ _ F_i F)); [lia|]. rewrite Ei, minus_IZR. exact A.
  - assert (Z : Zfloor (real x) = n) by (rewrite C; apply Zfloor_IZR).
    rewrite Z. destruct (int_ok n ltac:(lia)) as [Ei F_i].
    destruct (f_lt (f_int n) x) eqn:Q; [|reflexivity]. apply (lt_ok _ _ F_i F) in Q. rewrite Ei in Q. unfold real in C. lra.
Qed.

Section Centres.
Variables (low high : binary64) (bins : Z).
Hypothesis Vf : very_fine_axis low high bins.
Notation n := (IZR bins).
Notation w := (bin_width low high bins).
Notation W := (real high - real low).
Let P : plain_axis low high bins := proj1 Vf.
Lemma fine : fine_axis low high bins.
Proof.
  pose proof Vf as (_ & L & H). split; [exact P|]. pose proof (n_ok _ _ _ P) as N. pose proof (w_pos _ _ _ P).
  replace (2 ^ 48) with (281474976710656) in * by (cbn; lra). replace (2 ^ 49) with (562949953421312) by (cbn; lra).
  pose proof (Rabs_pos (real low)). pose proof (Rabs_pos (real high)).
  assert (1 * Rabs (real low) <= n * Rabs (real low)) by (apply Rmult_le_compat_r; lra).
  assert (1 * Rabs (real high) <= n * Rabs (real high)) by (apply Rmult_le_compat_r; lra). lra.
Qed.
Lemma centres_l : exists l, f_get_bin_centres low high bins = Ok l /\ length l = Z.to_nat bins /\
  forall k c, nth_error l k = Some c -> is_number c /\ Rabs (real c - bin_centre low high bins (Z.of_nat k)) <= w / 4.
Proof.
  destruct (width_ok _ _ _ P) as (ww & Eww & _ & Fw & Zw & Ew). pose proof (facts _ _ _ fine) as (W0 & N & E0 & E1 & S & L & H & Mb & Hn).
  destruct half_ok as [Fh Eh]. pose proof (bins53 _ _ _ P) as B53.
  assert (A0 := Vf). destruct A0 as (_ & A & _). replace (2 ^ 48) with 281474976710656 in A by (cbn; lra).
  pose proof (Rabs_pos (real low)) as Lp.
  assert (A1 : Rabs (real low) <= 281474976710656 * w).
  { assert (1 * Rabs (real low) <= n * Rabs (real low)) by (apply Rmult_le_compat_r; lra). lra. }
  set (a := Rabs (real low)) in *. assert (La : - a <= real low <= a) by (apply ab; right; reflexivity).
  assert (Nw : n * w <= 70368744177664 * w) by (apply Rmult_le_compat_r; lra).
  assert (Nw1 : 1 * w <= n * w) by (apply Rmult_le_compat_r; lra).
  apply ab in Ew.
  unfold f_get_bin_centres. rewrite Eww. cbn [rbind].
  destruct (mul_err ww f_half Fw Fh) as [Fm Em]. { rewrite Eh. apply Rabs_le. rewrite B_M. lra. }
  rewrite Eh in Em. rewrite (Rabs_pos_eq (real ww * / 2)) in Em by lra. apply ab in Em.
  destruct (add_err low _ (proj1 P) Fm) as [Fs Es]. { apply Rabs_le. rewrite B_M. lra. }
  assert (Ab : Rabs (real low + real (f_mul ww f_half)) <= a + w) by (apply Rabs_le; lra).
  apply ab in Es. set (s := f_add low (f_mul ww f_half)) in *.
  assert (Sd : - (/ 30 * w) <= real s - (real low + / 2 * w) <= / 30 * w) by lra.
  unfold f_arange. rewrite Zw.
  (* the number of entries *)
  destruct (sub_err high s (proj1 (proj2 P)) Fs) as [Fd Ed]. { apply Rabs_le. rewrite B_M. lra. }
  rewrite (Rabs_pos_eq (real high - real s)) in Ed by lra. apply ab in Ed. set (d := f_sub high s) in *.
  assert (V0 : 0 < real ww) by lra.
  assert (nww : n * w * (1 - 3 * u) <= n * real ww <= n * w * (1 + 3 * u)).
  { rewrite !Rmult_assoc. split; apply Rmult_le_compat_l; lra. }
  assert (Q : n - 3 / 4 <= real d / real ww <= n).
  { assert (X : real d / real ww * real ww = real d) by (field; lra).
    split; apply (Rmult_le_reg_r (real ww)); try exact V0; rewrite X; lra. }
  pose proof (n_eta _ _ _ P) as Ne. assert (N1 : eta <= u * u * u) by (assert (eta * 1 <= eta * n) by (apply Rmult_le_compat_l; lra); lra).
  destruct (div_err d ww Fd) as (Fq & Eq & Eqq); [lra| |]. { rewrite Rabs_pos_eq by lra. rewrite B_M. lra. }
  rewrite (Rabs_pos_eq (real d / real ww)) in Eqq by lra. apply ab in Eqq.
  rewrite (ceil_ok (f_div d ww) bins Fq); cbn [rbind].
  2: { pose proof P as (_ & _ & B1 & _). lia. }
  2: { split; [lra|]. rewrite Eq, <- (rnd_id n) by (apply fmt_int; lia). apply rnd_le. lra. }
  eexists. split; [reflexivity|]. split; [rewrite map_length, seq_length; reflexivity|].
  intros k c K. rewrite nth_error_map in K.
  assert (Kb : (k < Z.to_nat bins)%nat).
  { destruct (Nat.lt_ge_cases k (Z.to_nat bins)) as [X|X]; [exact X|]. rewrite (proj2 (nth_error_None _ _)) in K by (rewrite seq_length; lia). discriminate. }
  rewrite (nth_error_nth' _ 0%nat) in K by (rewrite seq_length; exact Kb). rewrite seq_nth in K by exact Kb. cbn [option_map Nat.add] in K. injection K as <-.
  unfold bin_centre.
  destruct (add_err s ww Fs Fw) as [Ft Et]. { apply Rabs_le. rewrite B_M. lra. }
  assert (Ab2 : Rabs (real s + real ww) <= a + 2 * w) by (apply Rabs_le; lra).
  apply ab in Et. set (t := f_add s ww) in *.
  destruct k as [|[|k]]; cbn [f_arange_at].
  - split; [exact Fs|]. cbn. apply Rabs_le. lra.
  - split; [exact Ft|]. fold t. change (IZR (Z.of_nat 1)) with 1. apply Rabs_le. lra.
  - fold t. set (kk := Z.of_nat (Datatypes.S (Datatypes.S k))) in *. assert (Kz : (0 <= kk < bins)%Z) by lia.
    pose proof (i_ok _ _ Kz) as Ik.
    destruct (sub_err t s Ft Fs) as [Fe Ee]. { apply Rabs_le. rewrite B_M. lra. }
    rewrite (Rabs_pos_eq (real t - real s)) in Ee by lra. apply ab in Ee. set (e := f_sub t s) in *.
    assert (De : w - (u * a + 7 * u * w) <= real e <= w + (u * a + 7 * u * w)) by lra.
    destruct (int_ok kk ltac:(lia)) as [Ei F_i]. change (real (f_int kk) = IZR kk) in Ei.
    assert (Ka : IZR kk * a <= 281474976710656 * w) by (apply Rle_trans with (n * a); [apply Rmult_le_compat_r; lra|exact A]).
    assert (Kw : 0 <= IZR kk * w <= n * w) by (split; [apply Rmult_le_pos; lra|apply Rmult_le_compat_r; lra]).
    assert (Ke : IZR kk * w - (/ 32 * w + 7 * u * (IZR kk * w)) <= IZR kk * real e <= IZR kk * w + (/ 32 * w + 7 * u * (IZR kk * w))).
    { assert (X1 : IZR kk * (w - (u * a + 7 * u * w)) <= IZR kk * real e) by (apply Rmult_le_compat_l; lra).
      assert (X2 : IZR kk * real e <= IZR kk * (w + (u * a + 7 * u * w))) by (apply Rmult_le_compat_l; lra).
      replace (IZR kk * (w - (u * a + 7 * u * w))) with (IZR kk * w - (u * (IZR kk * a) + 7 * u * (IZR kk * w))) in X1 by ring.
      replace (IZR kk * (w + (u * a + 7 * u * w))) with (IZR kk * w + (u * (IZR kk * a) + 7 * u * (IZR kk * w))) in X2 by ring. lra. }
    destruct (mul_err (f_int kk) e F_i Fe) as [Fp Ep]. { rewrite Ei. apply Rabs_le. rewrite B_M. lra. }
    rewrite Ei in Ep. assert (Ab3 : Rabs (IZR kk * real e) <= n * w + w) by (apply Rabs_le; lra). apply ab in Ep. set (p := f_mul (f_int kk) e) in *.
    destruct (add_err s p Fs Fp) as [Fz Ez]. { apply Rabs_le. rewrite B_M. lra. }
    assert (Ab4 : Rabs (real s + real p) <= a + n * w + 3 * w) by (apply Rabs_le; lra).
    apply ab in Ez. split; [exact Fz|]. apply Rabs_le. lra.
Qed.
End Centres.

(** ** Every accepted value *)
Section Range.
Variables (low high : binary64) (bins : Z).
Hypothesis P : plain_axis low high bins.
Notation n := (IZR bins).
Notation w := (bin_width low high bins).
Lemma value_l x : is_number x -> real low <= real x <= real high -> exists ww, 0 < real ww /\
  f_get_bin low high bins x = Ok (Zfloor (rnd (rnd (real x - real low) / real ww))) /\ 0 <= rnd (rnd (real x - real low) / real ww) < n + 1 /\
  f_width low high bins = Ok ww.
Proof.
  intros Fx [L H]. destruct (width_ok _ _ _ P) as (ww & Eww & _ & Fw & Zw & Ew). pose proof (w_pos _ _ _ P) as W0. pose proof (n_ok _ _ _ P) as N. pose proof (w_eta _ _ _ P) as We.
  pose proof (W_ok _ _ _ P) as (W1 & _). pose proof M_big as Mb. pose proof (W_eta _ _ _ P) as We2. pose proof eta0 as E0.
  pose proof (n_eta _ _ _ P) as Ne. assert (N1 : eta <= u * u * u) by (assert (eta * 1 <= eta * n) by (apply Rmult_le_compat_l; lra); lra).
  exists ww. apply ab in Ew. split; [lra|]. pose proof P as (Fl & Fh & _).
  unfold f_get_bin. destruct (f_lt x low) eqn:T1; [apply (lt_ok _ _ Fx Fl) in T1; unfold real in *; lra|].
  destruct (f_lt high x) eqn:T2; [apply (lt_ok _ _ Fh Fx) in T2; unfold real in *; lra|]. rewrite Eww. cbn [rbind]. rewrite Zw.
  assert (Bd : Rabs (real x - real low) <= B) by (rewrite Rabs_pos_eq by lra; rewrite B_M; lra).
  destruct (sub_ok x low Fx Fl (rnd_small _ Bd)) as [Ed Fd]. change (real (f_sub x low) = rnd (real x - real low)) in Ed.
  pose proof (rnd_abs (real x - real low)) as Er. rewrite (Rabs_pos_eq (real x - real low)) in Er by lra. apply ab in Er. rewrite <- Ed in *.
  assert (D0 : 0 <= real (f_sub x low)) by (rewrite Ed, <- (rnd_id 0 fmt0); apply rnd_le; lra).
  set (d := real (f_sub x low)) in *. assert (V0 : 0 < real ww) by lra.
  assert (Q0 : 0 <= d / real ww) by (apply Rmult_le_pos; [exact D0|left; now apply Rinv_0_lt_compat]).
  assert (Q1 : d / real ww <= n + / 2).
  { apply (Rmult_le_reg_r (real ww)); [exact V0|]. unfold Rdiv. rewrite Rmult_assoc, Rinv_l, Rmult_1_r by lra.
    assert (X : (n + / 2) * (w * (1 - 3 * u)) <= (n + / 2) * real ww) by (apply Rmult_le_compat_l; lra).
    assert (E : (n + / 2) * (w * (1 - 3 * u)) = (w * n + / 2 * w) * (1 - 3 * u)) by ring.
    assert (Nw : w * n <= w * 70368744177664) by (apply Rmult_le_compat_l; lra).
    pose proof (w_n _ _ _ P). lra. }
  destruct (div_err (f_sub x low) ww Fd) as (Fq & Eq & Eqq); [lra| |]. { fold d. rewrite Rabs_pos_eq by lra. rewrite B_M. lra. }
  fold d in Eq, Eqq. rewrite (Rabs_pos_eq (d / real ww)) in Eqq by lra. apply ab in Eqq.
  assert (R0 : 0 <= real (f_div (f_sub x low) ww)) by (rewrite Eq, <- (rnd_id 0 fmt0); apply rnd_le; lra).
  rewrite <- Eq. split; [|split; [split; [exact R0|lra]|reflexivity]].
  rewrite (trunc_ok _ Fq). f_equal. unfold real in *. now apply Ztrunc_floor.
Qed.
Lemma range_l x : is_number x -> real low <= real x <= real high -> exists i, f_get_bin low high bins x = Ok i /\ (0 <= i <= bins)%Z.
Proof.
  intros Fx H. destruct (value_l x Fx H) as (ww & _ & E & [R0 R1] & _). eexists. split; [exact E|]. split.
  - apply le_IZR. apply IZR_le. apply Zfloor_lub. exact R0.
  - apply Z.lt_succ_r. apply lt_IZR. rewrite succ_IZR. apply Rle_lt_trans with (2 := R1). apply Zfloor_lb.
Qed.
Lemma mono_l x y : is_number x -> is_number y -> real low <= real x -> real x <= real y -> real y <= real high ->
  exists i j, f_get_bin low high bins x = Ok i /\ f_get_bin low high bins y = Ok j /\ (i <= j)%Z.
Proof.
  intros Fx Fy L XY H. destruct (value_l x Fx ltac:(lra)) as (ww & V & E & _ & Ww). destruct (value_l y Fy ltac:(lra)) as (ww' & _ & E' & _ & Ww').
  assert (ww' = ww) by congruence. subst ww'. eexists _, _. split; [exact E|]. split; [exact E'|]. apply Zfloor_le, rnd_le.
  apply Rmult_le_compat_r; [left; now apply Rinv_0_lt_compat|]. apply rnd_le. lra.
Qed.
End Range.

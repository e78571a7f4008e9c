(** Rounding errors behind C82. *)
From Coq Require Import ZArith Reals Lra Lia List.
From Flocq Require Import Core IEEE754.BinarySingleNaN IEEE754.Binary IEEE754.Bits Relative.
From Verif Require Import Model.Base Model.FloatFill Model.FloatArray Model.FloatAxis Spec.FloatSpec Spec.FloatAxisSpec
  Proofs.FloatLemmas Proofs.FloatSums Proofs.FloatNear.
Local Open Scope R_scope.
#[local] Instance p53 : Prec_gt_0 53 := eq_refl.

(** Unit roundoff, half of the smallest number, half of the largest power. *)
Notation u := (/ 9007199254740992).
Definition eta : R := bpow radix2 (-1075).
Definition B : R := bpow radix2 1023.
Definition M : R := bpow radix2 1000.
Lemma eta0 : 0 < eta. Proof. apply bpow_gt_0. Qed.
Lemma M_big : 9007199254740992 <= M.
Proof. unfold M. replace 9007199254740992 with (bpow radix2 53) by (cbn; lra). apply bpow_le. lia. Qed.
Lemma B_M : B = 8388608 * M.
Proof. unfold B, M. change 1023%Z with (23 + 1000)%Z. rewrite bpow_plus. f_equal. Qed.
Lemma M_pow : M = 2 ^ 1000.
Proof. unfold M. rewrite bpow_powerRZ. change (IZR radix2) with 2. unfold powerRZ. f_equal. Qed.

Lemma rnd_abs x : Rabs (rnd x - x) <= u * Rabs x + eta.
Proof.
  destruct (error_N_FLT radix2 (-1074) 53 eq_refl (fun x => negb (Z.even x)) x) as (eps & e & A & C & _ & E).
  change (Znearest (fun x => negb (Z.even x))) with ZnearestE in E. rewrite E.
  replace (x * (1 + eps) + e - x) with (x * eps + e) by ring.
  eapply Rle_trans; [apply Rabs_triang|]. rewrite Rabs_mult.
  apply Rplus_le_compat.
  - rewrite Rmult_comm. apply Rmult_le_compat_r; [apply Rabs_pos|]. eapply Rle_trans; [exact A|]. unfold u_ro. cbn. lra.
  - eapply Rle_trans; [exact C|]. unfold eta. change (-1075)%Z with (-1 + -1074)%Z. rewrite bpow_plus. cbn [bpow]. apply Req_le. f_equal.
Qed.
Lemma rnd_small x : Rabs x <= B -> Rabs (rnd x) < bpow radix2 1024.
Proof.
  intro H. apply Rle_lt_trans with B; [|apply bpow_lt; lia]. apply abs_round_le_generic; [apply FLT_exp_valid; exact p53|apply valid_rnd_N|apply fmt_bpow; lia|exact H].
Qed.

Lemma add_err x y : is_number x -> is_number y -> Rabs (real x + real y) <= B ->
  is_number (f_add x y) /\ Rabs (real (f_add x y) - (real x + real y)) <= u * Rabs (real x + real y) + eta.
Proof. intros Fx Fy H. destruct (add_ok x y Fx Fy (rnd_small _ H)) as [-> F]. split; [exact F|apply rnd_abs]. Qed.
Lemma sub_err x y : is_number x -> is_number y -> Rabs (real x - real y) <= B ->
  is_number (f_sub x y) /\ Rabs (real (f_sub x y) - (real x - real y)) <= u * Rabs (real x - real y) + eta.
Proof. intros Fx Fy H. destruct (sub_ok x y Fx Fy (rnd_small _ H)) as [E F]. unfold real at 1. rewrite E. split; [exact F|apply rnd_abs]. Qed.
Lemma mul_err x y : is_number x -> is_number y -> Rabs (real x * real y) <= B ->
  is_number (f_mul x y) /\ Rabs (real (f_mul x y) - (real x * real y)) <= u * Rabs (real x * real y) + eta.
Proof. intros Fx Fy H. destruct (mul_ok x y Fx Fy (rnd_small _ H)) as [E F]. unfold real at 1. rewrite E. split; [exact F|apply rnd_abs]. Qed.
Lemma div_err x y : is_number x -> real y <> 0 -> Rabs (real x / real y) <= B ->
  is_number (f_div x y) /\ real (f_div x y) = rnd (real x / real y) /\ Rabs (real (f_div x y) - (real x / real y)) <= u * Rabs (real x / real y) + eta.
Proof. intros Fx Fy H. destruct (div_ok x y Fx Fy (rnd_small _ H)) as [E F]. change (real (f_div x y) = rnd (real x / real y)) in E. rewrite E. split; [exact F|]. split; [reflexivity|apply rnd_abs]. Qed.
Lemma half_ok : is_number f_half /\ real f_half = / 2.
Proof. split; [reflexivity|]. unfold real. cbn. unfold F2R. cbn. lra. Qed.
Lemma ab x y : Rabs x <= y -> - y <= x <= y.
Proof. apply Rabs_le_inv. Qed.

Section Axis.
Variables (low high : binary64) (bins : Z).
Hypothesis P : plain_axis low high bins.
Notation n := (IZR bins).
Notation w := (bin_width low high bins).
Notation W := (real high - real low).

Lemma n_ok : 1 <= n <= 70368744177664.
Proof. destruct P as (_ & _ & N & _). split; apply IZR_le; lia. Qed.
Lemma W_ok : 0 < W <= 2 * M /\ Rabs (real low) <= M /\ Rabs (real high) <= M.
Proof.
  destruct P as (_ & _ & _ & L & H & S). rewrite <- M_pow in L, H. split; [|tauto].
  apply ab in L. apply ab in H. assert (0 < / 2 ^ 800) by (apply Rinv_0_lt_compat, pow_lt; lra). lra.
Qed.
Lemma w_n : w * n = W.
Proof. unfold bin_width. field. pose proof n_ok. lra. Qed.
Lemma w_pos : 0 < w.
Proof. unfold bin_width. pose proof n_ok. pose proof W_ok. apply Rdiv_lt_0_compat; lra. Qed.
Lemma w_le : w <= W.
Proof. rewrite <- w_n. pose proof w_pos. pose proof n_ok. nra. Qed.
Lemma W_eta : eta <= u * u * u * u * u * W.
Proof.
  destruct P as (_ & _ & _ & _ & _ & S). apply Rle_trans with (u * u * u * u * u * / 2 ^ 800); [|apply Rmult_le_compat_l; [|exact S]].
  - replace (/ 2 ^ 800) with (bpow radix2 (-800)).
    2: { rewrite bpow_powerRZ. change (IZR radix2) with 2. unfold powerRZ. f_equal; f_equal. }
    change u with (bpow radix2 (-53)). rewrite <- !bpow_plus. apply bpow_le. lia.
  - lra.
Qed.
Lemma w_eta : eta <= u * u * u * u * w.
Proof.
  pose proof W_eta as E. rewrite <- w_n in E. pose proof n_ok. pose proof w_pos.
  apply Rle_trans with (1 := E). replace (u * u * u * u * u * (w * n)) with (u * u * u * u * w * (u * n)) by ring.
  rewrite <- (Rmult_1_r (u * u * u * u * w)) at 2. apply Rmult_le_compat_l; [|lra]. apply Rmult_le_pos; lra.
Qed.
Lemma n_eta : eta * n <= u * u * u.
Proof.
  pose proof n_ok. assert (eta <= u * u * u * u).
  { unfold eta. change u with (bpow radix2 (-53)). rewrite <- !bpow_plus. apply bpow_le. lia. }
  pose proof eta0. apply Rle_trans with (eta * 70368744177664); [apply Rmult_le_compat_l; lra|lra].
Qed.
Lemma bins53 : (0 <= bins <= 2 ^ 53)%Z.
Proof. destruct P as (_ & _ & N & _). lia. Qed.
Lemma W_err : is_number (f_sub high low) /\ Rabs (real (f_sub high low) - W) <= (u + u * u) * W.
Proof.
  destruct P as (Fl & Fh & _). pose proof W_ok. pose proof M_big.
  destruct (sub_err high low Fh Fl) as [F E].
  { rewrite B_M. rewrite Rabs_pos_eq by lra. lra. }
  split; [exact F|]. rewrite (Rabs_pos_eq W) in E by lra. pose proof W_eta. lra.
Qed.
Lemma width_ok : exists ww, f_width low high bins = Ok ww /\ ww = f_div (f_sub high low) (f_int bins) /\ is_number ww /\ f_zero ww = false /\ Rabs (real ww - w) <= (2 * u + 10 * u * u) * w.
Proof.
  destruct (int_ok bins bins53) as [En Fn]. destruct W_err as [F E]. pose proof W_ok as (W0 & _). pose proof n_ok as N. pose proof M_big.
  pose proof w_pos. pose proof w_eta. pose proof eta0.
  apply ab in E. set (V := real (f_sub high low)) in *.
  assert (D : w * (1 - u - u * u) <= V / n <= w * (1 + u + u * u)).
  { unfold bin_width, Rdiv. assert (I : 0 < / n) by (apply Rinv_0_lt_compat; lra).
    split; [apply Rle_trans with (W * (1 - u - u * u) * / n)|apply Rle_trans with (W * (1 + u + u * u) * / n)]; try (right; ring); apply Rmult_le_compat_r; lra. }
  assert (Nn : real (f_int bins) <> 0) by (unfold real; rewrite En; lra).
  destruct (div_err (f_sub high low) (f_int bins) F Nn) as (F2 & _ & E2).
  { fold V. unfold real. rewrite En. pose proof w_le. rewrite Rabs_pos_eq by lra. rewrite B_M. lra. }
  fold V in E2. unfold real at 2 3 in E2. rewrite En in E2. rewrite (Rabs_pos_eq (V / n)) in E2 by lra. apply ab in E2.
  assert (X : Rabs (real (f_div (f_sub high low) (f_int bins)) - w) <= (2 * u + 10 * u * u) * w) by (apply Rabs_le; lra).
  exists (f_div (f_sub high low) (f_int bins)). unfold f_width.
  rewrite (proj2 (zero_ok _ Fn)) by (rewrite En; lra).
  split; [reflexivity|]. split; [reflexivity|]. split; [exact F2|]. split; [|exact X].
  apply (zero_ok _ F2). change (real (f_div (f_sub high low) (f_int bins)) <> 0). apply ab in X. lra.
Qed.

Lemma trunc_at x i : is_number x -> IZR i <= real x < IZR i + 1 -> (0 <= i)%Z -> f_trunc x = Ok i.
Proof.
  intros F [A C] I. rewrite (trunc_ok _ F). f_equal. apply IZR_le in I. unfold real in *.
  rewrite Ztrunc_floor by lra. apply Zfloor_imp. rewrite plus_IZR. lra.
Qed.

Section Inside.
Variables (x : binary64) (i : Z).
Hypothesis I : (0 <= i < bins)%Z.
Hypothesis X : well_inside low high bins i x.
Notation D := (real x - real low).
Lemma i_ok : 0 <= IZR i <= n - 1.
Proof. split; [apply IZR_le; lia|]. rewrite <- minus_IZR. apply IZR_le. lia. Qed.
Lemma D_ok : IZR i * w + 8 * u * (IZR i * w + w) <= D <= (IZR i * w + w) - 8 * u * (IZR i * w + w).
Proof.
  destruct X as [_ [L H]]. unfold bin_edge in *. rewrite plus_IZR in H.
  replace (/ 2 ^ 50) with (8 * u) in * by (cbn; lra). lra.
Qed.
Lemma iw_ok : 0 <= IZR i * w /\ IZR i * w + w <= W.
Proof. pose proof i_ok. pose proof w_pos. rewrite <- w_n. split; [nra|]. replace (IZR i * w + w) with (w * (IZR i + 1)) by ring. apply Rmult_le_compat_l; lra. Qed.
Lemma D_err : is_number (f_sub x low) /\ Rabs (real (f_sub x low) - D) <= u * D + eta /\ real low < real x < real high.
Proof.
  pose proof D_ok. pose proof iw_ok. pose proof w_pos. destruct P as (Fl & _). destruct X as [Fx _]. pose proof W_ok as (W0 & _). pose proof M_big.
  destruct (sub_err x low Fx Fl) as [F E]. { rewrite Rabs_pos_eq by lra. rewrite B_M. lra. }
  rewrite (Rabs_pos_eq D) in E by lra. split; [exact F|]. split; [exact E|]. lra.
Qed.
Lemma get_bin_inside : f_get_bin low high bins x = Ok i.
Proof.
  destruct D_err as (F & E & L). pose proof D_ok as Dk. pose proof iw_ok as [Y0 Y1]. pose proof w_pos as W0. pose proof w_eta as We. pose proof eta0 as E0.
  destruct width_ok as (ww & Eww & _ & Fw & Zw & Ew). destruct P as (Fl & Fh & _). destruct X as [Fx _].
  unfold f_get_bin. destruct (f_lt x low) eqn:T1; [apply (lt_ok _ _ Fx Fl) in T1; unfold real in *; lra|].
  destruct (f_lt high x) eqn:T2; [apply (lt_ok _ _ Fh Fx) in T2; unfold real in *; lra|]. rewrite Eww. cbn [rbind]. rewrite Zw.
  apply ab in E. apply ab in Ew. set (d := real (f_sub x low)) in *. set (y := IZR i * w) in *.
  pose proof i_ok as Ik. pose proof n_ok as Nk. pose proof M_big as Mb.
  assert (V0 : 0 < real ww) by lra.
  assert (Lo : IZR i <= d / real ww).
  { apply (Rmult_le_reg_r (real ww)); [exact V0|]. unfold Rdiv. rewrite Rmult_assoc, Rinv_l, Rmult_1_r by lra.
    apply Rle_trans with (y * (1 + (2 * u + 10 * u * u))); [|lra].
    unfold y. rewrite Rmult_assoc. apply Rmult_le_compat_l; lra. }
  assert (Hi : d / real ww <= (IZR i + 1) * (1 - 2 * u)).
  { apply (Rmult_le_reg_r (real ww)); [exact V0|]. unfold Rdiv. rewrite Rmult_assoc, Rinv_l, Rmult_1_r by lra.
    apply Rle_trans with ((y + w) * (1 - 2 * u) * (1 - (2 * u + 10 * u * u))); [lra|].
    unfold y. replace (IZR i * w + w) with ((IZR i + 1) * w) by ring.
    replace ((IZR i + 1) * w * (1 - 2 * u) * (1 - (2 * u + 10 * u * u))) with ((IZR i + 1) * (1 - 2 * u) * (w * (1 - (2 * u + 10 * u * u)))) by ring.
    apply Rmult_le_compat_l; [apply Rmult_le_pos; lra|lra]. }
  destruct (div_err (f_sub x low) ww F) as (Fq & Eq & Eqq); [lra| |].
  { fold d. rewrite Rabs_pos_eq by lra. rewrite B_M. lra. }
  fold d in Eq, Eqq. rewrite (Rabs_pos_eq (d / real ww)) in Eqq by lra. apply ab in Eqq.
  apply trunc_at; [exact Fq| |lia]. split.
  - rewrite Eq, <- (rnd_id (IZR i)) by (apply fmt_int; destruct P as (_ & _ & N & _); lia). now apply rnd_le.
  - assert (eta <= u * u) by (pose proof n_eta; assert (eta * 1 <= eta * n) by (apply Rmult_le_compat_l; lra); lra). lra.
Qed.
Lemma fill_inside : fill_axis low high bins x = Ok i.
Proof.
  destruct D_err as (F & E & L). pose proof D_ok as Dk. pose proof iw_ok as [Y0 Y1]. pose proof w_pos as W0. pose proof w_eta as We. pose proof eta0 as E0.
  destruct W_err as [Fw Ew]. pose proof W_eta as WE. pose proof i_ok as Ik. pose proof n_ok as Nk. pose proof M_big as Mb. pose proof W_ok as (W2 & _). pose proof n_eta as Ne.
  assert (K : fill_index low high bins x = Ok i).
  { unfold fill_index. destruct P as (Fl & Fh & _). destruct X as [Fx _].
    rewrite (proj2 (le_ok _ _ Fl Fx)), (proj2 (lt_ok _ _ Fx Fh)) by (unfold real in *; lra). cbn [andb negb].
    apply ab in E. apply ab in Ew. set (d := real (f_sub x low)) in *. set (y := IZR i * w) in *. set (V := real (f_sub high low)) in *.
    assert (V0 : 0 < V) by lra.
    rewrite (proj2 (zero_ok _ Fw)) by (change (V <> 0); lra).
    set (s := IZR i / n). set (t := (IZR i + 1) / n).
    assert (In : 0 < / n) by (apply Rinv_0_lt_compat; lra).
    assert (In2 : u * u * u <= / n * u * u).
    { apply (Rmult_le_reg_r n); [lra|]. replace (/ n * u * u * n) with (u * u) by (field; lra). lra. }
    assert (In3 : eta <= u * u * u) by (assert (eta * 1 <= eta * n) by (apply Rmult_le_compat_l; lra); lra).
    assert (s0 : 0 <= s) by (unfold s, Rdiv; apply Rmult_le_pos; lra).
    assert (t0 : / n <= t) by (unfold t, Rdiv; rewrite <- (Rmult_1_l (/ n)) at 1; apply Rmult_le_compat_r; lra).
    assert (t1 : t <= 1) by (apply (Rmult_le_reg_r n); [lra|]; unfold t, Rdiv; rewrite Rmult_assoc, Rinv_l by lra; lra).
    assert (sW : s * W = y) by (unfold s, y, bin_width; field; lra).
    assert (tW : t * W = y + w) by (unfold t, y, bin_width; field; lra).
    assert (Lo : s * (1 + 2 * u) + 2 * eta <= d / V).
    { apply (Rmult_le_reg_r V); [exact V0|]. unfold Rdiv. rewrite Rmult_assoc, Rinv_l, Rmult_1_r by lra.
      apply Rle_trans with ((s * (1 + 2 * u) + 2 * eta) * (W * (1 + u + u * u))).
      - apply Rmult_le_compat_l; [|lra]. assert (0 <= s * (1 + 2 * u)) by (apply Rmult_le_pos; lra). lra.
      - assert (EW : eta * W <= u * u * u * w).
        { rewrite <- w_n. replace (eta * (w * n)) with (eta * n * w) by ring. apply Rmult_le_compat_r; lra. }
        replace ((s * (1 + 2 * u) + 2 * eta) * (W * (1 + u + u * u))) with ((s * W) * (1 + 2 * u) * (1 + u + u * u) + 2 * (eta * W) * (1 + u + u * u)) by ring.
        rewrite sW. lra. }
    assert (Hi : d / V <= t * (1 - 4 * u)).
    { apply (Rmult_le_reg_r V); [exact V0|]. unfold Rdiv. rewrite Rmult_assoc, Rinv_l, Rmult_1_r by lra.
      apply Rle_trans with (t * (1 - 4 * u) * (W * (1 - u - u * u))).
      - replace (t * (1 - 4 * u) * (W * (1 - u - u * u))) with ((t * W) * (1 - 4 * u) * (1 - u - u * u)) by ring. rewrite tW. lra.
      - apply Rmult_le_compat_l; [apply Rmult_le_pos; lra|lra]. }
    assert (dV : 0 <= d / V) by (assert (0 <= s * (1 + 2 * u)) by (apply Rmult_le_pos; lra); lra).
    destruct (div_err (f_sub x low) (f_sub high low) F) as (Fp & _ & Ep); [fold V; lra| |].
    { fold d V. rewrite Rabs_pos_eq by lra. rewrite B_M. lra. }
    fold d V in Ep. rewrite (Rabs_pos_eq (d / V)) in Ep by lra. apply ab in Ep. set (p := real (f_div (f_sub x low) (f_sub high low))) in *.
    destruct (int_ok bins bins53) as [En Fn].
    assert (pl : s <= p).
    { assert (0 <= (1 - u) * (d / V - (s * (1 + 2 * u) + 2 * eta))) by (apply Rmult_le_pos; lra).
      assert (0 <= s * u * (1 - 2 * u)) by (repeat apply Rmult_le_pos; lra). lra. }
    assert (ph : p <= t * (1 - 2 * u)) by lra.
    assert (pn : IZR i <= p * n <= (IZR i + 1) * (1 - 2 * u)).
    { split; [apply Rle_trans with (s * n)|apply Rle_trans with (t * (1 - 2 * u) * n)].
      - right. unfold s. field. lra.
      - apply Rmult_le_compat_r; lra.
      - apply Rmult_le_compat_r; lra.
      - right. unfold t. field. lra. }
    destruct (mul_err (f_div (f_sub x low) (f_sub high low)) (f_int bins) Fp Fn) as (Fm & Em).
    { fold p. unfold real. rewrite En. rewrite Rabs_pos_eq by lra. rewrite B_M. lra. }
    fold p in Em. unfold real at 2 3 in Em. rewrite En in Em. rewrite (Rabs_pos_eq (p * n)) in Em by lra. apply ab in Em.
    apply trunc_at; [exact Fm| |lia]. split; [|lra].
    destruct (mul_ok (f_div (f_sub x low) (f_sub high low)) (f_int bins) Fp Fn) as (Eq & _).
    { fold (real (f_div (f_sub x low) (f_sub high low))). fold p. rewrite En. apply rnd_small. rewrite Rabs_pos_eq by lra. rewrite B_M. lra. }
    unfold real. rewrite Eq, En. fold (real (f_div (f_sub x low) (f_sub high low))). fold p.
    rewrite <- (rnd_id (IZR i)) by (apply fmt_int; destruct P as (_ & _ & N & _); lia). now apply rnd_le. }
  unfold fill_axis. rewrite K. cbn [rbind]. destruct (Z.leb_spec 0 i); [|lia]. destruct (Z.ltb_spec i bins); [reflexivity|lia].
Qed.
End Inside.
End Axis.

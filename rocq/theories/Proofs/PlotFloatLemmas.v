(** Rounding facts behind C72. *)
From Coq Require Import ZArith Reals Lra Lia.
From Flocq Require Import Core IEEE754.BinarySingleNaN IEEE754.Binary IEEE754.Bits Plus_error.
From Verif Require Import Model.Base Model.FloatFill Model.Plot Spec.FloatSpec Proofs.FloatLemmas.
Local Open Scope R_scope.
Local Instance prec53 : Prec_gt_0 53 := eq_refl.

Lemma hist_exact_l low high n w : is_number low -> is_number high -> is_number (f_sub high low) -> real low < real high ->
  (1 <= n <= 2 ^ 53)%Z -> is_number w -> real w * IZR n = real (f_sub high low) -> f_hist_ok low high n = true.
Proof.
  unfold is_number, real. intros Fl Fh Fd Lt N Fw E.
  destruct (int_ok n) as [In Fn]; [lia|].
  assert (N0 : IZR n <> 0) by (apply not_0_IZR; lia).
  assert (D0 : toR (f_sub high low) <> 0).
  { pose proof (sub_finite high low Fh Fl Fd) as B. destruct (sub_ok high low Fh Fl B) as [S _]. rewrite S.
    intro Z. assert (H : toR high + - toR low <> 0) by lra. revert Z.
    exact (round_plus_neq_0 radix2 fexp ZnearestE _ _ (fmt_toR high) (generic_format_opp radix2 fexp _ (fmt_toR low)) H). }
  set (d := f_sub high low) in *.
  assert (Q : toR d / IZR n = toR w) by (rewrite <- E; field; exact N0).
  assert (Aw : Rabs (rnd (toR d / toR (f_int n))) < bpow radix2 1024).
  { rewrite In, Q, rnd_id by apply fmt_toR. apply abs_B2R_lt_emax. }
  destruct (div_ok d (f_int n) Fd) as [W Fw']; [rewrite In; exact N0|exact Aw|].
  rewrite In, Q, rnd_id in W by apply fmt_toR.
  assert (W0 : toR w <> 0) by (intro Z; apply D0; rewrite <- E, Z; ring).
  fold (f_width low high n) in W. unfold f_hist_ok, f_arange_len. fold (f_width low high n).
  change (f_sub high low) with d. set (wd := f_width low high n) in *.
  assert (Wd : toR wd = toR w) by exact W.
  assert (Q2 : toR d / toR wd = IZR n) by (rewrite Wd, <- E; field; exact W0).
  assert (Aq : Rabs (rnd (toR d / toR wd)) < bpow radix2 1024).
  { rewrite Q2, rnd_id by (apply fmt_int; lia). rewrite <- abs_IZR. apply Rle_lt_trans with (2 := big). rewrite <- two53. apply IZR_le. lia. }
  destruct (div_ok d wd Fd) as [V Fq]; [rewrite Wd; exact W0|exact Aq|].
  rewrite Q2, rnd_id in V by (apply fmt_int; lia).
  cbv zeta. set (q := f_div d wd) in *. rewrite (trunc_ok q Fq), V, Ztrunc_IZR.
  assert (L : f_lt (f_int n) q = false).
  { destruct (f_lt (f_int n) q) eqn:LE; [|reflexivity]. apply (lt_ok _ _ Fn Fq) in LE. rewrite In, V in LE. lra. }
  rewrite L. apply Z.eqb_eq. lia.
Qed.

(** Rounding errors behind C89. *)
From Coq Require Import ZArith Reals Lra Lia List.
From Flocq Require Import Core IEEE754.BinarySingleNaN IEEE754.Binary IEEE754.Bits Relative.
From Verif Require Import Model.Base Model.FloatFill Model.FloatArray Model.FloatAxis Model.FloatShrink Spec.FloatSpec Spec.FloatAxisSpec Spec.FloatShrinkSpec
  Proofs.FloatLemmas Proofs.FloatSums Proofs.FloatNear Proofs.FloatAxisLemmas Proofs.FloatAxisCentres.
Local Open Scope R_scope.
#[local] Instance p53' : Prec_gt_0 53 := eq_refl.
Notation u := (/ 9007199254740992).

Lemma int_abs n : (Z.abs n <= 2 ^ 53)%Z -> real (f_int n) = IZR n /\ is_number (f_int n).
Proof.
  intro N. pose proof (binary_normalize_correct 53 1024 eq_refl eq_refl mode_NE n 0 false) as C.
  change (SpecFloat.fexp 53 1024) with fexp in C. cbn [round_mode] in C.
  assert (E : F2R (Float radix2 n 0) = IZR n) by (unfold F2R; cbn; ring).
  rewrite E in C. rewrite (rnd_id (IZR n)) in C by (apply fmt_int; lia).
  rewrite Rlt_bool_true in C.
  - destruct C as (C1 & C2 & _). split; assumption.
  - rewrite <- abs_IZR. apply Rle_lt_trans with (2 := big). rewrite <- two53. apply IZR_le. lia.
Qed.
Lemma abs_ok x : is_number x -> is_number (f_abs x) /\ real (f_abs x) = Rabs (real x).
Proof.
  intro F. destruct x as [s|s|s pl e|s m e b]; unfold is_number in *; cbn in F; try discriminate; cbn [f_abs].
  - split; [reflexivity|]. unfold real. cbn. now rewrite Rabs_R0.
  - split; [reflexivity|]. unfold real. cbn [B2R]. rewrite <- F2R_Zabs. f_equal. cbn [Fnum Fexp]. now destruct s.
Qed.
Lemma f0_ok : is_number f_0 /\ real f_0 = 0.
Proof. split; reflexivity. Qed.
Lemma f99_ok : is_number f_99 /\ Rabs (real f_99 - 99 / 100) <= u.
Proof. split; [reflexivity|]. unfold real. cbn. unfold F2R. cbn. apply Rabs_le. lra. Qed.

(** The nearest integer, away from halves. *)
Lemma btrunc x : is_number x -> Btrunc 53 1024 x = Ztrunc (real x).
Proof.
  intro F. assert (E : f_trunc x = Ok (Btrunc 53 1024 x)) by (destruct x; unfold is_number in F; cbn in *; congruence).
  rewrite (trunc_ok x F) in E. unfold real. now injection E.
Qed.
Lemma trunc_cases x n : Rabs (x - IZR n) <= / 4 ->
  (Ztrunc x = n \/ Ztrunc x = (n - 1)%Z /\ x < IZR n \/ Ztrunc x = (n + 1)%Z /\ IZR n < x).
Proof.
  intro D. apply ab in D. destruct (Rle_dec 0 x) as [P|P].
  - rewrite Ztrunc_floor by exact P. destruct (Rle_dec (IZR n) x) as [L|L].
    + left. apply Zfloor_imp. rewrite plus_IZR. lra.
    + right. left. split; [|lra]. apply Zfloor_imp. rewrite plus_IZR, minus_IZR. lra.
  - rewrite Ztrunc_ceil by lra. destruct (Rle_dec x (IZR n)) as [L|L].
    + left. apply Zceil_imp. rewrite minus_IZR. lra.
    + right. right. split; [|lra]. apply Zceil_imp. rewrite minus_IZR, plus_IZR. lra.
Qed.
Lemma eta_small : eta <= u.
Proof. unfold eta. change u with (bpow radix2 (-53)). apply bpow_le. lia. Qed.
Lemma B_big : 9007199254740992 <= B.
Proof. rewrite B_M. pose proof M_big. lra. Qed.
Lemma round_ok x n : is_number x -> (Z.abs n <= 2 ^ 50)%Z -> Rabs (real x - IZR n) <= / 4 -> f_round x = f_int n.
Proof.
  intros F N D.
  assert (G : f_round x = let t := Ztrunc (real x) in let d := f_sub x (f_int t) in f_int (if f_le f_half d then t + 1 else if f_le d (f_sub f_0 f_half) then t - 1 else t)%Z).
  { unfold f_round. rewrite <- (btrunc x F). destruct x; unfold is_number in F; cbn in F; try discriminate; reflexivity. }
  rewrite G. cbv zeta. clear G. pose proof (trunc_cases _ _ D) as C. apply ab in D. pose proof eta_small as E0. pose proof eta0 as E1.
  destruct half_ok as [Fh Eh]. assert (Fm : is_number (f_sub f_0 f_half)) by reflexivity. assert (Em : real (f_sub f_0 f_half) = - / 2) by (unfold real; cbn; unfold F2R; cbn; lra).
  assert (S : forall t, (Z.abs t <= 2 ^ 51)%Z -> Rabs (real x - IZR t) <= 1 -> is_number (f_sub x (f_int t)) /\ Rabs (real (f_sub x (f_int t)) - (real x - IZR t)) <= / 8).
  { intros t T L. destruct (int_abs t ltac:(lia)) as [Et Ft]. destruct (sub_err x (f_int t) F Ft) as [Fd Ed]; rewrite Et in *.
    - apply Rle_trans with (1 := L). pose proof B_big. lra.
    - split; [exact Fd|]. apply Rle_trans with (1 := Ed). pose proof (Rabs_pos (real x - IZR t)). lra. }
  destruct C as [T|[(T & L)|(T & L)]]; rewrite T.
  - destruct (S n ltac:(lia) ltac:(apply Rabs_le; lra)) as [Fd Ed]. apply ab in Ed.
    destruct (f_le f_half _) eqn:C1; [apply (le_ok _ _ Fh Fd) in C1; unfold real in *; lra|].
    destruct (f_le _ (f_sub f_0 f_half)) eqn:C2; [apply (le_ok _ _ Fd Fm) in C2; unfold real in *; lra|]. reflexivity.
  - destruct (S (n - 1)%Z ltac:(lia) ltac:(rewrite minus_IZR; apply Rabs_le; lra)) as [Fd Ed]. rewrite minus_IZR in Ed. apply ab in Ed.
    rewrite (proj2 (le_ok _ _ Fh Fd)) by (unfold real in *; lra). f_equal. lia.
  - destruct (S (n + 1)%Z ltac:(lia) ltac:(rewrite plus_IZR; apply Rabs_le; lra)) as [Fd Ed]. rewrite plus_IZR in Ed. apply ab in Ed.
    destruct (f_le f_half _) eqn:C1; [apply (le_ok _ _ Fh Fd) in C1; unfold real in *; lra|].
    rewrite (proj2 (le_ok _ _ Fd Fm)) by (unfold real in *; lra). f_equal. lia.
Qed.
Lemma trunc0 x : is_number x -> -1 < real x < 1 -> f_trunc x = Ok 0%Z.
Proof.
  intros F D. rewrite (trunc_ok _ F). f_equal. change (Ztrunc (real x) = 0%Z). destruct (Rle_dec 0 (real x)) as [P|P].
  - rewrite Ztrunc_floor by exact P. apply Zfloor_imp. cbn. lra.
  - rewrite Ztrunc_ceil by lra. apply Zceil_imp. cbn. lra.
Qed.
Lemma ceil0 x : is_number x -> -1 < real x <= 0 -> f_ceil x = Ok 0%Z.
Proof.
  intros F D. assert (T : Btrunc 53 1024 x = 0%Z). { rewrite (btrunc x F). rewrite Ztrunc_ceil by lra. apply Zceil_imp. cbn. lra. }
  assert (G : f_ceil x = Ok (if f_lt (f_int 0) x then 1 else 0)%Z).
  { unfold f_ceil. rewrite T. destruct x; unfold is_number in F; cbn in F; try discriminate; reflexivity. }
  rewrite G. destruct (int_abs 0 ltac:(lia)) as [E0 F0]. destruct (f_lt (f_int 0) x) eqn:Q; [|reflexivity]. apply (lt_ok _ _ F0 F) in Q. unfold real in *. lra.
Qed.

Section Shrink.
Variables (low high : binary64) (bins : Z).
Hypothesis P : plain_axis low high bins.
Notation w := (bin_width low high bins).
Notation n := (IZR bins).
Notation edge := (bin_edge low high bins).
Hypothesis HL : Rabs (real low) <= 68719476736 * w.
Hypothesis HH : Rabs (real high) <= 68719476736 * w.
Variable m : Z.
Hypothesis A : Rabs (real low - IZR m * w) <= / 1000 * w.

Lemma n_le : n <= 137438953472.
Proof.
  pose proof (w_n _ _ _ P) as E. pose proof (w_pos _ _ _ P) as W0. apply ab in HL. apply ab in HH.
  apply (Rmult_le_reg_l w); [exact W0|]. lra.
Qed.
Lemma m_le : (Z.abs m <= 68719476737)%Z.
Proof.
  pose proof (w_pos _ _ _ P) as W0. apply ab in HL. apply ab in A. assert (- 68719476737 <= IZR m <= 68719476737) as [X Y].
  { split; apply (Rmult_le_reg_r w); try exact W0; lra. }
  apply le_IZR in X. apply le_IZR in Y. lia.
Qed.
(** a quotient by the width *)
Lemma quot a R0 e ww : is_number a -> is_number ww -> Rabs (real ww - w) <= (2 * u + 10 * u * u) * w -> Rabs (real a - R0) <= e * w -> 0 <= e <= 1 / 1000 -> Rabs R0 <= 274877906944 * w ->
  is_number (f_div a ww) /\ Rabs (real (f_div a ww) - R0 / w) <= 2 * e + / 2000.
Proof.
  intros Fa Fw Ew Ea He HR. pose proof (w_pos _ _ _ P) as W0. apply ab in Ew. apply ab in Ea. apply ab in HR. assert (V : w / 2 <= real ww <= 2 * w) by lra.
  assert (Q : Rabs (real a / real ww - R0 / w) <= 2 * e + / 4000).
  { assert (Id : real a / real ww - R0 / w = ((real a - R0) - R0 / w * (real ww - w)) / real ww) by (field; lra).
    assert (K : - 274877906944 <= R0 / w <= 274877906944).
    { split; apply (Rmult_le_reg_r w); try exact W0; unfold Rdiv; rewrite Rmult_assoc, Rinv_l, Rmult_1_r by lra; lra. }
    assert (Pr : Rabs (R0 / w * (real ww - w)) <= 274877906944 * ((2 * u + 10 * u * u) * w)).
    { rewrite Rabs_mult. apply Rmult_le_compat; try apply Rabs_pos; apply Rabs_le; lra. }
    apply ab in Pr. rewrite Id. unfold Rdiv. rewrite Rabs_mult. rewrite (Rabs_pos_eq (/ real ww)) by (left; apply Rinv_0_lt_compat; lra).
    apply (Rmult_le_reg_r (real ww)); [lra|]. rewrite Rmult_assoc, Rinv_l, Rmult_1_r by lra.
    apply Rle_trans with ((2 * e + / 4000) * (w / 2)).
    - apply Rabs_le. fold (R0 / w). lra.
    - apply Rmult_le_compat_l; lra. }
  assert (K : Rabs (R0 / w) <= 274877906944).
  { unfold Rdiv. rewrite Rabs_mult, (Rabs_pos_eq (/ w)) by (left; apply Rinv_0_lt_compat; lra). apply (Rmult_le_reg_r w); [lra|]. rewrite Rmult_assoc, Rinv_l, Rmult_1_r by lra. apply Rabs_le. lra. }
  apply ab in Q. apply ab in K. pose proof B_big. pose proof eta_small.
  assert (G : Rabs (real a / real ww) <= 274877906945) by (apply Rabs_le; lra).
  destruct (div_err a ww Fa ltac:(lra)) as (Fq & _ & Eq). { lra. }
  split; [exact Fq|]. apply ab in Eq. apply Rabs_le. lra.
Qed.

Variable ww : binary64.
Hypothesis Fw : is_number ww.
Hypothesis Zw : f_zero ww = false.
Hypothesis Ew : Rabs (real ww - w) <= (2 * u + 10 * u * u) * w.
Hypothesis Eww : f_width low high bins = Ok ww.

(** an integer times the width *)
Lemma times b : (Z.abs b <= 2 ^ 38)%Z -> Rabs (IZR b * w) <= 1000 * M ->
  is_number (f_mul (f_int b) ww) /\ Rabs (real (f_mul (f_int b) ww) - IZR b * w) <= / 5000 * w.
Proof.
  intros Hb HM. destruct (int_abs b ltac:(lia)) as [Eb Fb]. pose proof (w_pos _ _ _ P) as W0. pose proof (w_eta _ _ _ P) as We. pose proof eta0.
  assert (K : -274877906944 <= IZR b <= 274877906944) by (split; apply IZR_le; lia). apply ab in Ew.
  assert (Pr : Rabs (IZR b * (real ww - w)) <= 274877906944 * ((2 * u + 10 * u * u) * w)) by (rewrite Rabs_mult; apply Rmult_le_compat; try apply Rabs_pos; apply Rabs_le; lra).
  assert (Pb : Rabs (IZR b * w) <= 274877906944 * w) by (rewrite Rabs_mult, (Rabs_pos_eq w) by lra; apply Rmult_le_compat_r; [lra|apply Rabs_le; lra]).
  pose proof (w_le _ _ _ P) as WL. pose proof (W_ok _ _ _ P) as (W2 & _).
  apply ab in Pr. apply ab in Pb. apply ab in HM. replace (IZR b * (real ww - w)) with (IZR b * real ww - IZR b * w) in Pr by ring.
  set (Y := IZR b * w) in *. assert (EZ : real (f_int b) * real ww = IZR b * real ww) by (rewrite Eb; reflexivity). set (Z := IZR b * real ww) in *.
  assert (ZB : Rabs Z <= 274877906945 * w) by (apply Rabs_le; lra).
  destruct (mul_err (f_int b) ww Fb Fw) as [Fp Ep].
  { rewrite EZ, B_M. pose proof M_big. apply Rabs_le. lra. }
  split; [exact Fp|]. rewrite EZ in Ep. apply ab in Ep. apply Rabs_le. lra.
Qed.
Lemma edge_f b : (0 <= b <= bins + 1)%Z -> is_number (f_edge low ww b) /\ Rabs (real (f_edge low ww b) - edge b) <= / 4000 * w.
Proof.
  intro Hb. pose proof (w_pos _ _ _ P) as W0. pose proof (w_eta _ _ _ P) as We. pose proof eta0. pose proof n_le as N. pose proof (w_n _ _ _ P) as WN. pose proof (W_ok _ _ _ P) as (W2 & L2 & _). pose proof (w_le _ _ _ P) as WL.
  assert (B1 : 0 <= IZR b <= n + 1) by (split; [apply IZR_le; lia|rewrite <- plus_IZR; apply IZR_le; lia]).
  assert (Y1 : 0 <= IZR b * w <= w * n + w). { split; [apply Rmult_le_pos; lra|]. replace (w * n + w) with ((n + 1) * w) by ring. apply Rmult_le_compat_r; lra. }
  assert (Bz : (bins <= 2 ^ 37)%Z) by (apply le_IZR; exact N). pose proof M_big.
  destruct (times b ltac:(lia) ltac:(apply Rabs_le; lra)) as [Fp Ep].
  assert (Y2 : IZR b * w <= 137438953473 * w) by (apply Rmult_le_compat_r; lra).
  apply ab in Ep. apply ab in HL. apply ab in L2. destruct P as (Fl & _). set (Y := IZR b * w) in *. set (p := real (f_mul (f_int b) ww)) in *.
  assert (SB : Rabs (real low + p) <= 274877906944 * w) by (apply Rabs_le; lra).
  destruct (add_err low (f_mul (f_int b) ww) Fl Fp) as [Fs Es].
  { fold p. rewrite B_M. apply Rabs_le. lra. }
  split; [exact Fs|]. fold p in Es. apply ab in Es. unfold f_edge, bin_edge. fold Y. apply Rabs_le. lra.
Qed.
Lemma round_f b : (0 <= b <= bins + 1)%Z -> exists e, f_sp_round low high bins (f_edge low ww b) = Ok e /\ is_number e /\ Rabs (real e - edge b) <= / 800 * w.
Proof.
  intro Hb. destruct (edge_f b Hb) as [Fe Ee]. pose proof (w_pos _ _ _ P) as W0. pose proof n_le as N. pose proof (w_n _ _ _ P) as WN. pose proof (W_ok _ _ _ P) as (W2 & L2 & _). pose proof (w_le _ _ _ P) as WL. pose proof M_big.
  assert (B1 : 0 <= IZR b <= n + 1) by (split; [apply IZR_le; lia|rewrite <- plus_IZR; apply IZR_le; lia]).
  assert (Y1 : 0 <= IZR b * w <= w * n + w). { split; [apply Rmult_le_pos; lra|]. replace (w * n + w) with ((n + 1) * w) by ring. apply Rmult_le_compat_r; lra. }
  assert (Y2 : IZR b * w <= 137438953473 * w) by (apply Rmult_le_compat_r; lra).
  assert (Bz : (bins <= 2 ^ 37)%Z) by (apply le_IZR; exact N). pose proof m_le as Mz.
  unfold f_sp_round. rewrite Eww. cbn [rbind]. rewrite Zw.
  apply ab in HL. apply ab in A.
  destruct (quot (f_edge low ww b) (edge b) (/ 4000) ww Fe Fw Ew Ee ltac:(lra)) as [Fq Eq].
  { unfold bin_edge. apply Rabs_le. lra. }
  assert (R : f_round (f_div (f_edge low ww b) ww) = f_int (m + b)).
  { apply round_ok; [exact Fq|lia|]. apply ab in Eq. rewrite plus_IZR.
    assert (D : Rabs (edge b / w - (IZR m + IZR b)) <= / 1000).
    { replace (edge b / w - (IZR m + IZR b)) with ((real low - IZR m * w) / w) by (unfold bin_edge; field; lra). unfold Rdiv. rewrite Rabs_mult, (Rabs_pos_eq (/ w)) by (left; apply Rinv_0_lt_compat; lra).
      apply (Rmult_le_reg_r w); [lra|]. rewrite Rmult_assoc, Rinv_l, Rmult_1_r by lra. apply Rabs_le. lra. }
    apply ab in D. apply Rabs_le. lra. }
  rewrite R. apply ab in L2.
  assert (MB : IZR (m + b) * w = IZR m * w + IZR b * w) by (rewrite plus_IZR; ring).
  destruct (times (m + b) ltac:(lia)) as [Ft Et]. { rewrite MB. apply Rabs_le. lra. }
  exists (f_mul (f_int (m + b)) ww). split; [reflexivity|]. split; [exact Ft|]. rewrite MB in Et. apply ab in Et. unfold bin_edge. apply Rabs_le. lra.
Qed.
(** comparing a new bound with the one asked for *)
Lemma compare e x c : is_number e -> is_number x -> Rabs (real e - real x - c * w) <= / 500 * w -> Rabs c <= 2 -> Rabs (real e) <= 100 * M -> Rabs (real x) <= 100 * M ->
  (Rabs c <= 98 / 100 -> f_lt (f_mul f_99 ww) (f_abs (f_sub e x)) = false) /\
  (995 / 1000 <= Rabs c -> f_lt (f_mul f_99 ww) (f_abs (f_sub e x)) = true /\ (0 < c -> f_lt f_0 (f_sub e x) = true) /\ (c < 0 -> f_lt f_0 (f_sub e x) = false)).
Proof.
  intros Fe Fx D C Me Mx. pose proof (w_pos _ _ _ P) as W0. pose proof (w_eta _ _ _ P) as We. pose proof eta0. pose proof M_big. pose proof (W_ok _ _ _ P) as (W2 & _). pose proof (w_le _ _ _ P) as WL.
  destruct f99_ok as [F9 E9]. apply ab in E9. apply ab in Ew. apply ab in Me. apply ab in Mx.
  assert (Pr : 98 / 100 * w + / 200 * w <= real f_99 * real ww <= 9901 / 10000 * w).
  { split; [apply Rle_trans with ((99 / 100 - u) * ((1 - (2 * u + 10 * u * u)) * w)); [lra|apply Rmult_le_compat; lra]|
            apply Rle_trans with ((99 / 100 + u) * ((1 + (2 * u + 10 * u * u)) * w)); [apply Rmult_le_compat; lra|lra]]. }
  destruct (mul_err f_99 ww F9 Fw) as [Ft Et]. { rewrite B_M. apply Rabs_le. lra. }
  destruct (sub_err e x Fe Fx) as [Fd Ed]. { rewrite B_M. apply Rabs_le. lra. }
  assert (CW : Rabs (c * w) = Rabs c * w) by (rewrite Rabs_mult, (Rabs_pos_eq w) by lra; reflexivity).
  assert (CB : Rabs c * w <= 2 * w) by (apply Rmult_le_compat_r; lra).
  assert (X : Rabs (real e - real x) <= 3 * w). { apply Rle_trans with (Rabs (real e - real x - c * w) + Rabs (c * w)); [|lra]. replace (real e - real x) with ((real e - real x - c * w) + c * w) at 1 by ring. apply Rabs_triang. }
  assert (Dd : Rabs (real (f_sub e x) - c * w) <= / 400 * w).
  { replace (real (f_sub e x) - c * w) with ((real (f_sub e x) - (real e - real x)) + (real e - real x - c * w)) by ring. eapply Rle_trans; [apply Rabs_triang|]. lra. }
  rewrite (Rabs_pos_eq (real f_99 * real ww)) in Et by lra. apply ab in Et.
  destruct (abs_ok _ Fd) as [Fa Ea]. destruct f0_ok as [F0 E0].
  assert (Ab : Rabs (Rabs (real (f_sub e x)) - Rabs (c * w)) <= / 400 * w) by (eapply Rle_trans; [apply Rabs_triang_inv2|exact Dd]).
  apply ab in Ab. rewrite CW in Ab. apply ab in Dd. split; [intro K|intro K; split; [|split; intro S]].
  - assert (Rabs c * w <= 98 / 100 * w) by (apply Rmult_le_compat_r; lra).
    destruct (f_lt _ _) eqn:T; [|reflexivity]. apply (lt_ok _ _ Ft Fa) in T. change (real (f_mul f_99 ww) < real (f_abs (f_sub e x))) in T. rewrite Ea in T. lra.
  - assert (995 / 1000 * w <= Rabs c * w) by (apply Rmult_le_compat_r; lra).
    apply (lt_ok _ _ Ft Fa). change (real (f_mul f_99 ww) < real (f_abs (f_sub e x))). rewrite Ea. lra.
  - rewrite Rabs_pos_eq in K by lra. assert (995 / 1000 * w <= c * w) by (apply Rmult_le_compat_r; lra).
    apply (lt_ok _ _ F0 Fd). change (real f_0 < real (f_sub e x)). lra.
  - rewrite Rabs_left in K by lra. assert (c * w <= - (995 / 1000) * w) by (apply Rmult_le_compat_r; lra).
    destruct (f_lt _ _) eqn:T; [|reflexivity]. apply (lt_ok _ _ F0 Fd) in T. change (real f_0 < real (f_sub e x)) in T. lra.
Qed.
Lemma edge_s b : edge (b + 1) = edge b + w.
Proof. unfold bin_edge. rewrite plus_IZR. ring. Qed.
Lemma edge_p b : edge (b - 1) = edge b - w.
Proof. unfold bin_edge. rewrite minus_IZR. ring. Qed.
Lemma edge_m b : (0 <= b <= bins + 1)%Z -> Rabs (edge b) <= 10 * M.
Proof.
  intro Hb. pose proof (w_pos _ _ _ P) as W0. pose proof (w_n _ _ _ P) as WN. pose proof (W_ok _ _ _ P) as (W2 & L2 & _). pose proof (w_le _ _ _ P) as WL.
  assert (B1 : 0 <= IZR b <= n + 1) by (split; [apply IZR_le; lia|rewrite <- plus_IZR; apply IZR_le; lia]).
  assert (Y1 : 0 <= IZR b * w <= w * n + w). { split; [apply Rmult_le_pos; lra|]. replace (w * n + w) with ((n + 1) * w) by ring. apply Rmult_le_compat_r; lra. }
  apply ab in L2. unfold bin_edge. apply Rabs_le. lra.
Qed.
(** the place of a bound in units of bins *)
Lemma place_f x i r s : is_number x -> (0 <= i <= bins)%Z -> edge i + r * w <= real x <= edge i + s * w -> -1 <= r -> s <= 1 ->
  is_number (f_div (f_sub x low) ww) /\ IZR i + r - / 1000 <= real (f_div (f_sub x low) ww) <= IZR i + s + / 1000 /\
  Rabs (real (f_div (f_sub x low) ww) - (real x - real low) / w) <= / 1000.
Proof.
  intros Fx Hi X R1 S1. pose proof (w_pos _ _ _ P) as W0. pose proof (w_eta _ _ _ P) as We. pose proof eta0. pose proof n_le as N. pose proof (w_n _ _ _ P) as WN. pose proof (W_ok _ _ _ P) as (W2 & L2 & _). pose proof (w_le _ _ _ P) as WL. pose proof M_big.
  assert (I1 : 0 <= IZR i <= n) by (split; apply IZR_le; lia).
  assert (Y1 : 0 <= IZR i * w <= w * n). { split; [apply Rmult_le_pos; lra|]. rewrite Rmult_comm. apply Rmult_le_compat_l; lra. }
  assert (Y2 : IZR i * w <= 137438953472 * w) by (apply Rmult_le_compat_r; lra).
  assert (Rw : - 1 * w <= r * w) by (apply Rmult_le_compat_r; lra). assert (Sw : s * w <= 1 * w) by (apply Rmult_le_compat_r; lra).
  unfold bin_edge in X. destruct P as (Fl & _). destruct (sub_err x low Fx Fl) as [Fd Ed]. { rewrite B_M. apply Rabs_le. lra. }
  assert (DB : Rabs (real x - real low) <= 274877906944 * w) by (apply Rabs_le; lra).
  destruct (quot (f_sub x low) (real x - real low) (/ 8000) ww Fd Fw Ew) as [Fq Eq]; [apply Rle_trans with (1 := Ed); lra|lra|exact DB|].
  split; [exact Fq|]. assert (E2 : Rabs (real (f_div (f_sub x low) ww) - (real x - real low) / w) <= / 1000) by lra. split; [|exact E2]. apply ab in E2.
  assert (K : IZR i + r <= (real x - real low) / w <= IZR i + s).
  { split; apply (Rmult_le_reg_r w); try exact W0; unfold Rdiv; rewrite (Rmult_assoc _ (/ w) w), Rinv_l, Rmult_1_r by lra; lra. }
  lra.
Qed.
Lemma low_l i lo : (0 <= i <= bins)%Z -> lower_request low high bins i lo ->
  exists lb e nl, f_trunc (f_div (f_sub lo low) ww) = Ok lb /\ f_sp_round low high bins (f_edge low ww lb) = Ok e /\
    (if f_lt (f_mul f_99 ww) (f_abs (f_sub e lo)) then let b := (if f_lt f_0 (f_sub e lo) then lb - 1 else lb + 1)%Z in (b, f_edge low ww b) else (lb, e)) = (i, nl) /\
    is_number nl /\ Rabs (real nl - edge i) <= / 500 * w.
Proof.
  intros Hi (Fx & X). rewrite edge_s in X. pose proof (w_pos _ _ _ P) as W0. pose proof (W_ok _ _ _ P) as (W2 & _). pose proof (w_le _ _ _ P) as WL. pose proof M_big.
  pose proof (edge_m i ltac:(lia)) as Em. apply ab in Em.
  destruct (place_f lo i (- / 200) (49 / 50) Fx Hi) as (Fq & Q & Qd); try lra. set (q := f_div (f_sub lo low) ww) in *.
  assert (XM : Rabs (real lo) <= 100 * M) by (apply Rabs_le; lra).
  assert (C : f_trunc q = Ok i \/ f_trunc q = Ok (i - 1)%Z /\ (1 <= i)%Z /\ real q < IZR i).
  { destruct (Rle_dec (IZR i) (real q)) as [L|L]; [left; apply trunc_at; [exact Fq|lra|lia]|].
    destruct (Z.eq_dec i 0) as [-> |NZ]; [left; apply trunc0; [exact Fq|lra]|]. right. split; [|split; [lia|lra]]. apply trunc_at; [exact Fq|rewrite minus_IZR; lra|lia]. }
  destruct C as [T|(T & I1 & L)]; rewrite T.
  - destruct (round_f i ltac:(lia)) as (e & Re & Fe & Ee). exists i, e, e. split; [reflexivity|]. split; [exact Re|].
    assert (EM : Rabs (real e) <= 100 * M) by (apply ab in Ee; apply Rabs_le; lra).
    destruct (compare e lo ((edge i - real lo) / w) Fe Fx) as [C1 _]; try assumption.
    + replace (real e - real lo - (edge i - real lo) / w * w) with (real e - edge i) by (field; lra). lra.
    + apply Rabs_le. split; apply (Rmult_le_reg_r w); try exact W0; unfold Rdiv; rewrite ?(Rmult_assoc _ (/ w) w), ?Rinv_l, ?Rmult_1_r by lra; lra.
    + rewrite C1; [split; [reflexivity|split; [exact Fe|lra]]|].
      apply Rabs_le. split; apply (Rmult_le_reg_r w); try exact W0; unfold Rdiv; rewrite ?(Rmult_assoc _ (/ w) w), ?Rinv_l, ?Rmult_1_r by lra; lra.
  - destruct (round_f (i - 1) ltac:(lia)) as (e & Re & Fe & Ee). destruct (edge_f i ltac:(lia)) as [Ff Ef]. exists (i - 1)%Z, e, (f_edge low ww i). split; [reflexivity|]. split; [exact Re|].
    rewrite edge_p in Ee. assert (EM : Rabs (real e) <= 100 * M) by (apply ab in Ee; apply Rabs_le; lra).
    assert (XU : real lo <= edge i + / 1000 * w).
    { apply ab in Qd. assert (K : (real lo - real low) / w <= IZR i + / 1000) by lra. apply (Rmult_le_compat_r w) in K; [|lra]. unfold Rdiv in K. rewrite Rmult_assoc, Rinv_l, Rmult_1_r in K by lra. unfold bin_edge. lra. }
    destruct (compare e lo ((edge i - w - real lo) / w) Fe Fx) as [_ C2]; try assumption.
    + replace (real e - real lo - (edge i - w - real lo) / w * w) with (real e - (edge i - w)) by (field; lra). lra.
    + apply Rabs_le. split; apply (Rmult_le_reg_r w); try exact W0; unfold Rdiv; rewrite ?(Rmult_assoc _ (/ w) w), ?Rinv_l, ?Rmult_1_r by lra; lra.
    + assert (Cn : (edge i - w - real lo) / w <= - (995 / 1000)) by (apply (Rmult_le_reg_r w); try exact W0; unfold Rdiv; rewrite ?(Rmult_assoc _ (/ w) w), ?Rinv_l, ?Rmult_1_r by lra; lra).
      destruct C2 as (C3 & _ & C4). { rewrite Rabs_left by lra. lra. }
      rewrite C3, C4 by lra. cbv zeta. replace (i - 1 + 1)%Z with i by lia. split; [reflexivity|]. split; [exact Ff|lra].
Qed.
Lemma high_l j hi : (0 <= j <= bins)%Z -> upper_request low high bins j hi ->
  exists hb e nh, f_ceil (f_div (f_sub hi low) ww) = Ok hb /\ f_sp_round low high bins (f_edge low ww hb) = Ok e /\
    (if f_lt (f_mul f_99 ww) (f_abs (f_sub e hi)) then let b := (if f_lt f_0 (f_sub e hi) then hb - 1 else hb + 1)%Z in rbind (f_sp_round low high bins (f_edge low ww b)) (fun nh => Ok (b, nh)) else Ok (hb, e)) = Ok (j, nh) /\
    is_number nh /\ Rabs (real nh - edge j) <= / 500 * w.
Proof.
  intros Hi (Fx & X). rewrite edge_p in X. pose proof (w_pos _ _ _ P) as W0. pose proof (W_ok _ _ _ P) as (W2 & _). pose proof (w_le _ _ _ P) as WL. pose proof M_big.
  assert (Bz : (bins <= 2 ^ 37)%Z) by (apply le_IZR; exact n_le).
  pose proof (edge_m j ltac:(lia)) as Em. apply ab in Em.
  destruct (place_f hi j (- (49 / 50)) (/ 200) Fx Hi) as (Fq & Q & Qd); try lra. set (q := f_div (f_sub hi low) ww) in *.
  assert (XM : Rabs (real hi) <= 100 * M) by (apply Rabs_le; lra).
  assert (C : f_ceil q = Ok j \/ f_ceil q = Ok (j + 1)%Z /\ IZR j < real q).
  { destruct (Rle_dec (real q) (IZR j)) as [L|L].
    - left. destruct (Z.eq_dec j 0) as [-> |NZ]; [apply ceil0; [exact Fq|lra]|]. apply ceil_ok; [exact Fq|lia|lra].
    - right. split; [|lra]. apply ceil_ok; [exact Fq|lia|rewrite plus_IZR; lra]. }
  destruct C as [T|(T & L)]; rewrite T.
  - destruct (round_f j ltac:(lia)) as (e & Re & Fe & Ee). exists j, e, e. split; [reflexivity|]. split; [exact Re|].
    assert (EM : Rabs (real e) <= 100 * M) by (apply ab in Ee; apply Rabs_le; lra).
    destruct (compare e hi ((edge j - real hi) / w) Fe Fx) as [C1 _]; try assumption.
    + replace (real e - real hi - (edge j - real hi) / w * w) with (real e - edge j) by (field; lra). lra.
    + apply Rabs_le. split; apply (Rmult_le_reg_r w); try exact W0; unfold Rdiv; rewrite ?(Rmult_assoc _ (/ w) w), ?Rinv_l, ?Rmult_1_r by lra; lra.
    + rewrite C1; [split; [reflexivity|split; [exact Fe|lra]]|].
      apply Rabs_le. split; apply (Rmult_le_reg_r w); try exact W0; unfold Rdiv; rewrite ?(Rmult_assoc _ (/ w) w), ?Rinv_l, ?Rmult_1_r by lra; lra.
  - destruct (round_f (j + 1) ltac:(lia)) as (e & Re & Fe & Ee). destruct (round_f j ltac:(lia)) as (e' & Re' & Fe' & Ee'). exists (j + 1)%Z, e, e'. split; [reflexivity|]. split; [exact Re|].
    rewrite edge_s in Ee. assert (EM : Rabs (real e) <= 100 * M) by (apply ab in Ee; apply Rabs_le; lra).
    assert (XU : edge j - / 1000 * w <= real hi).
    { apply ab in Qd. assert (K : IZR j - / 1000 <= (real hi - real low) / w) by lra. apply (Rmult_le_compat_r w) in K; [|lra]. unfold Rdiv in K. rewrite Rmult_assoc, Rinv_l, Rmult_1_r in K by lra. unfold bin_edge. lra. }
    destruct (compare e hi ((edge j + w - real hi) / w) Fe Fx) as [_ C2]; try assumption.
    + replace (real e - real hi - (edge j + w - real hi) / w * w) with (real e - (edge j + w)) by (field; lra). lra.
    + apply Rabs_le. split; apply (Rmult_le_reg_r w); try exact W0; unfold Rdiv; rewrite ?(Rmult_assoc _ (/ w) w), ?Rinv_l, ?Rmult_1_r by lra; lra.
    + assert (Cn : 995 / 1000 <= (edge j + w - real hi) / w) by (apply (Rmult_le_reg_r w); try exact W0; unfold Rdiv; rewrite ?(Rmult_assoc _ (/ w) w), ?Rinv_l, ?Rmult_1_r by lra; lra).
      destruct C2 as (C3 & C4 & _). { rewrite Rabs_pos_eq by lra. lra. }
      rewrite C3, C4 by lra. cbv zeta. replace (j + 1 - 1)%Z with j by lia. rewrite Re'. split; [reflexivity|]. split; [exact Fe'|lra].
Qed.
End Shrink.
Lemma shrink_l low high bins lo hi i j : aligned_axis low high bins -> (0 <= i <= bins)%Z -> (0 <= j <= bins)%Z ->
  lower_request low high bins i lo -> upper_request low high bins j hi ->
  exists nl nh, f_shrink_axis low high bins lo hi = Ok (nl, nh, j - i, (i, j))%Z /\ is_number nl /\ is_number nh /\
    Rabs (real nl - bin_edge low high bins i) <= / 500 * bin_width low high bins /\ Rabs (real nh - bin_edge low high bins j) <= / 500 * bin_width low high bins.
Proof.
  intros (P & HL & HH & m & A) Hi Hj Lo Hi'. replace (2 ^ 36) with 68719476736 in * by (cbn; lra).
  destruct (width_ok _ _ _ P) as (ww & Eww & _ & Fw & Zw & Ew).
  destruct (low_l low high bins P HL HH m A ww Fw Zw Ew Eww i lo Hi Lo) as (lb & e & nl & T & R & C & Fn & En).
  destruct (high_l low high bins P HL HH m A ww Fw Zw Ew Eww j hi Hj Hi') as (hb & e' & nh & T' & R' & C' & Fn' & En').
  exists nl, nh. unfold f_shrink_axis. rewrite Eww. cbn [rbind]. rewrite Zw, T. cbn [rbind]. rewrite T'. cbn [rbind]. rewrite R. cbn [rbind]. rewrite R'. cbn [rbind].
  cbv zeta in C, C' |- *. rewrite C'. cbn [rbind]. rewrite C. auto.
Qed.

(** The boundaries of the axis as numpy computes them. *)
Lemma boundary_l low high bins k x : aligned_axis low high bins -> nth_error (f_get_bin_boundaries low high bins) k = Some x ->
  (0 <= Z.of_nat k <= bins)%Z /\ is_number x /\ Rabs (real x - bin_edge low high bins (Z.of_nat k)) <= / 4000 * bin_width low high bins.
Proof.
  intros (P & HL & HH & m & A) K. replace (2 ^ 36) with 68719476736 in * by (cbn; lra).
  assert (Bz : (1 <= bins)%Z) by (destruct P as (_ & _ & N & _); lia).
  assert (At : (Z.of_nat k <= bins)%Z /\ x = f_linspace_at low high bins k).
  { assert (k < length (f_get_bin_boundaries low high bins))%nat by (apply nth_error_Some; congruence). unfold f_get_bin_boundaries in *. rewrite map_length, seq_length in H. split; [lia|].
    rewrite nth_error_map in K. rewrite (nth_error_nth' _ 0%nat) in K by (rewrite seq_length; lia). rewrite seq_nth in K by lia. cbn [option_map Nat.add] in K. congruence. }
  destruct At as [L ->]. split; [lia|]. pose proof (w_pos _ _ _ P) as W0. unfold f_linspace_at. destruct (Z.eqb_spec (Z.of_nat k) bins) as [E|E].
  - destruct P as (Fl & Fh & P'). split; [exact Fh|]. rewrite E. unfold bin_edge. assert (W := w_n low high bins (conj Fl (conj Fh P'))).
    replace (real high - _) with 0 by lra. rewrite Rabs_R0. lra.
  - destruct (width_ok _ _ _ P) as (ww & Eww & Dw & Fw & Zw & Ew). rewrite <- Dw, Zw.
    pose proof (w_eta _ _ _ P) as We. pose proof eta0. pose proof (n_le low high bins P HL HH) as N. pose proof (w_n _ _ _ P) as WN. pose proof (W_ok _ _ _ P) as (W2 & L2 & _). pose proof (w_le _ _ _ P) as WL. pose proof M_big.
    set (b := Z.of_nat k) in *. assert (B1 : 0 <= IZR b <= IZR bins) by (split; apply IZR_le; lia).
    set (w := bin_width low high bins) in *.
    assert (Y1 : 0 <= IZR b * w <= w * IZR bins). { split; [apply Rmult_le_pos; lra|]. rewrite Rmult_comm. apply Rmult_le_compat_l; lra. }
    assert (Y2 : IZR b * w <= 137438953472 * w) by (apply Rmult_le_compat_r; lra).
    assert (Bz' : (bins <= 2 ^ 37)%Z) by (apply le_IZR; exact N).
    destruct (times low high bins P ww Fw Ew b ltac:(lia)) as [Fp Ep]; [fold w; apply Rabs_le; lra|]. fold w in Ep.
    apply ab in Ep. apply ab in HL. apply ab in L2. destruct P as (Fl & _). set (Y := IZR b * w) in *. set (p := real (f_mul (f_int b) ww)) in *.
    assert (SB : Rabs (p + real low) <= 274877906944 * w) by (apply Rabs_le; lra).
    destruct (add_err (f_mul (f_int b) ww) low Fp Fl) as [Fs Es]. { fold p. rewrite B_M. apply Rabs_le. lra. }
    split; [exact Fs|]. fold p in Es. apply ab in Es. unfold bin_edge. fold w Y. apply Rabs_le. lra.
Qed.

From Coq Require Import Reals Lra Psatz Lia.
From Verif Require Import Model.Base Model.TestStat Spec.StatSpec.
Local Open Scope R_scope.

Lemma eps_pos : 0 < eps.
Proof. unfold eps. apply Rinv_0_lt_compat, pow_lt. lra. Qed.
Lemma eps_small : eps <= / 10 ^ 8.
Proof.
  unfold eps. apply Rinv_le_contravar; [apply pow_lt; lra|]. apply Rle_pow; [lra|lia].
Qed.
Lemma clamp_pos x : 0 < clamp x.
Proof. unfold clamp. pose proof eps_pos. destruct (Rlt_dec x eps); lra. Qed.
Lemma clamp_ge x : eps <= clamp x.
Proof. unfold clamp. destruct (Rlt_dec x eps); lra. Qed.
Lemma clamp_id x : eps <= x -> clamp x = x.
Proof. unfold clamp. destruct (Rlt_dec x eps); lra. Qed.
Lemma clamp_idem x : clamp (clamp x) = clamp x.
Proof. apply clamp_id, clamp_ge. Qed.
Lemma below_true x : below_eps x = true <-> x < eps.
Proof. unfold below_eps. destruct (Rlt_dec x eps); intuition congruence. Qed.
Lemma below_false x : below_eps x = false <-> eps <= x.
Proof. unfold below_eps. destruct (Rlt_dec x eps); intuition (congruence || lra). Qed.

Lemma deviance_nonneg o e : 0 < o -> 0 < e -> 0 <= deviance o e /\ (deviance o e = 0 -> o = e).
Proof.
  intros Ho He. unfold deviance.
  assert (Hx : 0 < e / o) by (apply Rdiv_lt_0_compat; assumption).
  assert (L : ln (o / e) = - ln (e / o)).
  { rewrite <- ln_Rinv by assumption. f_equal. field. lra. }
  assert (Ex : exp (ln (e / o)) = e / o) by (apply exp_ln, Hx).
  set (y := ln (e / o)) in *.
  assert (Ey : e = o * exp y) by (rewrite Ex; field; lra).
  rewrite L. split.
  - pose proof (exp_ineq1_le y). nra.
  - intro Z. destruct (Req_dec y 0) as [Hy|Hy].
    + rewrite Hy, exp_0 in Ey. lra.
    + pose proof (exp_ineq1 y Hy). nra.
Qed.
Lemma deviance_eq o : 0 < o -> deviance o o = 0.
Proof. intro H. unfold deviance. replace (o / o) with 1 by (field; lra). rewrite ln_1. ring. Qed.

(** values of the loops *)
Definition value (step : R -> R -> R * R * R) (o e : R) : R := snd (step o e).
Lemma loop_sum step o e : Rsum (snd (loop step o e)) = sum2 (value step) o e.
Proof.
  revert e. induction o as [|a o IH]; intros [|b e]; cbn [loop sum2]; try reflexivity.
  unfold value at 1. destruct (step a b) as [[a' b'] v]. specialize (IH e). destruct (loop step o e) as [[o' e'] vs].
  cbn in *. rewrite IH. reflexivity.
Qed.
Lemma loop_vals step o e : snd (loop step o e) = map (fun p => value step (fst p) (snd p)) (combine o e).
Proof.
  revert e. induction o as [|a o IH]; intros [|b e]; cbn [loop combine map]; try reflexivity.
  unfold value at 1. cbn [fst snd]. destruct (step a b) as [[a' b'] v]. specialize (IH e). destruct (loop step o e) as [[o' e'] vs].
  cbn in *. rewrite IH. reflexivity.
Qed.
Lemma sum2_scale c f o e : sum2 (fun a b => c * f a b) o e = c * sum2 f o e.
Proof. revert e. induction o as [|a o IH]; intros [|b e]; cbn; try ring. rewrite IH. ring. Qed.
Lemma sum2_plus f g o e : sum2 (fun a b => f a b + g a b) o e = sum2 f o e + sum2 g o e.
Proof. revert e. induction o as [|a o IH]; intros [|b e]; cbn; try ring. rewrite IH. ring. Qed.
Lemma sum2_ext f g o e : length o = length e ->
  (forall p, In p (combine o e) -> f (fst p) (snd p) = g (fst p) (snd p)) -> sum2 f o e = sum2 g o e.
Proof.
  revert e. induction o as [|a o IH]; intros [|b e] L H; cbn in *; try reflexivity; try discriminate.
  pose proof (H (a, b) (or_introl eq_refl)) as H0. cbn in H0. rewrite H0. rewrite (IH e); [reflexivity|lia|]. intros p Hp. apply H. right. exact Hp.
Qed.
Lemma sum2_nonneg f o e : (forall a b, 0 <= f a b) -> 0 <= sum2 f o e.
Proof. intro H. revert e. induction o as [|a o IH]; intros [|b e]; cbn; try lra. pose proof (H a b). pose proof (IH e). lra. Qed.
Lemma sum2_zero f o e : length o = length e -> (forall a b, 0 <= f a b) ->
  (sum2 f o e = 0 <-> Forall2 (fun a b => f a b = 0) o e).
Proof.
  intros L H. revert e L. induction o as [|a o IH]; intros [|b e] L; cbn in *; try discriminate.
  - split; [constructor|reflexivity].
  - pose proof (H a b). pose proof (sum2_nonneg f o e H). injection L as L. split.
    + intro Z. constructor; [lra|]. apply IH; [exact L|lra].
    + intro F. inversion F as [|? ? ? ? F1 F2]; subst. apply IH in F2; [lra|exact L].
Qed.
Lemma Rsum_map_scale c l : Rsum (map (Rmult c) l) = c * Rsum l.
Proof. unfold Rsum. induction l as [|a l IH]; cbn [map fold_right]; [ring|]. rewrite IH. ring. Qed.
Lemma allclose_refl x : allclose x x = true.
Proof.
  unfold allclose. destruct (Rle_dec _ _) as [|N]; [reflexivity|]. exfalso. apply N.
  replace (x - x) with 0 by ring. rewrite Rabs_R0. pose proof (Rabs_pos x).
  assert (0 < / 10 ^ 8) by (apply Rinv_0_lt_compat, pow_lt; lra). assert (0 < / 10 ^ 5) by (apply Rinv_0_lt_compat, pow_lt; lra). nra.
Qed.

(** the chi-type per-bin value *)
Definition bc (o e : R) : R := if below_eps o then clamp e else deviance o (clamp e).
Lemma bc_nonneg o e : 0 <= bc o e.
Proof.
  unfold bc. pose proof (clamp_pos e). destruct (below_eps o) eqn:B; [lra|]. apply below_false in B.
  pose proof eps_pos. apply deviance_nonneg; lra.
Qed.
Lemma clamp_max x : clamp x = Rmax x eps.
Proof. unfold clamp, Rmax. destruct (Rlt_dec x eps), (Rle_dec x eps); lra. Qed.
Lemma bc_zero o e : bc o e = 0 <-> o = Rmax e (/ 10 ^ 34).
Proof.
  fold eps. rewrite <- clamp_max. unfold bc. pose proof (clamp_pos e). pose proof (clamp_ge e). pose proof eps_pos. destruct (below_eps o) eqn:B.
  - apply below_true in B. split; lra.
  - apply below_false in B. split.
    + intro Z. apply deviance_nonneg in Z; lra.
    + intros ->. apply deviance_eq. lra.
Qed.
Lemma Forall2_max o e : regular e -> (Forall2 (fun a b => a = Rmax b (/ 10 ^ 34)) o e <-> o = e).
Proof.
  intro R. split.
  - intro F. induction F as [|a b o e H F IH]; [reflexivity|]. inversion R as [|? ? R1 R2]; subst. rewrite IH by exact R2. f_equal.
    apply Rmax_left. exact R1.
  - intros ->. induction R as [|b e Hb R IH]; constructor; [|exact IH]. symmetry. apply Rmax_left. exact Hb.
Qed.
Definition stats_val (t : tstat) (o e : R) : R :=
  match t with
  | BakerCousinsChi | BakerCousinsChiUp => 2 * bc o e
  | BakerCousinsLL => bc o e
  | Neyman => if below_eps e then clamp o else (e - clamp o) ^ 2 / clamp o
  | Pearson => if below_eps o then clamp e else (o - clamp e) ^ 2 / clamp e
  | ExtendedLL => clamp e - o * ln (clamp e)
  end.

Lemma loop_fst_ext s1 s2 o e : (forall a b, fst (s1 a b) = fst (s2 a b)) -> fst (loop s1 o e) = fst (loop s2 o e).
Proof.
  intro H. revert e. induction o as [|a o IH]; intros [|b e]; cbn [loop]; try reflexivity.
  specialize (H a b). specialize (IH e). destruct (s1 a b) as [[? ?] ?], (s2 a b) as [[? ?] ?].
  destruct (loop s1 o e) as [[? ?] ?], (loop s2 o e) as [[? ?] ?]. cbn in *. congruence.
Qed.
(** unfolding of the answers *)
Lemma answer_total t o e : length o = length e -> answer t false o e = Ok (Total (snd (compute t o e))).
Proof.
  intro L. unfold answer, compute_statistic, vec1. cbn. rewrite L, Nat.eqb_refl. cbn.
  destruct (compute t o e) as [[? ?] ?]. reflexivity.
Qed.
Lemma answer_bins t o e : length o = length e -> answer t true o e = rmap PerBin (snd (get_stats t o e)).
Proof.
  intro L. unfold answer, compute_statistic, vec1. cbn. rewrite L, Nat.eqb_refl. cbn.
  destruct (get_stats t o e) as [[? ?] ?]. reflexivity.
Qed.
Lemma compute_val t o e :
  snd (compute t o e) =
  match t with
  | BakerCousinsChi => 2 * sum2 bc o e
  | BakerCousinsChiUp => 2 * sum2 (fun a b => if Rlt_dec b a then 0 else bc a b) o e
  | BakerCousinsLL => sum2 bc o e
  | Neyman => sum2 (stats_val Neyman) o e
  | Pearson => sum2 (stats_val Pearson) o e
  | ExtendedLL => Rsum e - sum2 (fun a b => a * ln (clamp b)) o e
  end.
Proof.
  unfold compute. destruct (loop (total_step t) o e) as [[o' e'] vs] eqn:E.
  assert (V : Rsum vs = sum2 (value (total_step t)) o e) by (rewrite <- loop_sum, E; reflexivity).
  destruct t; cbn [snd]; rewrite V; try reflexivity.
  f_equal. assert (G : forall a b, value (total_step BakerCousinsChiUp) a b = if Rlt_dec b a then 0 else bc a b).
  { intros a b. unfold value, total_step. destruct (Rlt_dec b a); reflexivity. }
  clear - G. revert e. induction o as [|a o IH]; intros [|b e]; cbn [sum2]; try reflexivity. rewrite IH, G. reflexivity.
Qed.
Lemma get_stats_val t o e :
  (t = BakerCousinsChiUp -> allclose (2 * sum2 bc o e) (2 * sum2 (fun a b => if Rlt_dec b a then 0 else bc a b) o e) = true) ->
  snd (get_stats t o e) = Ok (map (fun p => stats_val t (fst p) (snd p)) (combine o e)).
Proof.
  intro HU. unfold get_stats. destruct (loop (stats_step t) o e) as [[o' e'] vs] eqn:E.
  assert (V : vs = map (fun p => value (stats_step t) (fst p) (snd p)) (combine o e)) by (rewrite <- loop_vals, E; reflexivity).
  assert (S : Rsum vs = sum2 (value (stats_step t)) o e) by (rewrite <- loop_sum, E; reflexivity).
  pose proof (compute_val t o e) as C.
  destruct t; try (cbn [snd]; rewrite V; reflexivity).
  - rewrite Rsum_map_scale, S, C. change (sum2 (value (stats_step BakerCousinsChi)) o e) with (sum2 bc o e).
    rewrite allclose_refl. cbn [snd]. rewrite V, map_map. reflexivity.
  - rewrite Rsum_map_scale, S, C. change (sum2 (value (stats_step BakerCousinsChiUp)) o e) with (sum2 bc o e).
    rewrite HU by reflexivity. cbn [snd]. rewrite V, map_map. reflexivity.
Qed.
Lemma sum_bins t o e : Rsum (map (fun p => stats_val t (fst p) (snd p)) (combine o e)) = sum2 (stats_val t) o e.
Proof. revert e. induction o as [|a o IH]; intros [|b e]; cbn [combine map sum2]; try reflexivity. cbn. rewrite <- IH. reflexivity. Qed.

Lemma Forall2_iff {A B} (P Q : A -> B -> Prop) o e : (forall a b, P a b <-> Q a b) -> (Forall2 P o e <-> Forall2 Q o e).
Proof. intro H. split; intro F; induction F; constructor; auto; apply H; assumption. Qed.

(** C30 *)
Lemma chi_nonneg_l o e : length o = length e ->
  exists x, answer BakerCousinsChi false o e = Ok (Total x) /\ 0 <= x /\
    (x = 0 <-> Forall2 (fun a b => a = Rmax b (/ 10 ^ 34)) o e) /\ (regular e -> (x = 0 <-> o = e)).
Proof.
  intro L. eexists. split; [apply answer_total, L|]. rewrite compute_val.
  pose proof (sum2_nonneg bc o e bc_nonneg). split; [lra|].
  assert (Z : 2 * sum2 bc o e = 0 <-> Forall2 (fun a b => a = Rmax b (/ 10 ^ 34)) o e).
  { assert (E : (2 * sum2 bc o e = 0 <-> sum2 bc o e = 0)) by (split; lra). rewrite E.
    rewrite (sum2_zero bc o e L bc_nonneg). apply Forall2_iff, bc_zero. }
  split; [exact Z|]. intro R. rewrite Z. apply Forall2_max, R.
Qed.
Lemma ll_nonneg_l o e : length o = length e ->
  exists x, answer BakerCousinsLL false o e = Ok (Total x) /\ 0 <= x /\
    (x = 0 <-> Forall2 (fun a b => a = Rmax b (/ 10 ^ 34)) o e) /\ (regular e -> (x = 0 <-> o = e)).
Proof.
  intro L. eexists. split; [apply answer_total, L|]. rewrite compute_val.
  pose proof (sum2_nonneg bc o e bc_nonneg). split; [lra|].
  assert (Z : sum2 bc o e = 0 <-> Forall2 (fun a b => a = Rmax b (/ 10 ^ 34)) o e).
  { rewrite (sum2_zero bc o e L bc_nonneg). apply Forall2_iff, bc_zero. }
  split; [exact Z|]. intro R. rewrite Z. apply Forall2_max, R.
Qed.
Lemma chiup_nonneg_l o e : length o = length e ->
  exists x, answer BakerCousinsChiUp false o e = Ok (Total x) /\ 0 <= x /\
    (forall y, answer BakerCousinsChi false o e = Ok (Total y) -> x <= y) /\
    (Forall2 (fun a b => b < a) o e -> x = 0) /\
    (Forall2 (fun a b => a <= b) o e -> answer BakerCousinsChi false o e = Ok (Total x)).
Proof.
  intro L. eexists. split; [apply answer_total, L|]. rewrite compute_val.
  set (u := fun a b => if Rlt_dec b a then 0 else bc a b).
  assert (U : forall a b, 0 <= u a b) by (intros; unfold u; destruct (Rlt_dec b a); [lra|apply bc_nonneg]).
  pose proof (sum2_nonneg u o e U). split; [lra|]. split; [|split].
  - intros y Hy. rewrite answer_total, compute_val in Hy by exact L. injection Hy as <-.
    assert (D : sum2 u o e <= sum2 bc o e).
    { clear. revert e. induction o as [|a o IH]; intros [|b e]; cbn; try lra. specialize (IH e).
      assert (u a b <= bc a b) by (unfold u; destruct (Rlt_dec b a); [apply bc_nonneg|lra]). lra. }
    lra.
  - intro F. assert (Z : sum2 u o e = 0).
    { induction F as [|a b o e H1 F IH]; cbn; [reflexivity|]. rewrite IH; [|cbn in L; lia|apply sum2_nonneg, U].
      unfold u. destruct (Rlt_dec b a); [ring|contradiction]. }
    rewrite Z. ring.
  - intro F. rewrite answer_total by exact L. rewrite compute_val. do 3 f_equal.
    clear - F. induction F as [|a b o e H1 F IH]; cbn; [reflexivity|]. rewrite IH. f_equal. unfold u. destruct (Rlt_dec b a); [lra|reflexivity].
Qed.
Lemma others_nonneg_l t o e : (t = Neyman \/ t = Pearson) -> length o = length e ->
  exists x, answer t false o e = Ok (Total x) /\ 0 <= x /\ (regular o -> regular e -> (x = 0 <-> o = e)).
Proof.
  intros Ht L. eexists. split; [apply answer_total, L|]. rewrite compute_val.
  assert (N : forall a b, 0 <= stats_val t a b /\ (eps <= a -> eps <= b -> (stats_val t a b = 0 <-> a = b))).
  { intros a b. pose proof (clamp_pos a). pose proof (clamp_pos b). pose proof eps_pos.
    assert (Q : forall x y, 0 < y -> 0 <= (x - y) ^ 2 / y /\ ((x - y) ^ 2 / y = 0 <-> x = y)).
    { intros x y Hy. assert (0 < / y) by (apply Rinv_0_lt_compat, Hy). unfold Rdiv. split; [apply Rmult_le_pos; [apply pow2_ge_0|lra]|]. split.
      - intro Z. apply Rmult_integral in Z as [Z|Z]; [|lra]. replace ((x - y) ^ 2) with ((x - y) * (x - y)) in Z by ring. apply Rmult_integral in Z as [Z|Z]; lra.
      - intros ->. ring. }
    destruct Ht as [-> | ->]; unfold stats_val.
    - destruct (Q b (clamp a)) as [Q1 Q2]; [assumption|]. split; [destruct (below_eps b); [lra|exact Q1]|].
      intros Ha Hb. apply below_false in Hb. rewrite Hb, Q2, clamp_id by exact Ha. split; congruence.
    - destruct (Q a (clamp b)) as [Q1 Q2]; [assumption|]. split; [destruct (below_eps a); [lra|exact Q1]|].
      intros Ha Hb. apply below_false in Ha. rewrite Ha, Q2, clamp_id by exact Hb. split; congruence. }
  assert (E : match t with
  | BakerCousinsChi => 2 * sum2 bc o e
  | BakerCousinsChiUp => 2 * sum2 (fun a b => if Rlt_dec b a then 0 else bc a b) o e
  | BakerCousinsLL => sum2 bc o e
  | Neyman => sum2 (stats_val Neyman) o e
  | Pearson => sum2 (stats_val Pearson) o e
  | ExtendedLL => Rsum e - sum2 (fun a b => a * ln (clamp b)) o e
  end = sum2 (stats_val t) o e) by (destruct Ht as [-> | ->]; reflexivity).
  rewrite E. split; [apply sum2_nonneg; intros; apply N|]. intros Ho He.
  rewrite (sum2_zero _ o e L) by (intros; apply N). clear E L. split.
  - intro F. induction F as [|a b o e H F IH]; [reflexivity|]. inversion Ho as [|? ? A1 A2]; inversion He as [|? ? B1 B2]; subst.
    f_equal; [apply N; assumption|apply IH; assumption].
  - intros <-. clear He. induction Ho as [|a o Ha Ho IH]; constructor; [|exact IH]. apply N; auto.
Qed.

(** C31 *)
Lemma chi_ll_l o e : length o = length e -> exists x, answer BakerCousinsLL false o e = Ok (Total x) /\
  answer BakerCousinsChi false o e = Ok (Total (2 * x)).
Proof. intro L. eexists. rewrite !answer_total by exact L. rewrite !compute_val. split; reflexivity. Qed.
Lemma regular_in o e : length o = length e -> zero_or_regular o -> regular e ->
  forall p, In p (combine o e) -> (fst p = 0 \/ eps <= fst p) /\ eps <= snd p.
Proof.
  intros L Ho He p Hp. destruct p as [a b]. unfold zero_or_regular, regular in *. rewrite Forall_forall in *.
  split; [apply Ho; eapply in_combine_l; exact Hp|apply He; eapply in_combine_r; exact Hp].
Qed.
Lemma Rsum_sum2 o e : length o = length e -> Rsum e = sum2 (fun _ b => b) o e.
Proof.
  revert e. induction o as [|a o IH]; intros [|b e] L; try discriminate; [reflexivity|]. injection L as L.
  change (Rsum (b :: e)) with (b + Rsum e). rewrite (IH e L). reflexivity.
Qed.
Lemma ln_div a b : 0 < a -> 0 < b -> ln (a / b) = ln a - ln b.
Proof. intros. unfold Rdiv. rewrite ln_mult, ln_Rinv by (try apply Rinv_0_lt_compat; assumption). ring. Qed.
Lemma ext_split o e : length o = length e -> zero_or_regular o -> regular e ->
  snd (compute BakerCousinsLL o e) - snd (compute ExtendedLL o e) = sum2 (fun a _ => if below_eps a then 0 else a * ln a - a) o e.
Proof.
  intros L Ho He. rewrite !compute_val. rewrite (Rsum_sum2 o e L). pose proof eps_pos.
  assert (E : sum2 bc o e = sum2 (fun a b => (b + (-1) * (a * ln (clamp b))) + (if below_eps a then 0 else a * ln a - a)) o e).
  { apply sum2_ext; [exact L|]. intros p Hp. destruct (regular_in o e L Ho He p Hp) as [Ha Hb]. destruct p as [a b]. cbn [fst snd] in *.
    unfold bc, deviance. rewrite clamp_id by exact Hb. destruct (below_eps a) eqn:B.
    - apply below_true in B. assert (a = 0) as -> by lra. ring.
    - apply below_false in B. rewrite ln_div by lra. ring. }
  rewrite E, sum2_plus, sum2_plus, sum2_scale. ring.
Qed.
Lemma ll_ext_l o e1 e2 : length o = length e1 -> length o = length e2 ->
  zero_or_regular o -> regular e1 -> regular e2 ->
  exists a1 a2 b1 b2,
    answer BakerCousinsLL false o e1 = Ok (Total a1) /\ answer BakerCousinsLL false o e2 = Ok (Total a2) /\
    answer ExtendedLL false o e1 = Ok (Total b1) /\ answer ExtendedLL false o e2 = Ok (Total b2) /\
    a1 - a2 = b1 - b2.
Proof.
  intros L1 L2 Ho H1 H2. do 4 eexists. rewrite !answer_total by assumption. do 4 (split; [reflexivity|]).
  pose proof (ext_split o e1 L1 Ho H1) as E1. pose proof (ext_split o e2 L2 Ho H2) as E2.
  assert (S : sum2 (fun a _ => if below_eps a then 0 else a * ln a - a) o e1 = sum2 (fun a _ => if below_eps a then 0 else a * ln a - a) o e2).
  { clear - L1 L2. revert e1 e2 L1 L2. induction o as [|a o IH]; intros [|b1 e1] [|b2 e2] L1 L2; cbn in *; try discriminate; [reflexivity|].
    rewrite (IH e1 e2) by lia. reflexivity. }
  lra.
Qed.
Lemma formulas_l o e : length o = length e -> regular o -> regular e ->
  answer BakerCousinsChi false o e = Ok (Total (2 * sum2 deviance o e)) /\
  answer BakerCousinsLL false o e = Ok (Total (sum2 deviance o e)) /\
  answer Neyman false o e = Ok (Total (sum2 (fun a b => chi2_term a b a) o e)) /\
  answer Pearson false o e = Ok (Total (sum2 (fun a b => chi2_term a b b) o e)) /\
  answer ExtendedLL false o e = Ok (Total (Rsum e - sum2 (fun a b => a * ln b) o e)).
Proof.
  intros L Ho He. rewrite !answer_total by exact L. rewrite !compute_val. pose proof eps_pos.
  assert (R : forall p, In p (combine o e) -> eps <= fst p /\ eps <= snd p).
  { intros [a b] Hp. unfold regular in *. rewrite Forall_forall in *. split; [apply Ho; eapply in_combine_l; exact Hp|apply He; eapply in_combine_r; exact Hp]. }
  assert (G : forall f g, (forall a b, eps <= a -> eps <= b -> f a b = g a b) -> sum2 f o e = sum2 g o e).
  { intros f g H0. apply sum2_ext; [exact L|]. intros p Hp. apply R in Hp. apply H0; tauto. }
  assert (B : forall a, eps <= a -> below_eps a = false) by (intros; apply below_false; assumption).
  repeat split; do 2 f_equal.
  - f_equal. apply G. intros a b Ha Hb. unfold bc. rewrite B, clamp_id by assumption. reflexivity.
  - apply G. intros a b Ha Hb. unfold bc. rewrite B, clamp_id by assumption. reflexivity.
  - apply G. intros a b Ha Hb. unfold stats_val, chi2_term. rewrite B, clamp_id by assumption. field. lra.
  - apply G. intros a b Ha Hb. unfold stats_val, chi2_term. rewrite B, clamp_id by assumption. field. lra.
  - f_equal. apply G. intros a b Ha Hb. rewrite clamp_id by assumption. reflexivity.
Qed.

(** C32 *)
Lemma total_bins_l t o e : t <> BakerCousinsChiUp -> t <> ExtendedLL -> length o = length e ->
  exists l, answer t true o e = Ok (PerBin l) /\ length l = length o /\ answer t false o e = Ok (Total (Rsum l)).
Proof.
  intros N1 N2 L. eexists. rewrite answer_bins by exact L. rewrite get_stats_val by (intro; contradiction).
  split; [reflexivity|]. split; [rewrite map_length, combine_length; lia|].
  rewrite answer_total by exact L. rewrite sum_bins, compute_val. do 2 f_equal.
  destruct t; try contradiction; try reflexivity. cbn. symmetry. apply sum2_scale.
Qed.
Lemma total_bins_ext_l o e : length o = length e -> regular e ->
  exists l, answer ExtendedLL true o e = Ok (PerBin l) /\ length l = length o /\ answer ExtendedLL false o e = Ok (Total (Rsum l)).
Proof.
  intros L He. eexists. rewrite answer_bins by exact L. rewrite get_stats_val by discriminate.
  split; [reflexivity|]. split; [rewrite map_length, combine_length; lia|].
  rewrite answer_total by exact L. rewrite sum_bins, compute_val. do 2 f_equal. rewrite (Rsum_sum2 o e L).
  assert (E : sum2 (stats_val ExtendedLL) o e = sum2 (fun a b => b + (-1) * (a * ln (clamp b))) o e).
  { apply sum2_ext; [exact L|]. intros [a b] Hp. cbn [fst snd]. unfold regular in He. rewrite Forall_forall in He.
    apply in_combine_r in Hp. apply He in Hp. cbn. rewrite clamp_id by exact Hp. ring. }
  rewrite E, sum2_plus, sum2_scale. ring.
Qed.
Lemma total_bins_up_l o e : length o = length e -> Forall2 (fun a b => a <= b) o e ->
  exists l, answer BakerCousinsChiUp true o e = Ok (PerBin l) /\ length l = length o /\ answer BakerCousinsChiUp false o e = Ok (Total (Rsum l)).
Proof.
  intros L F.
  assert (S : sum2 (fun a b => if Rlt_dec b a then 0 else bc a b) o e = sum2 bc o e).
  { clear - F. induction F as [|a b o e H1 F IH]; cbn; [reflexivity|]. rewrite IH. f_equal. destruct (Rlt_dec b a); [lra|reflexivity]. }
  eexists. rewrite answer_bins by exact L. rewrite get_stats_val by (intros _; rewrite S; apply allclose_refl).
  split; [reflexivity|]. split; [rewrite map_length, combine_length; lia|].
  rewrite answer_total by exact L. rewrite sum_bins, compute_val, S. do 2 f_equal. symmetry. apply sum2_scale.
Qed.

(** C33 *)
Lemma malformed_l t pb o e :
  (length (a_shape o) <> 1%nat \/ length (a_shape e) <> 1%nat -> compute_statistic t pb o e = (o, e, Err ETypeError)) /\
  (length (a_shape o) = 1%nat -> length (a_shape e) = 1%nat -> a_shape o <> a_shape e ->
     compute_statistic t pb o e = (o, e, Err EValueError)).
Proof.
  unfold compute_statistic. split.
  - intros [H|H].
    + apply Nat.eqb_neq in H. rewrite H. reflexivity.
    + apply Nat.eqb_neq in H. rewrite H. destruct (negb _); reflexivity.
  - intros H1 H2 H3. rewrite H1, H2. cbn.
    destruct (a_shape o) as [|n [|]], (a_shape e) as [|m [|]]; try discriminate. cbn.
    destruct (Nat.eqb_spec n m); [congruence|reflexivity].
Qed.
Lemma wellformed_l t pb o e : length o = length e -> pb = false \/ t <> BakerCousinsChiUp ->
  exists r, answer t pb o e = Ok r.
Proof.
  intros L [-> | N].
  - eexists. apply answer_total, L.
  - destruct pb; [|eexists; apply answer_total, L]. rewrite answer_bins by exact L. rewrite get_stats_val by (intro; contradiction).
    eexists. reflexivity.
Qed.

(** C34 *)
Lemma afterwards_l t pb o e : length o = length e -> afterwards t pb o e =
  (vec1 (match t with Neyman => map clamp o | _ => o end),
   vec1 (match t with BakerCousinsLL | Pearson => map clamp e | _ => e end)).
Proof.
  intro L. unfold afterwards, compute_statistic, vec1. cbn. rewrite L, Nat.eqb_refl. cbn.
  assert (S : fst (loop (stats_step t) o e) = (match t with Neyman => map clamp o | _ => o end, match t with BakerCousinsLL | Pearson => map clamp e | _ => e end)).
  { revert e L. induction o as [|a o IH]; intros [|b e] L; try discriminate; [destruct t; reflexivity|]. injection L as L.
    specialize (IH e L). cbn [loop]. destruct t; cbn in *; destruct (loop _ o e) as [[? ?] ?]; cbn in *; congruence. }
  assert (T : fst (loop (total_step t) o e) = fst (loop (stats_step t) o e)).
  { apply loop_fst_ext. intros a b. destruct t; try reflexivity. cbn. destruct (Rlt_dec b a); reflexivity. }
  assert (G : fst (get_stats t o e) = fst (loop (stats_step t) o e)).
  { unfold get_stats. destruct (loop (stats_step t) o e) as [[? ?] ?]. destruct t; try reflexivity; destruct (allclose _ _); reflexivity. }
  assert (C : fst (compute t o e) = fst (loop (stats_step t) o e)).
  { unfold compute. rewrite <- T. destruct (loop (total_step t) o e) as [[? ?] ?]. destruct t; reflexivity. }
  rewrite S in G, C.
  destruct pb; [destruct (get_stats t o e) as [[? ?] ?]|destruct (compute t o e) as [[? ?] ?]]; cbn in *;
    [injection G as -> ->|injection C as -> ->]; unfold vec1; f_equal; f_equal; destruct t; rewrite ?map_length; congruence.
Qed.
Lemma map_clamp_id l : regular l -> map clamp l = l.
Proof.
  unfold regular. induction 1 as [|x l Hx Hl IH]; [reflexivity|]. cbn. rewrite IH, clamp_id by exact Hx. reflexivity.
Qed.
Lemma unchanged_l t pb o e : length o = length e ->
  (t = Neyman -> regular o) -> (t = BakerCousinsLL \/ t = Pearson -> regular e) ->
  afterwards t pb o e = (vec1 o, vec1 e).
Proof.
  intros L H1 H2. rewrite afterwards_l by exact L.
  destruct t; try reflexivity; rewrite map_clamp_id by auto; reflexivity.
Qed.
Lemma twice_l t pb o e r o' e' : length o = length e ->
  answer t pb o e = r -> afterwards t pb o e = (vec1 o', vec1 e') ->
  answer t pb o' e' = r /\ afterwards t pb o' e' = (vec1 o', vec1 e').
Proof.
  intros L HA HW. rewrite afterwards_l in HW by exact L.
  assert (Eo : o' = match t with Neyman => map clamp o | _ => o end) by (unfold vec1 in HW; injection HW; intros; congruence).
  assert (Ee : e' = match t with BakerCousinsLL | Pearson => map clamp e | _ => e end) by (unfold vec1 in HW; injection HW; intros; congruence).
  assert (L' : length o' = length e') by (subst; destruct t; rewrite ?map_length; exact L).
  split.
  - rewrite <- HA. 
    assert (V : map (fun p => stats_val t (fst p) (snd p)) (combine o' e') = map (fun p => stats_val t (fst p) (snd p)) (combine o e) /\
                (t = BakerCousinsChiUp \/ t = ExtendedLL \/ t = BakerCousinsChi -> o' = o /\ e' = e)).
    { split; [|intros [-> | [-> | ->]]; subst; split; reflexivity].
      rewrite Eo, Ee. clear - L. revert e L. induction o as [|a o IH]; intros [|b e] L; try discriminate; [destruct t; reflexivity|].
      injection L as L. specialize (IH e L).
      destruct t; cbn [map combine fst snd] in *; try reflexivity; rewrite IH; f_equal; unfold stats_val, bc; rewrite ?clamp_idem; reflexivity. }
    destruct V as [V U].
    assert (W : sum2 (stats_val t) o' e' = sum2 (stats_val t) o e) by (rewrite <- (sum_bins t o' e'), <- (sum_bins t o e), V; reflexivity).
    destruct t; try (destruct U as [-> ->]; [tauto|reflexivity]).
    all: destruct pb; [rewrite !answer_bins by assumption; rewrite !get_stats_val by discriminate; rewrite V; reflexivity|].
    all: rewrite !answer_total by assumption; rewrite !compute_val; do 2 f_equal.
    all: exact W.
  - rewrite afterwards_l by exact L'. rewrite Eo, Ee. f_equal; destruct t; try reflexivity; rewrite map_map; f_equal; apply map_ext; apply clamp_idem.
Qed.

(** C35 *)
Definition halves (t : tstat) : R := match t with BakerCousinsLL => 1 / 2 | _ => 1 end.
Lemma penalty_l t v p s : s <> 0 ->
  penalty t (PFloat v) (PFloat p) (PFloat s) = Ok (halves t * ((v - p) / s) ^ 2).
Proof.
  intro H. unfold penalty, py_sub, py_div, to_float, halves. cbn [to_R].
  destruct (Req_EM_T s 0); [contradiction|]. destruct t; cbn [rbind to_R]; f_equal; ring.
Qed.
Lemma penalty_zero_l t v p : penalty t (PFloat v) (PFloat p) (PFloat 0) = Err EZeroDivisionError.
Proof.
  unfold penalty, py_sub, py_div, to_float. cbn [to_R]. destruct (Req_EM_T 0 0); [|congruence]. destruct t; reflexivity.
Qed.
Lemma penalty_shape_l t p s : s <> 0 ->
  exists f, (forall v, penalty t (PFloat v) (PFloat p) (PFloat s) = Ok (f v)) /\
    (forall v, 0 <= f v) /\ (forall v, f v = 0 <-> v = p) /\
    (forall d, f (p + d) = f (p - d)) /\
    (forall v w, Rabs (v - p) < Rabs (w - p) -> f v < f w).
Proof.
  intro H. exists (fun v => halves t * ((v - p) / s) ^ 2).
  assert (Hh : 0 < halves t) by (destruct t; cbn; lra).
  assert (Hs : 0 < / (s * s)) by (apply Rinv_0_lt_compat; nra).
  assert (E : forall v, halves t * ((v - p) / s) ^ 2 = (halves t * / (s * s)) * ((v - p) * (v - p))) by (intro; field; exact H).
  assert (K : 0 < halves t * / (s * s)) by (apply Rmult_lt_0_compat; assumption).
  split; [intro; apply penalty_l, H|]. split; [|split; [|split]].
  - intro v. rewrite E. apply Rmult_le_pos; [lra|apply Rle_0_sqr].
  - intro v. rewrite E. split.
    + intro Z. apply Rmult_integral in Z as [Z|Z]; [lra|]. apply Rmult_integral in Z as [Z|Z]; lra.
    + intros ->. ring.
  - intro d. rewrite !E. ring.
  - intros v w Hl. rewrite !E. apply Rmult_lt_compat_l; [exact K|].
    assert (S : forall x, x * x = Rabs x * Rabs x) by (intro x; rewrite <- Rabs_mult; rewrite Rabs_right; [reflexivity|apply Rle_ge, Rle_0_sqr]).
    rewrite (S (v - p)), (S (w - p)). pose proof (Rabs_pos (v - p)). nra.
Qed.

(** Refutations *)
Lemma one_regular : / 10 ^ 34 <= 1.
Proof. rewrite <- Rinv_1. apply Rinv_le_contravar; [lra|]. apply pow_R1_Rle. lra. Qed.
Lemma ext_refuted_l :
  answer ExtendedLL false [0] [0] = Ok (Total 0) /\
  exists l, answer ExtendedLL true [0] [0] = Ok (PerBin l) /\ 0 < Rsum l.
Proof.
  split.
  - rewrite answer_total, compute_val by reflexivity. do 2 f_equal. cbn. ring.
  - eexists. rewrite answer_bins, get_stats_val by (reflexivity || discriminate). split; [reflexivity|].
    cbn. pose proof eps_pos. pose proof (clamp_pos 0). lra.
Qed.
Lemma up_refuted_l :
  answer BakerCousinsChiUp false [exp 1] [1] = Ok (Total 0) /\
  answer BakerCousinsChiUp true [exp 1] [1] = Err EValueError.
Proof.
  pose proof one_regular as R1. fold eps in R1.
  assert (H1 : 1 < exp 1) by (pose proof (exp_ineq1 1 ltac:(lra)); lra).
  assert (V : bc (exp 1) 1 = 1).
  { unfold bc. assert (below_eps (exp 1) = false) as -> by (apply below_false; lra). rewrite clamp_id by exact R1.
    unfold deviance. replace (exp 1 / 1) with (exp 1) by field. rewrite ln_exp. ring. }
  assert (U : sum2 (fun a b => if Rlt_dec b a then 0 else bc a b) [exp 1] [1] = 0).
  { cbn [sum2]. destruct (Rlt_dec 1 (exp 1)); [ring|contradiction]. }
  split.
  - rewrite answer_total, compute_val by reflexivity. rewrite U. do 2 f_equal. ring.
  - rewrite answer_bins by reflexivity. unfold get_stats.
    destruct (loop (stats_step BakerCousinsChiUp) [exp 1] [1]) as [[o' e'] vs] eqn:E.
    assert (S : Rsum vs = sum2 bc [exp 1] [1]).
    { change (sum2 bc [exp 1] [1]) with (sum2 (value (stats_step BakerCousinsChiUp)) [exp 1] [1]). rewrite <- loop_sum, E. reflexivity. }
    rewrite Rsum_map_scale, S, compute_val, U. cbn [sum2]. rewrite V.
    assert (A : allclose (2 * (1 + 0)) (2 * 0) = false).
    { unfold allclose. destruct (Rle_dec _ _) as [H|]; [exfalso|reflexivity].
      replace (2 * 0) with 0 in H by ring. rewrite Rminus_0_r, Rabs_R0, Rabs_right in H by lra.
      assert (B : / 10 ^ 8 <= / 1) by (apply Rinv_le_contravar; [lra|apply pow_R1_Rle; lra]). rewrite Rinv_1 in B. lra. }
    rewrite A. reflexivity.
Qed.
Lemma altered_refuted_l :
  exists e', snd (afterwards BakerCousinsLL false [1] [0]) = vec1 e' /\ e' <> [0] /\
  exists o', fst (afterwards Neyman false [0] [1]) = vec1 o' /\ o' <> [0].
Proof.
  pose proof eps_pos. pose proof (clamp_pos 0). eexists. rewrite afterwards_l by reflexivity. split; [reflexivity|].
  split; [cbn; intro E; injection E; lra|]. eexists. rewrite afterwards_l by reflexivity. split; [reflexivity|].
  cbn. intro E. injection E. lra.
Qed.
Lemma int_penalty_l :
  penalty Neyman (PInt 3) (PInt 0) (PInt 2) = Ok 1 /\ penalty BakerCousinsChi (PInt 3) (PInt 0) (PInt 2) = Ok (9 / 4).
Proof.
  split.
  - cbn. f_equal. ring.
  - unfold penalty, py_div, py_sub, to_float. cbn [to_R]. destruct (Req_EM_T 2 0); [lra|]. cbn. f_equal. field.
Qed.

(** Decay conversions. *)
From Coq Require Import Reals Lra.
From Verif Require Import Model.Base Model.Decay Spec.DecaySpec.
Local Open Scope R_scope.

Lemma pow2_gt_0 x : x <> 0 -> 0 < x ^ 2.
Proof. intro H. replace (x ^ 2) with (x * x) by ring. now apply Rsqr_pos_lt. Qed.
Lemma ln2_pos : 0 < ln 2. Proof. rewrite <- ln_1. apply ln_increasing; lra. Qed.
Lemma em_pos : 0 < electron_mass. Proof. unfold electron_mass. lra. Qed.
Lemma rdiv_ok x y : y <> 0 -> rdiv x y = Ok (x / y).
Proof. intro N. unfold rdiv. destruct (Req_EM_T y 0); [contradiction|reflexivity]. Qed.
Lemma atoms_with i n N : with_atoms i n N -> atoms i n = Ok N.
Proof. destruct n; cbn; [now intros ->|auto]. Qed.

(** Closed forms *)
Lemma h2a_ok i t n N : with_atoms i n N -> t <> 0 -> half_life_to_activity i t n = Ok (ln 2 / t * N).
Proof. intros W T. unfold half_life_to_activity. rewrite (atoms_with _ _ _ W). cbn. now rewrite (rdiv_ok _ _ T). Qed.
Lemma a2h_ok i a n N : with_atoms i n N -> a <> 0 -> activity_to_half_life i a n = Ok (ln 2 * N / a).
Proof. intros W T. unfold activity_to_half_life. rewrite (atoms_with _ _ _ W). cbn. now rewrite (rdiv_ok _ _ T). Qed.
Lemma a2c_ok a l : 0 < l -> activity_to_counts a l = Ok (a * l).
Proof. intro L. unfold activity_to_counts. destruct (Rle_dec l 0); [lra|reflexivity]. Qed.
Lemma c2a_ok c l : 0 < l -> counts_to_activity c l = Ok (c / l).
Proof. intro L. unfold counts_to_activity. destruct (Rle_dec l 0); [lra|]. apply rdiv_ok. lra. Qed.
Lemma h2c_ok i t n N l : with_atoms i n N -> t <> 0 -> 0 < l -> half_life_to_counts i t n l = Ok (ln 2 / t * N * l).
Proof.
  intros W T L. unfold half_life_to_counts. rewrite (atoms_with _ _ _ W). cbn [rbind]. destruct (Rle_dec l 0); [lra|].
  rewrite (h2a_ok i t (Some N) N eq_refl T). cbn [rbind]. now apply a2c_ok.
Qed.
Lemma c2h_ok i c n N l : with_atoms i n N -> c <> 0 -> 0 < l -> counts_to_half_life i c n l = Ok (ln 2 * N * l / c).
Proof.
  intros W T L. unfold counts_to_half_life. rewrite (atoms_with _ _ _ W). cbn [rbind]. destruct (Rle_dec l 0); [lra|].
  rewrite (c2a_ok _ _ L). cbn [rbind]. rewrite (a2h_ok i (c / l) (Some N) N eq_refl).
  - f_equal. field. split; lra.
  - intro E. apply T. replace c with (c / l * l) by (field; lra). rewrite E. lra.
Qed.
Lemma pm_pos i : 0 < i_phase i -> i_matrix i <> 0 -> 0 < i_phase i * i_matrix i ^ 2.
Proof. intros P M. apply Rmult_lt_0_compat; [exact P|]. apply pow2_gt_0, M. Qed.
Lemma m2h_ok i m : 0 < i_phase i -> i_matrix i <> 0 -> 0 < m ->
  eff_mass_to_half_life i m = Ok (electron_mass ^ 2 / (i_phase i * i_matrix i ^ 2 * m ^ 2)).
Proof.
  intros P M H. assert (E := em_pos). assert (Q := pm_pos i P M). unfold eff_mass_to_half_life. destruct (Rle_dec m 0); [lra|].
  assert (E2 : electron_mass ^ 2 <> 0) by (apply pow_nonzero; lra). assert (M2 : m ^ 2 <> 0) by (apply pow_nonzero; lra).
  rewrite (rdiv_ok _ _ E2). cbn [rbind]. rewrite rdiv_ok.
  - f_equal. field. repeat split; lra.
  - intro Z. apply Rmult_integral in Z as [Z|Z]; [lra|]. apply M2. replace (m ^ 2) with (m ^ 2 / electron_mass ^ 2 * electron_mass ^ 2) by (field; lra).
    rewrite Z. lra.
Qed.
Lemma h2m_ok i t : 0 < i_phase i -> i_matrix i <> 0 -> 0 < t ->
  half_life_to_eff_mass i t = Ok (sqrt (electron_mass ^ 2 / (i_phase i * i_matrix i ^ 2 * t))).
Proof.
  intros P M T. assert (Q := pm_pos i P M). assert (QT : 0 < i_phase i * i_matrix i ^ 2 * t) by (now apply Rmult_lt_0_compat).
  unfold half_life_to_eff_mass. rewrite rdiv_ok by lra. cbn [rbind]. unfold rsqrt. destruct (Rlt_dec _ 0) as [L|]; [|reflexivity].
  exfalso. assert (0 < electron_mass ^ 2 / (i_phase i * i_matrix i ^ 2 * t)); [|lra].
  apply Rdiv_lt_0_compat; [apply pow_lt, em_pos|exact QT].
Qed.

(** Round trips *)
Lemma half_life_activity_l i t n N : with_atoms i n N -> N <> 0 -> t <> 0 ->
  exists a, half_life_to_activity i t n = Ok a /\ a = ln 2 / t * N /\ activity_to_half_life i a n = Ok t.
Proof.
  intros W NN T. exists (ln 2 / t * N). split; [now apply h2a_ok|]. split; [reflexivity|]. assert (L := ln2_pos). rewrite (a2h_ok _ _ _ _ W).
  - f_equal. field. repeat split; lra.
  - apply Rmult_integral_contrapositive_currified; [|exact NN]. unfold Rdiv. apply Rmult_integral_contrapositive_currified; [lra|]. now apply Rinv_neq_0_compat.
Qed.
Lemma activity_half_life_l i a n N : with_atoms i n N -> N <> 0 -> a <> 0 ->
  exists t, activity_to_half_life i a n = Ok t /\ t = ln 2 * N / a /\ half_life_to_activity i t n = Ok a.
Proof.
  intros W NN T. exists (ln 2 * N / a). split; [now apply a2h_ok|]. split; [reflexivity|]. assert (L := ln2_pos).
  assert (X : ln 2 * N / a <> 0).
  { unfold Rdiv. apply Rmult_integral_contrapositive_currified; [|now apply Rinv_neq_0_compat]. apply Rmult_integral_contrapositive_currified; lra. }
  rewrite (h2a_ok _ _ _ _ W X). f_equal. field. repeat split; lra.
Qed.
Lemma activity_counts_l a l : 0 < l -> exists c, activity_to_counts a l = Ok c /\ c = a * l /\ counts_to_activity c l = Ok a.
Proof. intro L. exists (a * l). rewrite a2c_ok, c2a_ok by exact L. repeat split. f_equal. field. lra. Qed.
Lemma counts_activity_l c l : 0 < l -> exists a, counts_to_activity c l = Ok a /\ a = c / l /\ activity_to_counts a l = Ok c.
Proof. intro L. exists (c / l). rewrite a2c_ok, c2a_ok by exact L. repeat split. f_equal. field. lra. Qed.
Lemma half_life_counts_l i t n N l : with_atoms i n N -> N <> 0 -> t <> 0 -> 0 < l ->
  exists c, half_life_to_counts i t n l = Ok c /\ c = ln 2 * N * l / t /\ counts_to_half_life i c n l = Ok t.
Proof.
  intros W NN T L. exists (ln 2 * N * l / t). assert (P := ln2_pos). rewrite (h2c_ok _ _ _ _ _ W T L). split; [f_equal; field; exact T|]. split; [reflexivity|].
  rewrite (c2h_ok _ _ _ _ _ W).
  - f_equal. field. repeat split; lra.
  - unfold Rdiv. repeat apply Rmult_integral_contrapositive_currified; try lra. now apply Rinv_neq_0_compat.
  - exact L.
Qed.
Lemma counts_half_life_l i c n N l : with_atoms i n N -> N <> 0 -> c <> 0 -> 0 < l ->
  exists t, counts_to_half_life i c n l = Ok t /\ t = ln 2 * N * l / c /\ half_life_to_counts i t n l = Ok c.
Proof.
  intros W NN T L. exists (ln 2 * N * l / c). assert (P := ln2_pos). rewrite (c2h_ok _ _ _ _ _ W T L). split; [reflexivity|]. split; [reflexivity|].
  rewrite (h2c_ok _ _ _ _ _ W).
  - f_equal. field. repeat split; lra.
  - unfold Rdiv. repeat apply Rmult_integral_contrapositive_currified; try lra. now apply Rinv_neq_0_compat.
  - exact L.
Qed.
Lemma mass_half_life_l i m : 0 < i_phase i -> i_matrix i <> 0 -> 0 < m ->
  exists t, eff_mass_to_half_life i m = Ok t /\ 0 < t /\ / t = i_phase i * i_matrix i ^ 2 * (m / electron_mass) ^ 2 /\ half_life_to_eff_mass i t = Ok m.
Proof.
  intros P M H. assert (E := em_pos). assert (Q := pm_pos i P M). eexists. split; [now apply m2h_ok|].
  assert (M2 : 0 < m ^ 2) by (now apply pow_lt). assert (E2 : 0 < electron_mass ^ 2) by (now apply pow_lt).
  assert (T : 0 < electron_mass ^ 2 / (i_phase i * i_matrix i ^ 2 * m ^ 2)).
  { apply Rdiv_lt_0_compat; [exact E2|]. now apply Rmult_lt_0_compat. }
  split; [exact T|]. split.
  - field. repeat split; lra.
  - rewrite (h2m_ok i _ P M T). f_equal. rewrite <- (sqrt_pow2 m) at 2 by lra. f_equal. field. repeat split; lra.
Qed.
Lemma half_life_mass_l i t : 0 < i_phase i -> i_matrix i <> 0 -> 0 < t ->
  exists m, half_life_to_eff_mass i t = Ok m /\ 0 < m /\ eff_mass_to_half_life i m = Ok t.
Proof.
  intros P M T. assert (E := em_pos). assert (Q := pm_pos i P M). eexists. split; [now apply h2m_ok|].
  assert (E2 : 0 < electron_mass ^ 2) by (now apply pow_lt).
  assert (X : 0 < electron_mass ^ 2 / (i_phase i * i_matrix i ^ 2 * t)).
  { apply Rdiv_lt_0_compat; [exact E2|]. now apply Rmult_lt_0_compat. }
  assert (S := sqrt_lt_R0 _ X). split; [exact S|]. rewrite (m2h_ok i _ P M S). f_equal. rewrite pow2_sqrt by lra. field. repeat split; lra.
Qed.
Lemma c2m_ok i c n N l : with_atoms i n N -> 0 < i_phase i -> i_matrix i <> 0 -> 0 < N -> 0 < c -> 0 < l ->
  counts_to_eff_mass i c n l = Ok (electron_mass * sqrt (c / (i_phase i * i_matrix i ^ 2 * (ln 2 * N * l)))).
Proof.
  intros W P M NN C L. assert (E := em_pos). assert (Q := pm_pos i P M). assert (LN := ln2_pos). unfold counts_to_eff_mass. rewrite (atoms_with _ _ _ W). cbn [rbind].
  destruct (Rle_dec l 0); [lra|]. rewrite (c2h_ok i c (Some N) N l eq_refl) by lra. cbn [rbind].
  assert (T : 0 < ln 2 * N * l) by (repeat apply Rmult_lt_0_compat; lra).
  rewrite (h2m_ok i _ P M) by (now apply Rdiv_lt_0_compat). f_equal.
  rewrite <- (sqrt_pow2 electron_mass) at 2 by lra. rewrite <- sqrt_mult_alt by (apply pow2_ge_0). f_equal. field. repeat split; lra.
Qed.
Lemma m2c_ok i m n N l : with_atoms i n N -> 0 < i_phase i -> i_matrix i <> 0 -> 0 < m -> 0 < l ->
  eff_mass_to_counts i m n l = Ok (i_phase i * i_matrix i ^ 2 * (m / electron_mass) ^ 2 * ln 2 * N * l).
Proof.
  intros W P M H L. assert (E := em_pos). assert (Q := pm_pos i P M). unfold eff_mass_to_counts. destruct (Rle_dec m 0); [lra|].
  rewrite (atoms_with _ _ _ W). cbn [rbind]. destruct (Rle_dec l 0); [lra|].
  destruct (mass_half_life_l i m P M H) as (t & T1 & T2 & T3 & _). rewrite T1. cbn [rbind]. rewrite (h2c_ok i t (Some N) N l eq_refl) by lra.
  f_equal. unfold Rdiv at 1. rewrite T3. ring.
Qed.
Lemma counts_mass_l i c n N l : with_atoms i n N -> 0 < i_phase i -> i_matrix i <> 0 -> 0 < N -> 0 < c -> 0 < l ->
  exists m, counts_to_eff_mass i c n l = Ok m /\ 0 < m /\ eff_mass_to_counts i m n l = Ok c.
Proof.
  intros W P M NN C L. assert (E := em_pos). assert (Q := pm_pos i P M). assert (LN := ln2_pos).
  assert (T : 0 < ln 2 * N * l) by (repeat apply Rmult_lt_0_compat; lra).
  assert (X : 0 < c / (i_phase i * i_matrix i ^ 2 * (ln 2 * N * l))) by (apply Rdiv_lt_0_compat; [exact C|now apply Rmult_lt_0_compat]).
  eexists. split; [now apply (c2m_ok i c n N l)|]. assert (S := sqrt_lt_R0 _ X). split; [now apply Rmult_lt_0_compat|].
  rewrite (m2c_ok i _ n N l W P M) by (try (apply Rmult_lt_0_compat; assumption); exact L). f_equal.
  replace (electron_mass * sqrt (c / (i_phase i * i_matrix i ^ 2 * (ln 2 * N * l))) / electron_mass) with (sqrt (c / (i_phase i * i_matrix i ^ 2 * (ln 2 * N * l)))) by (field; lra).
  rewrite pow2_sqrt by lra. field. repeat split; lra.
Qed.
Lemma mass_counts_l i m n N l : with_atoms i n N -> 0 < i_phase i -> i_matrix i <> 0 -> 0 < N -> 0 < m -> 0 < l ->
  exists c, eff_mass_to_counts i m n l = Ok c /\ 0 < c /\ counts_to_eff_mass i c n l = Ok m.
Proof.
  intros W P M NN H L. assert (E := em_pos). assert (Q := pm_pos i P M). assert (LN := ln2_pos).
  assert (R2 : 0 < (m / electron_mass) ^ 2) by (apply pow_lt; now apply Rdiv_lt_0_compat).
  assert (C : 0 < i_phase i * i_matrix i ^ 2 * (m / electron_mass) ^ 2 * ln 2 * N * l) by (do 3 (apply Rmult_lt_0_compat; [|lra]); now apply Rmult_lt_0_compat).
  eexists. split; [exact (m2c_ok i m n N l W P M H L)|]. split; [exact C|]. rewrite (c2m_ok i _ n N l W P M NN C L). f_equal.
  replace (i_phase i * i_matrix i ^ 2 * (m / electron_mass) ^ 2 * ln 2 * N * l / (i_phase i * i_matrix i ^ 2 * (ln 2 * N * l))) with ((m / electron_mass) ^ 2) by (field; repeat split; lra).
  rewrite sqrt_pow2 by (apply Rlt_le; now apply Rdiv_lt_0_compat). field. lra.
Qed.

(** Monotonicity *)
Lemma decreasing_l k x y : 0 < k -> 0 < x < y -> k / y < k / x.
Proof. intros K [X Y]. unfold Rdiv. apply Rmult_lt_compat_l; [exact K|]. apply Rinv_lt_contravar; [|exact Y]. apply Rmult_lt_0_compat; lra. Qed.
Lemma mono_l i n N l x y : with_atoms i n N -> 0 < i_phase i -> i_matrix i <> 0 -> 0 < N -> 0 < l -> 0 < x < y ->
  (forall a b, half_life_to_counts i x n l = Ok a -> half_life_to_counts i y n l = Ok b -> b < a) /\
  (forall a b, counts_to_half_life i x n l = Ok a -> counts_to_half_life i y n l = Ok b -> b < a) /\
  (forall a b, half_life_to_eff_mass i x = Ok a -> half_life_to_eff_mass i y = Ok b -> b < a) /\
  (forall a b, eff_mass_to_half_life i x = Ok a -> eff_mass_to_half_life i y = Ok b -> b < a) /\
  (forall a b, counts_to_eff_mass i x n l = Ok a -> counts_to_eff_mass i y n l = Ok b -> a < b) /\
  (forall a b, eff_mass_to_counts i x n l = Ok a -> eff_mass_to_counts i y n l = Ok b -> a < b).
Proof.
  intros W P M NN L [X Y]. assert (E := em_pos). assert (Q := pm_pos i P M). assert (LN := ln2_pos).
  assert (T : 0 < ln 2 * N * l) by (repeat apply Rmult_lt_0_compat; lra). assert (E2 : 0 < electron_mass ^ 2) by (now apply pow_lt).
  assert (H2 : x ^ 2 < y ^ 2) by (assert (0 < (y - x) * (y + x)) by (apply Rmult_lt_0_compat; lra); lra).
  assert (X2 : 0 < x ^ 2) by (now apply pow_lt).
  repeat split; intros a b.
  - rewrite !(h2c_ok i _ n N l W) by lra. intros A B. injection A as <-. injection B as <-.
    replace (ln 2 / y * N * l) with (ln 2 * N * l / y) by (field; lra). replace (ln 2 / x * N * l) with (ln 2 * N * l / x) by (field; lra).
    apply decreasing_l; auto.
  - rewrite !(c2h_ok i _ n N l W) by lra. intros A B. injection A as <-. injection B as <-. apply decreasing_l; auto.
  - rewrite !(h2m_ok i _ P M) by lra. intros A B. injection A as <-. injection B as <-. apply sqrt_lt_1_alt. split.
    + apply Rlt_le, Rdiv_lt_0_compat; [exact E2|]. apply Rmult_lt_0_compat; lra.
    + apply decreasing_l; [exact E2|]. split; [apply Rmult_lt_0_compat; lra|]. apply Rmult_lt_compat_l; lra.
  - rewrite !(m2h_ok i _ P M) by lra. intros A B. injection A as <-. injection B as <-. apply decreasing_l; [exact E2|].
    split; [apply Rmult_lt_0_compat; [exact Q|exact X2]|]. apply Rmult_lt_compat_l; [exact Q|exact H2].
  - rewrite !(c2m_ok i _ n N l W P M) by lra. intros A B. injection A as <-. injection B as <-. apply Rmult_lt_compat_l; [exact E|].
    apply sqrt_lt_1_alt. assert (K : 0 < i_phase i * i_matrix i ^ 2 * (ln 2 * N * l)) by (now apply Rmult_lt_0_compat). split.
    + apply Rlt_le, Rdiv_lt_0_compat; lra.
    + unfold Rdiv. apply Rmult_lt_compat_r; [now apply Rinv_0_lt_compat|lra].
  - rewrite !(m2c_ok i _ n N l W P M) by lra. intros A B. injection A as <-. injection B as <-.
    assert (H3 : (x / electron_mass) ^ 2 < (y / electron_mass) ^ 2).
    { unfold Rdiv. rewrite !Rpow_mult_distr. apply Rmult_lt_compat_r; [|exact H2]. apply pow_lt, Rinv_0_lt_compat, E. }
    repeat (apply Rmult_lt_compat_r; [lra|]). apply Rmult_lt_compat_l; [exact Q|exact H3].
Qed.

(** Rejections *)
Lemma reject_l i c n l : l <= 0 -> (forall N, atoms i n <> Err N \/ N = EValueError) ->
  activity_to_counts c l = Err EValueError /\ counts_to_activity c l = Err EValueError /\
  half_life_to_counts i c n l = Err EValueError /\ counts_to_half_life i c n l = Err EValueError /\
  counts_to_eff_mass i c n l = Err EValueError /\ eff_mass_to_counts i c n l = Err EValueError.
Proof.
  intros L A. unfold half_life_to_counts, counts_to_half_life, counts_to_eff_mass, eff_mass_to_counts, activity_to_counts, counts_to_activity.
  assert (X : exists r, atoms i n = r /\ (r = Err EValueError \/ exists N, r = Ok N)).
  { eexists. split; [reflexivity|]. destruct (atoms i n) as [N|e] eqn:Ea; [right; eauto|left]. destruct (A e) as [B|B]; congruence. }
  destruct X as (r & -> & X). destruct (Rle_dec l 0); [|contradiction]. repeat split; destruct X as [->|[N ->]]; cbn; try reflexivity; destruct (Rle_dec c 0); reflexivity.
Qed.

(** Number of atoms *)
Lemma amu_pos : 0 < atomic_mass_unit.
Proof. unfold atomic_mass_unit. apply Rdiv_lt_0_compat; [lra|apply pow_lt; lra]. Qed.
Lemma avo_pos : 0 < n_avogadro.
Proof. unfold n_avogadro. apply Rmult_lt_0_compat; [lra|apply pow_lt; lra]. Qed.
Lemma n_atoms_l i loading density mass radius : i_weight i <> 0 -> i_weight_nat i <> 0 ->
  0 < opt_or radius (i_radius i) -> 0 <= opt_or loading (i_loading i) <= 1 ->
  get_n_atoms i loading density None mass radius =
    Ok (i_abundance i * opt_or loading (i_loading i) *
        opt_or mass (opt_or density (i_density i) * (4 / 3 * PI * opt_or radius (i_radius i) ^ 3)) * (n_avogadro * 1000) / i_weight_nat i).
Proof.
  intros W WN R L. assert (A := amu_pos). unfold get_n_atoms. destruct (Rle_dec _ 0); [lra|]. destruct (Rlt_dec _ 0); [lra|]. destruct (Rlt_dec 1 _); [lra|].
  rewrite rdiv_ok by (apply Rmult_integral_contrapositive_currified; lra). cbn [rbind].
  rewrite rdiv_ok by (apply Rmult_integral_contrapositive_currified; lra).
  destruct mass as [m|]; cbn [opt_or]; f_equal; field; repeat split; lra.
Qed.
Lemma n_atoms_target_l i loading density target mass radius : i_weight i <> 0 ->
  0 < opt_or radius (i_radius i) -> 0 <= opt_or loading (i_loading i) <= 1 ->
  get_n_atoms i loading density (Some target) mass radius = Ok (target * n_avogadro * 1000 / i_weight i).
Proof.
  intros W R L. unfold get_n_atoms. destruct (Rle_dec _ 0); [lra|]. destruct (Rlt_dec _ 0); [lra|]. destruct (Rlt_dec 1 _); [lra|].
  cbn [rbind]. rewrite rdiv_ok by (apply Rmult_integral_contrapositive_currified; lra). f_equal. field. exact W.
Qed.
Lemma n_atoms_reject_l i loading density target mass radius :
  (opt_or radius (i_radius i) <= 0 \/ opt_or loading (i_loading i) < 0 \/ 1 < opt_or loading (i_loading i)) ->
  get_n_atoms i loading density target mass radius = Err EValueError.
Proof.
  intro H. unfold get_n_atoms. destruct (Rle_dec _ 0); [reflexivity|]. destruct (Rlt_dec _ 0); [reflexivity|]. destruct (Rlt_dec 1 _); [reflexivity|]. lra.
Qed.
Lemma physical_atoms_l i : physical i -> exists N, get_n_atoms i None None None None None = Ok N /\ 0 < N.
Proof.
  intros (A & B & C & D & E & F & G & H). eexists. split; [apply n_atoms_l; cbn; lra|]. cbn [opt_or]. assert (P := PI_RGT_0). assert (AV := avo_pos).
  apply Rdiv_lt_0_compat; [|exact B]. apply Rmult_lt_0_compat; [|lra]. apply Rmult_lt_0_compat; [apply Rmult_lt_0_compat; lra|].
  apply Rmult_lt_0_compat; [exact H|]. apply Rmult_lt_0_compat; [lra|]. now apply pow_lt.
Qed.

(** Construction *)
Lemma new_isotope_l w wn ab ps me l r d i : new_isotope w wn ab ps me l r d = Ok i ->
  i_weight i = w /\ i_weight_nat i = wn /\ i_abundance i = ab /\ i_phase i = ps /\ i_matrix i = me /\
  0 <= i_abundance i <= 1 /\ 0 < i_loading i <= 1 /\ 0 < i_radius i /\
  (forall x, l = Some x -> x <> 0 -> i_loading i = x) /\ (forall x, r = Some x -> x <> 0 -> i_radius i = x) /\
  (forall x, d = Some x -> x <> 0 -> i_density i = x) /\
  (l = None -> i_loading i = default_loading) /\ (r = None -> i_radius i = av_radius) /\ (d = None -> i_density i = default_density).
Proof.
  unfold new_isotope. destruct (Rlt_dec ab 0); [discriminate|]. destruct (Rlt_dec 1 ab); [discriminate|].
  intro H.
  assert (GL : forall x : option R, (exists y, x = Some y /\ y <> 0 /\ given x = Some y) \/ ((x = None \/ x = Some 0) /\ given x = None)).
  { intros [y|]; cbn; [|auto]. destruct (Req_EM_T y 0) as [->|Z]; [auto|left; eauto]. }
  assert (DL : 0 < default_loading <= 1) by (unfold default_loading; lra). assert (DR : 0 < av_radius) by (unfold av_radius; lra).
  destruct (GL l) as [(yl & El & Zl & Gl)|[El Gl]], (GL r) as [(yr & Er & Zr & Gr)|[Er Gr]], (GL d) as [(yd & Ed & Zd & Gd)|[Ed Gd]];
    rewrite Gl, Gr, Gd in H; cbn [rbind] in H;
    try (destruct (Rlt_dec yl 0); [discriminate|]; destruct (Rlt_dec 1 yl); [discriminate|]); cbn [rbind] in H;
    try (destruct (Rle_dec yr 0); [discriminate|]); cbn [rbind] in H; injection H as <-; cbn;
    repeat split; try lra; intros; subst; try congruence;
    repeat match goal with X : _ \/ _ |- _ => destruct X end; try congruence.
Qed.

Lemma new_reject_l w wn ab ps me l r d :
  (exists i, new_isotope w wn ab ps me l r d = Ok i) \/ new_isotope w wn ab ps me l r d = Err EValueError /\
    (ab < 0 \/ 1 < ab \/ (exists x, l = Some x /\ (x < 0 \/ 1 < x)) \/ (exists x, r = Some x /\ x < 0)).
Proof.
  unfold new_isotope. destruct (Rlt_dec ab 0); [right; split; [reflexivity|tauto]|]. destruct (Rlt_dec 1 ab); [right; split; [reflexivity|tauto]|].
  assert (L : (exists x, match given l with Some l => if Rlt_dec l 0 then Err EValueError else if Rlt_dec 1 l then Err EValueError else Ok l | None => Ok default_loading end = Ok x)
    \/ match given l with Some l => if Rlt_dec l 0 then Err EValueError else if Rlt_dec 1 l then Err EValueError else Ok l | None => Ok default_loading end = Err EValueError /\ exists x, l = Some x /\ (x < 0 \/ 1 < x)).
  { destruct l as [l|]; cbn; [|left; eexists; reflexivity]. destruct (Req_EM_T l 0); [left; eexists; reflexivity|].
    destruct (Rlt_dec l 0); [right; split; [reflexivity|]; exists l; tauto|]. destruct (Rlt_dec 1 l); [right; split; [reflexivity|]; exists l; tauto|]. left; eexists; reflexivity. }
  destruct L as [[x ->]|[-> X]]; cbn [rbind]; [|right; split; [reflexivity|tauto]].
  destruct r as [r|]; cbn [given rbind]; [|left; eexists; reflexivity]. destruct (Req_EM_T r 0); cbn [rbind]; [left; eexists; reflexivity|].
  destruct (Rle_dec r 0); cbn [rbind]; [|left; eexists; reflexivity]. right. split; [reflexivity|]. right; right; right. exists r. split; [reflexivity|lra].
Qed.
Lemma rdiv_zero x : rdiv x 0 = Err EZeroDivisionError.
Proof. unfold rdiv. destruct (Req_EM_T 0 0); [reflexivity|contradiction]. Qed.
Lemma zero_l i n N l : with_atoms i n N -> 0 < l ->
  half_life_to_activity i 0 n = Err EZeroDivisionError /\ activity_to_half_life i 0 n = Err EZeroDivisionError /\
  half_life_to_eff_mass i 0 = Err EZeroDivisionError /\ half_life_to_counts i 0 n l = Err EZeroDivisionError /\
  counts_to_half_life i 0 n l = Err EZeroDivisionError /\ counts_to_eff_mass i 0 n l = Err EZeroDivisionError.
Proof.
  intros A L. apply atoms_with in A.
  assert (Z : rdiv 0 l = Ok 0). { unfold rdiv. destruct (Req_EM_T l 0); [lra|]. f_equal. unfold Rdiv. ring. }
  unfold half_life_to_activity, activity_to_half_life, half_life_to_eff_mass, counts_to_eff_mass, half_life_to_counts, counts_to_half_life, half_life_to_activity, activity_to_half_life, counts_to_activity.
  rewrite A. cbn [rbind atoms]. destruct (Rle_dec l 0); [lra|]. rewrite Z, ?Rmult_0_r, ?rdiv_zero. cbn [rbind]. rewrite rdiv_zero. cbn. tauto.
Qed.
Lemma negative_l i t : 0 < i_phase i -> i_matrix i <> 0 -> t < 0 -> half_life_to_eff_mass i t = Err EValueError.
Proof.
  intros P M T. unfold half_life_to_eff_mass, rdiv, rsqrt. assert (X : 0 < i_phase i * i_matrix i ^ 2).
  { apply Rmult_lt_0_compat; [assumption|]. apply pow2_gt_0. assumption. }
  assert (Y : i_phase i * i_matrix i ^ 2 * t < 0). { replace 0 with (i_phase i * i_matrix i ^ 2 * 0) by ring. apply Rmult_lt_compat_l; assumption. }
  destruct (Req_EM_T (i_phase i * i_matrix i ^ 2 * t) 0); [lra|]. cbn [rbind].
  destruct (Rlt_dec (electron_mass ^ 2 / (i_phase i * i_matrix i ^ 2 * t)) 0) as [|N]; [reflexivity|]. exfalso. apply N.
  unfold Rdiv. replace 0 with (electron_mass ^ 2 * 0) by ring. apply Rmult_lt_compat_l; [apply pow_lt; unfold electron_mass; lra|]. now apply Rinv_lt_0_compat.
Qed.

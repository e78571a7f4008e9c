(** The integral of the Gaussian: with I(t) the integral of exp(-x^2) from 0 to t and G(t) that of
    exp(-t^2 (1+x^2)) / (1+x^2) from 0 to 1, I^2 + G is constant. *)
From Coq Require Import Reals Lra.
From Coquelicot Require Import Coquelicot.
From Verif Require Import Model.Weights Proofs.WeightsLemmas.
Local Open Scope R_scope.

Definition g (x : R) : R := exp (- x ^ 2).
Definition h (t x : R) : R := exp (- (t ^ 2 * (1 + x ^ 2))) / (1 + x ^ 2).
Definition I (t : R) : R := RInt g 0 t.
Definition G (t : R) : R := RInt (h t) 0 1.
Lemma pos1 x : 0 < 1 + x ^ 2. Proof. nra. Qed.
Lemma g_cont x : continuous g x.
Proof. apply (ex_derive_continuous g). unfold g. auto_derive. trivial. Qed.
Lemma g_int a b : ex_RInt g a b.
Proof. apply (ex_RInt_continuous (V := R_CompleteNormedModule)). intros. apply g_cont. Qed.
Lemma h_cont t x : continuous (h t) x.
Proof. apply (ex_derive_continuous (h t)). unfold h. auto_derive. assert (H := pos1 x). lra. Qed.
Lemma h_int t a b : ex_RInt (h t) a b.
Proof. apply (ex_RInt_continuous (V := R_CompleteNormedModule)). intros. apply h_cont. Qed.
Lemma I_der t : is_derive I t (g t).
Proof.
  apply (is_derive_RInt g I 0 t); [|apply g_cont]. exists (mkposreal 1 Rlt_0_1). intros y _. apply (RInt_correct (V := R_CompleteNormedModule)), g_int.
Qed.
Lemma h_der t x : is_derive (fun u => h u x) t (- 2 * t * exp (- (t ^ 2 * (1 + x ^ 2)))).
Proof. unfold h. assert (H := pos1 x). auto_derive; [lra|]. match goal with |- context [exp ?a] => replace a with (- (t ^ 2 * (1 + x ^ 2))) by ring end. field. simpl in *. lra. Qed.
Lemma G_der t : is_derive G t (RInt (fun x => - 2 * t * exp (- (t ^ 2 * (1 + x ^ 2)))) 0 1).
Proof.
  rewrite (RInt_ext _ (fun x => Derive (fun u => h u x) t)) by (intros; symmetry; apply is_derive_unique, h_der).
  apply is_derive_RInt_param.
  - exists (mkposreal 1 Rlt_0_1). intros y _ x _. eexists. apply h_der.
  - intros x _. apply continuity_2d_pt_ext with (fun u v => (- 2 * u) * exp (- (u ^ 2 * (1 + v ^ 2)))).
    { intros u v. symmetry. apply is_derive_unique, h_der. }
    apply continuity_2d_pt_mult.
    + apply continuity_2d_pt_mult; [apply continuity_2d_pt_const|apply continuity_2d_pt_id1].
    + apply (continuity_1d_2d_pt_comp exp (fun u v => - (u ^ 2 * (1 + v ^ 2)))).
      * apply derivable_continuous_pt, derivable_pt_exp.
      * apply continuity_2d_pt_opp. apply continuity_2d_pt_mult.
        { apply continuity_2d_pt_ext with (fun u v => u * u); [intros; ring|]. apply continuity_2d_pt_mult; apply continuity_2d_pt_id1. }
        apply continuity_2d_pt_plus; [apply continuity_2d_pt_const|].
        apply continuity_2d_pt_ext with (fun u v => v * v); [intros; ring|]. apply continuity_2d_pt_mult; apply continuity_2d_pt_id2.
  - exists (mkposreal 1 Rlt_0_1). intros y _. apply h_int.
Qed.
Lemma inner t : RInt (fun x => - 2 * t * exp (- (t ^ 2 * (1 + x ^ 2)))) 0 1 = - 2 * g t * I t.
Proof.
  apply is_RInt_unique. apply is_RInt_ext with (fun x => scal (- 2 * g t) (scal t (g (t * x + 0)))).
  - intros x _. unfold g, scal. simpl. unfold mult. simpl. replace (- (t * (t * 1) * (1 + x * (x * 1)))) with (- (t * (t * 1)) + - ((t * x + 0) * ((t * x + 0) * 1))) by ring.
    rewrite exp_plus. ring.
  - change (- 2 * g t * I t) with (scal (- 2 * g t) (I t)). apply (is_RInt_scal (V := R_NormedModule)), (is_RInt_comp_lin (V := R_NormedModule)).
    replace (t * 0 + 0) with 0 by ring. replace (t * 1 + 0) with t by ring. apply (RInt_correct (V := R_CompleteNormedModule)), g_int.
Qed.
Lemma sum_der t : is_derive (fun t => I t ^ 2 + G t) t 0.
Proof.
  assert (A := I_der t). assert (B := G_der t). rewrite inner in B.
  replace 0 with (INR 2 * g t * I t ^ 1 + (- 2 * g t * I t)) by (simpl; ring).
  apply (is_derive_plus (fun t => I t ^ 2) G); [|exact B]. apply (is_derive_pow I 2 t). exact A.
Qed.
Lemma h0 x : h 0 x = / (1 + x ^ 2).
Proof. unfold h. replace (- (0 ^ 2 * (1 + x ^ 2))) with 0 by ring. rewrite exp_0. unfold Rdiv. ring. Qed.
Lemma G0 : G 0 = PI / 4.
Proof.
  unfold G. rewrite (RInt_ext _ (fun x => / (1 + x ^ 2))).
  - rewrite (is_RInt_unique _ 0 1 (minus (atan 1) (atan 0))).
    + rewrite atan_1, atan_0. unfold minus, plus, opp. simpl. ring.
    + apply (is_RInt_derive atan).
      * intros x _. apply is_derive_Reals. assert (H := derivable_pt_lim_atan x). exact H.
      * intros x _. apply (ex_derive_continuous (fun x => / (1 + x ^ 2))). auto_derive. assert (K := pos1 x). lra.
  - intros x _. apply h0.
Qed.
Lemma const t : I t ^ 2 + G t = PI / 4.
Proof.
  rewrite <- G0. assert (E : I 0 ^ 2 + G 0 = G 0) by (unfold I; rewrite RInt_point; unfold zero; simpl; ring). rewrite <- E.
  destruct (MVT_gen (fun t => I t ^ 2 + G t) 0 t (fun _ => 0)) as (c & _ & H).
  - intros x _. apply sum_der.
  - intros x _. apply continuity_pt_filterlim. apply (ex_derive_continuous (fun t => I t ^ 2 + G t)). eexists. apply sum_der.
  - lra.
Qed.
Lemma G_bounds t : 0 <= G t <= exp (- t ^ 2).
Proof.
  split.
  - apply RInt_ge_0; [lra|apply h_int|]. intros x _. unfold h. left. apply Rdiv_lt_0_compat; [apply exp_pos|apply pos1].
  - replace (exp (- t ^ 2)) with (RInt (fun _ => exp (- t ^ 2)) 0 1) by (rewrite RInt_const; unfold scal; simpl; unfold mult; simpl; ring).
    apply RInt_le; [lra|apply h_int|apply ex_RInt_const|]. intros x _. unfold h. assert (P := pos1 x).
    apply Rle_trans with (exp (- (t ^ 2 * (1 + x ^ 2))) / 1).
    + apply Rmult_le_compat_l; [left; apply exp_pos|]. apply Rinv_le_contravar; nra.
    + unfold Rdiv. rewrite Rinv_1, Rmult_1_r. assert (H : - (t ^ 2 * (1 + x ^ 2)) <= - t ^ 2) by nra.
      destruct H as [H|H]; [left; now apply exp_increasing|rewrite H; lra].
Qed.
Lemma I_nonneg t : 0 <= t -> 0 <= I t.
Proof. intro T. apply RInt_ge_0; [exact T|apply g_int|]. intros. unfold g. left. apply exp_pos. Qed.
Lemma I_near t : 0 <= t -> 1 - 2 * exp (- t ^ 2) <= I t * (2 / sqrt PI) <= 1.
Proof.
  intro T. assert (C := const t). assert (B := G_bounds t). assert (N := I_nonneg t T). assert (P := PI_RGT_0). assert (P3 := PI2_3_2).
  assert (S : sqrt PI * sqrt PI = PI) by (apply sqrt_sqrt; lra). assert (Q : 0 < sqrt PI) by (apply sqrt_lt_R0; lra).
  set (r := sqrt PI) in *. set (y := I t * (2 / r)). assert (Y : I t = y * r / 2) by (unfold y; field; lra). assert (Y0 : 0 <= y).
  { unfold y. apply Rmult_le_pos; [exact N|]. left. apply Rdiv_lt_0_compat; lra. }
  rewrite Y in C. assert (E : (y * r / 2) ^ 2 = y * y * PI / 4) by (rewrite <- S; field).
  assert (D : (1 - y) * (1 + y) * PI = 4 * G t) by (rewrite E in C; lra).
  assert (L : y <= 1).
  { destruct (Rle_dec y 1) as [H|H]; [exact H|]. exfalso. assert (Z : 0 < (y - 1) * (1 + y)) by (apply Rmult_lt_0_compat; lra).
    assert (Z2 := Rmult_lt_0_compat _ _ Z P). lra. }
  split; [|exact L]. assert (Z : (1 - y) * PI <= 4 * G t).
  { rewrite <- D. apply Rmult_le_compat_r; [lra|]. rewrite <- (Rmult_1_r (1 - y)) at 1. apply Rmult_le_compat_l; lra. }
  assert (Z3 : (1 - y) * 3 <= (1 - y) * PI) by (apply Rmult_le_compat_l; lra). assert (Ep := exp_pos (- t ^ 2)). lra.
Qed.
Lemma I_even c : is_RInt g (- c) c (2 * I c).
Proof.
  replace (2 * I c) with (plus (I c) (I c)) by (unfold plus; simpl; ring).
  apply (is_RInt_Chasles (V := R_NormedModule)) with 0.
  - assert (H : is_RInt g 0 c (I c)) by (apply (RInt_correct (V := R_CompleteNormedModule)), g_int).
    apply is_RInt_swap in H. replace (I c) with (opp (opp (I c))) by (unfold opp; simpl; ring).
    apply (is_RInt_ext (V := R_NormedModule)) with (fun x => opp (opp (g (- x)))).
    + intros x _. unfold opp, g. simpl. replace (- x * (- x * 1)) with (x * (x * 1)) by ring. ring.
    + apply (is_RInt_opp (V := R_NormedModule)). apply (is_RInt_comp_opp (V := R_NormedModule)). now rewrite Ropp_involutive, Ropp_0.
  - apply (RInt_correct (V := R_CompleteNormedModule)), g_int.
Qed.
(** The part of the distribution within [k] sigma of the mean. *)
Lemma gauss_window m s k : 0 < s -> 0 <= k -> exists l, is_RInt (fun x => calc_gaussian x m s) (m - k * s) (m + k * s) l /\ 1 - 2 * exp (- k ^ 2 / 2) <= l <= 1.
Proof.
  intros S K. assert (P := PI_RGT_0). assert (Q : 0 < sqrt PI) by (apply sqrt_lt_R0; lra). assert (T : 0 < sqrt 2) by (apply sqrt_lt_R0; lra).
  assert (TT : sqrt 2 * sqrt 2 = 2) by (apply sqrt_sqrt; lra).
  exists (I (k / sqrt 2) * (2 / sqrt PI)). split.
  - apply (is_RInt_ext (V := R_NormedModule)) with (fun x => scal (/ sqrt PI) (scal (/ (s * sqrt 2)) (g (/ (s * sqrt 2) * x + - m / (s * sqrt 2))))).
    + intros x _. unfold calc_gaussian, g, scal. simpl. unfold mult. simpl. rewrite sqrt_mult by lra.
      replace (- ((x - m) * ((x - m) * 1)) / (2 * (s * (s * 1)))) with (- ((/ (s * sqrt 2) * x + - m / (s * sqrt 2)) * ((/ (s * sqrt 2) * x + - m / (s * sqrt 2)) * 1))).
      * field. lra.
      * rewrite <- TT at 5. field. lra.
    + replace (I (k / sqrt 2) * (2 / sqrt PI)) with (scal (/ sqrt PI) (2 * I (k / sqrt 2))) by (unfold scal; simpl; unfold mult; simpl; field; lra).
      apply (is_RInt_scal (V := R_NormedModule)), (is_RInt_comp_lin (V := R_NormedModule)).
      replace (/ (s * sqrt 2) * (m - k * s) + - m / (s * sqrt 2)) with (- (k / sqrt 2)) by (field; lra).
      replace (/ (s * sqrt 2) * (m + k * s) + - m / (s * sqrt 2)) with (k / sqrt 2) by (field; lra). apply I_even.
  - replace (- k ^ 2 / 2) with (- (k / sqrt 2) ^ 2).
    + apply I_near. apply Rmult_le_pos; [exact K|]. left. now apply Rinv_0_lt_compat.
    + replace ((k / sqrt 2) ^ 2) with (k ^ 2 / (sqrt 2 * sqrt 2)) by (field; lra). rewrite TT. field.
Qed.

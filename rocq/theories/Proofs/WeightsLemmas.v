From Coq Require Import Reals Lra Lia.
From Verif Require Import Model.Base Model.Resolution Model.Weights Spec.WeightsSpec.
Local Open Scope R_scope.

(** ** The memo table *)
Definition memo_ok (o : smearing) : Prop := (forall n v, memo_get n (sm_memo o) = Some v -> v = log_factorial n) /\ 0 < sm_ly o.
Lemma poisson_step o x lamb : memo_ok o ->
  fst (calc_poisson_energy o x lamb) = exp (IZR (r_int (x * sm_ly o)) * ln (lamb * sm_ly o) - log_factorial (r_int (x * sm_ly o)) - lamb * sm_ly o) /\
  memo_ok (snd (calc_poisson_energy o x lamb)) /\ same_settings (snd (calc_poisson_energy o x lamb)) o.
Proof.
  intros [M L]. unfold calc_poisson_energy. destruct (memo_get (r_int (x * sm_ly o)) (sm_memo o)) as [v|] eqn:E; cbn [fst snd].
  - rewrite (M _ _ E). repeat split; assumption.
  - repeat split; [|exact L]. cbn [sm_memo]. intros n v H. unfold memo_get in H. cbn [find fst] in H.
    destruct (Z.eqb_spec (r_int (x * sm_ly o)) n) as [->|]; cbn [snd] in H; [congruence|]. now apply M.
Qed.
Lemma same_refl o : same_settings o o. Proof. repeat split. Qed.
Lemma same_trans a b c : same_settings a b -> same_settings b c -> same_settings a c.
Proof. unfold same_settings. intuition congruence. Qed.
Lemma loop_step : forall es o mean sg, memo_ok o ->
  fst (weight_loop o es mean sg) = map (fun e => if sm_poisson o then exp (IZR (r_int (e * sm_ly o)) * ln (mean * sm_ly o) - log_factorial (r_int (e * sm_ly o)) - mean * sm_ly o)
                                                 else calc_gaussian e mean sg) es /\
  memo_ok (snd (weight_loop o es mean sg)) /\ same_settings (snd (weight_loop o es mean sg)) o.
Proof.
  induction es as [|e es IH]; intros o mean sg M; [cbn; repeat split; apply M|]. cbn [weight_loop map].
  destruct (sm_weight o e mean sg) as [w o1] eqn:W. assert (H : w = (if sm_poisson o then exp (IZR (r_int (e * sm_ly o)) * ln (mean * sm_ly o) - log_factorial (r_int (e * sm_ly o)) - mean * sm_ly o)
                                                 else calc_gaussian e mean sg) /\ memo_ok o1 /\ same_settings o1 o).
  { unfold sm_weight in W. destruct (sm_poisson o).
    - destruct (poisson_step o e mean M) as (A & B & C). rewrite W in *. cbn in *. auto.
    - injection W as <- <-. split; [reflexivity|]. split; [exact M|apply same_refl]. }
  destruct H as (-> & M1 & S1). destruct (IH o1 mean sg M1) as (A & B & C). destruct (weight_loop o1 es mean sg) as [ws o2]. cbn [fst snd] in *.
  split; [|split; [exact B|eapply same_trans; eassumption]]. rewrite A. f_equal. destruct S1 as (_ & -> & _ & ->). reflexivity.
Qed.
Lemma weights_memo o es mean : memo_ok o -> memo_ok (snd (sm_weights o es mean)) /\ same_settings (snd (sm_weights o es mean)) o.
Proof.
  intro M. unfold sm_weights. destruct (sm_sigma o mean) as [sg|x]; [|split; [exact M|apply same_refl]].
  destruct (loop_step es o mean sg M) as (_ & A & B). destruct (weight_loop o es mean sg). now split.
Qed.
Lemma used_ok o u : memo_ok o -> memo_ok (used o u).
Proof.
  intro M. destruct u as [x|x lamb|es mean]; cbn [used]; [|now apply poisson_step|now apply weights_memo].
  unfold sm_set_resolution. destruct (sm_res_class o).
  - destruct (set_res x); exact M.
  - unfold set_ly. destruct (Rlt_dec 0 x); cbn; [|exact M]. split; [apply M|assumption].
Qed.
Lemma reached_ok o : reached o -> memo_ok o.
Proof.
  assert (G : forall l o, memo_ok o -> memo_ok (fold_left used l o)) by (induction l; intros; cbn; [assumption|apply IHl; now apply used_ok]).
  assert (N : forall c p, memo_ok (Smearing c 200 None p [])) by (split; [discriminate|cbn; lra]).
  intros (p & l & [-> | ->]); apply G, N.
Qed.

(** ** Poisson *)
Lemma log_fact n : log_factorial (Z.of_nat n) = ln (INR (fact n)).
Proof.
  unfold log_factorial. rewrite Nat2Z.id.
  assert (G : forall m k, (0 < k)%nat -> fold_right (fun i s => ln (INR i) + s) 0 (seq k m) + ln (INR (fact (k - 1))) = ln (INR (fact (k + m - 1)))).
  { induction m as [|m IH]; intros k K; cbn [seq fold_right].
    - replace (k + 0 - 1)%nat with (k - 1)%nat by lia. lra.
    - specialize (IH (S k) ltac:(lia)).
      replace (S k - 1)%nat with (S (k - 1)) in IH by lia. rewrite fact_simpl, mult_INR, ln_mult in IH.
      + replace (S (k - 1)) with k in IH by lia. replace (k + S m - 1)%nat with (S k + m - 1)%nat by lia. lra.
      + apply lt_0_INR. lia.
      + apply INR_fact_lt_0. }
  specialize (G n 1%nat ltac:(lia)). change (INR (fact (1 - 1))) with 1 in G. rewrite ln_1 in G. replace (1 + n - 1)%nat with n in G by lia. lra.
Qed.
Lemma exp_pow_ln n mu : 0 < mu -> exp (INR n * ln mu) = mu ^ n.
Proof. intro M. rewrite <- (exp_ln (mu ^ n)) by (now apply pow_lt). f_equal. symmetry. now apply ln_pow. Qed.
Lemma pois_exp n mu : 0 < mu -> exp (INR n * ln mu - ln (INR (fact n)) - mu) = poisson mu n.
Proof.
  intro M. unfold poisson. unfold Rminus. rewrite !exp_plus, exp_pow_ln, exp_Ropp, exp_ln by (assumption || apply INR_fact_lt_0). unfold Rdiv. ring.
Qed.
Lemma r_int_nonneg x : 0 <= x -> r_int x = Z.of_nat (Z.to_nat (Int_part x)).
Proof.
  intro X. unfold r_int. destruct (Rle_dec 0 x); [|contradiction]. rewrite Z2Nat.id; [reflexivity|].
  destruct (base_Int_part x) as [A B]. apply le_IZR. assert (H : IZR (-1) < IZR (Int_part x)) by (replace (IZR (-1)) with (-1) by reflexivity; lra).
  apply lt_IZR in H. apply IZR_le. lia.
Qed.
Lemma poisson_l o x lamb : reached o -> 0 <= x -> 0 < lamb -> pweight o lamb x = poisson (lamb * sm_ly o) (Z.to_nat (Int_part (x * sm_ly o))).
Proof.
  intros R X L. apply reached_ok in R. unfold pweight. destruct (poisson_step o x lamb R) as (-> & _). destruct R as [_ Ly].
  rewrite r_int_nonneg by nra. rewrite log_fact, <- INR_IZR_INZ. apply pois_exp. nra.
Qed.
Lemma Int_part_INR n : Int_part (INR n) = Z.of_nat n.
Proof. rewrite INR_IZR_INZ. unfold Int_part. rewrite <- (tech_up (IZR (Z.of_nat n)) (Z.of_nat n + 1)); [lia| |]; rewrite plus_IZR; lra. Qed.
Lemma photons_l o n lamb : reached o -> 0 < lamb -> pweight o lamb (energy_of o n) = poisson (lamb * sm_ly o) n.
Proof.
  intros R L. assert (Ly := proj2 (reached_ok o R)). rewrite poisson_l; [|exact R| |exact L].
  - unfold energy_of. replace (INR n / sm_ly o * sm_ly o) with (INR n) by (field; lra). now rewrite Int_part_INR, Nat2Z.id.
  - unfold energy_of. apply Rmult_le_pos; [apply pos_INR|]. left. now apply Rinv_0_lt_compat.
Qed.
Lemma poisson_pos mu n : 0 < mu -> 0 < poisson mu n.
Proof.
  intro M. unfold poisson. apply Rdiv_lt_0_compat; [|apply INR_fact_lt_0]. apply Rmult_lt_0_compat; [now apply pow_lt|apply exp_pos].
Qed.

(** ** Sums *)
Lemma sum_scal f l c : infinite_sum f l -> infinite_sum (fun n => c * f n) (c * l).
Proof.
  intro H. assert (U : Un_cv (fun n => c * sum_f_R0 f n) (c * l)).
  { apply CV_mult; [|exact H]. intros eps E. exists 0%nat. intros. unfold R_dist. rewrite Rminus_diag_eq by reflexivity. now rewrite Rabs_R0. }
  intros eps E. destruct (U eps E) as [N HN]. exists N. intros n Hn. specialize (HN n Hn). rewrite scal_sum in HN.
  rewrite (sum_eq (fun i => c * f i) (fun i => f i * c)) by (intros; ring). exact HN.
Qed.
Lemma sum_plus f g l m : infinite_sum f l -> infinite_sum g m -> infinite_sum (fun n => f n + g n) (l + m).
Proof.
  intros F G. assert (U : Un_cv (fun n => sum_f_R0 f n + sum_f_R0 g n) (l + m)) by (now apply CV_plus).
  intros eps E. destruct (U eps E) as [N HN]. exists N. intros n Hn. specialize (HN n Hn). now rewrite <- plus_sum in HN.
Qed.
Lemma sum_ext f g l : (forall n, f n = g n) -> infinite_sum f l -> infinite_sum g l.
Proof.
  intros E F eps P. destruct (F eps P) as [N HN]. exists N. intros n Hn. rewrite <- (sum_eq f g n) by (intros; apply E). now apply HN.
Qed.
Lemma sum_shift f l : infinite_sum f l -> infinite_sum (fun n => match n with O => 0 | S m => f m end) l.
Proof.
  intros F eps P. destruct (F eps P) as [N HN]. exists (S N). intros n Hn. destruct n as [|n]; [lia|].
  rewrite decomp_sum by lia. cbn [Nat.pred]. rewrite Rplus_0_l. apply HN. lia.
Qed.
Lemma poisson_one mu : infinite_sum (poisson mu) 1.
Proof.
  replace 1 with (exp (- mu) * exp mu) by (rewrite <- exp_plus; replace (- mu + mu) with 0 by ring; apply exp_0).
  apply (sum_ext (fun n => exp (- mu) * (/ INR (fact n) * mu ^ n))).
  - intro n. unfold poisson, Rdiv. ring.
  - apply sum_scal. unfold exp at 1. destruct (exist_exp mu) as [l H]. exact H.
Qed.
Lemma poisson_succ mu n : INR (S n) * poisson mu (S n) = mu * poisson mu n.
Proof.
  unfold poisson. rewrite fact_simpl, mult_INR. cbn [pow]. field. split; [apply INR_fact_neq_0|]. apply not_0_INR. lia.
Qed.
Lemma poisson_mean mu : infinite_sum (fun n => INR n * poisson mu n) mu.
Proof.
  apply (sum_ext (fun n => match n with O => 0 | S m => mu * poisson mu m end)).
  - intros [|n]; [cbn; ring|symmetry; apply poisson_succ].
  - assert (H := sum_shift _ _ (sum_scal _ _ mu (poisson_one mu))). now rewrite Rmult_1_r in H.
Qed.
Lemma poisson_second mu : infinite_sum (fun n => INR n * (INR n - 1) * poisson mu n) (mu * mu).
Proof.
  apply (sum_ext (fun n => match n with O => 0 | S m => mu * (INR m * poisson mu m) end)).
  - intros [|n]; [cbn; ring|]. rewrite S_INR. replace (INR n + 1 - 1) with (INR n) by ring.
    transitivity (INR n * (INR (S n) * poisson mu (S n))); [rewrite poisson_succ; ring|rewrite S_INR; ring].
  - apply (sum_shift (fun m => mu * (INR m * poisson mu m))), sum_scal, poisson_mean.
Qed.
Lemma poisson_variance mu : infinite_sum (fun n => (INR n - mu) ^ 2 * poisson mu n) mu.
Proof.
  enough (H : infinite_sum (fun n => (INR n - mu) ^ 2 * poisson mu n) (mu * mu + ((1 - 2 * mu) * mu + mu ^ 2 * 1))).
  { replace (mu * mu + ((1 - 2 * mu) * mu + mu ^ 2 * 1)) with mu in H by ring. exact H. }
  apply (sum_ext (fun n => INR n * (INR n - 1) * poisson mu n + ((1 - 2 * mu) * (INR n * poisson mu n) + mu ^ 2 * poisson mu n))); [intro n; ring|].
  apply sum_plus; [apply poisson_second|]. apply sum_plus; [apply sum_scal, poisson_mean|apply sum_scal, poisson_one].
Qed.
Lemma weights_one o lamb : reached o -> 0 < lamb -> infinite_sum (fun n => pweight o lamb (energy_of o n)) 1.
Proof. intros R L. eapply sum_ext; [|apply (poisson_one (lamb * sm_ly o))]. intro n. symmetry. now apply photons_l. Qed.
Lemma weights_mean o lamb : reached o -> 0 < lamb -> infinite_sum (fun n => energy_of o n * pweight o lamb (energy_of o n)) lamb.
Proof.
  intros R L. assert (Ly := proj2 (reached_ok o R)). enough (H : infinite_sum (fun n => energy_of o n * pweight o lamb (energy_of o n)) (/ sm_ly o * (lamb * sm_ly o))).
  { replace (/ sm_ly o * (lamb * sm_ly o)) with lamb in H by (field; lra). exact H. }
  eapply sum_ext; [|apply sum_scal, poisson_mean]. intro n. cbn beta. rewrite photons_l by assumption. unfold energy_of, Rdiv. ring.
Qed.
Lemma weights_variance o lamb : reached o -> 0 < lamb -> infinite_sum (fun n => (energy_of o n - lamb) ^ 2 * pweight o lamb (energy_of o n)) (lamb / sm_ly o).
Proof.
  intros R L. assert (Ly := proj2 (reached_ok o R)). replace (lamb / sm_ly o) with ((/ sm_ly o) ^ 2 * (lamb * sm_ly o)) by (field; lra).
  eapply sum_ext; [|apply sum_scal, poisson_variance]. intro n. cbn beta. rewrite photons_l by assumption. unfold energy_of, Rdiv. field. lra.
Qed.

(** ** Histories *)
Lemma same_weights o o' es mean : reached o -> reached o' -> same_settings o o' -> fst (sm_weights o es mean) = fst (sm_weights o' es mean).
Proof.
  intros R R' (A & B & C & D). apply reached_ok in R, R'. unfold sm_weights. unfold sm_sigma. rewrite A, B, C.
  destruct (sm_res_class o').
  - destruct (sm_res o'); [|reflexivity]. destruct (loop_step es o mean (res_sigma r mean) R) as (X & _). destruct (loop_step es o' mean (res_sigma r mean) R') as (Y & _).
    destruct (weight_loop o es _ _), (weight_loop o' es _ _). cbn in *. rewrite X, Y, B, D. reflexivity.
  - destruct (loop_step es o mean (ly_sigma (sm_ly o') mean) R) as (X & _). destruct (loop_step es o' mean (ly_sigma (sm_ly o') mean) R') as (Y & _).
    destruct (weight_loop o es _ _), (weight_loop o' es _ _). cbn in *. rewrite X, Y, B, D. reflexivity.
Qed.
Lemma res_poisson_l o o' es mean ws ws' : reached o -> reached o' -> sm_res_class o = true -> sm_res_class o' = true -> sm_poisson o = true -> sm_poisson o' = true ->
  fst (sm_weights o es mean) = Ok ws -> fst (sm_weights o' es mean) = Ok ws' -> ws = ws'.
Proof.
  assert (LY : forall o, reached o -> sm_res_class o = true -> sm_ly o = 200).
  { assert (P : forall l o, (sm_res_class o = true -> sm_ly o = 200) -> memo_ok o -> sm_res_class (fold_left used l o) = true -> sm_ly (fold_left used l o) = 200).
    { induction l as [|u l IH]; intros a H M; [exact H|]. cbn [fold_left]. apply IH; [|now apply used_ok].
      destruct u as [x|x lamb|e m]; cbn [used].
      - unfold sm_set_resolution. destruct (sm_res_class a) eqn:E; [destruct (set_res x); cbn; auto|]. destruct (set_ly x); cbn; congruence.
      - destruct (poisson_step a x lamb M) as (_ & _ & (X & Y & _)). rewrite X, Y. exact H.
      - destruct (weights_memo a e m M) as (_ & (X & Y & _)). rewrite X, Y. exact H. }
    intros a (p & l & [-> | ->]) C; (apply P; [now cbn|split; [discriminate|cbn; lra]|exact C]). }
  intros R R' C C' P P' W W'. assert (L := LY o R C). assert (L' := LY o' R' C'). apply reached_ok in R, R'.
  unfold sm_weights in *. unfold sm_sigma in *. rewrite C in W. rewrite C' in W'.
  destruct (sm_res o) as [r|]; [|discriminate]. destruct (sm_res o') as [r'|]; [|discriminate].
  destruct (loop_step es o mean (res_sigma r mean) R) as (X & _). destruct (loop_step es o' mean (res_sigma r' mean) R') as (Y & _).
  destruct (weight_loop o es _ _), (weight_loop o' es _ _). cbn in *. rewrite P, L in X. rewrite P', L' in Y. congruence.
Qed.

(** ** Gauss *)
Lemma sqrt_2pi : 0 < sqrt (2 * PI).
Proof. apply sqrt_lt_R0. assert (H := PI_RGT_0). lra. Qed.
Lemma gauss_pos x m s : 0 < s -> 0 < calc_gaussian x m s.
Proof. intro S. apply Rdiv_lt_0_compat; [apply exp_pos|]. apply Rmult_lt_0_compat; [exact S|apply sqrt_2pi]. Qed.
Lemma gauss_sym d m s : calc_gaussian (m - d) m s = calc_gaussian (m + d) m s.
Proof. unfold calc_gaussian. do 3 f_equal. ring. Qed.
Lemma gauss_decreasing x y m s : 0 < s -> Rabs (x - m) < Rabs (y - m) -> calc_gaussian y m s < calc_gaussian x m s.
Proof.
  intros S D. unfold calc_gaussian. apply Rmult_lt_compat_r; [apply Rinv_0_lt_compat, Rmult_lt_0_compat; [exact S|apply sqrt_2pi]|].
  apply exp_increasing. unfold Rdiv. apply Rmult_lt_compat_r; [apply Rinv_0_lt_compat; nra|]. apply Ropp_lt_contravar.
  apply Rsqr_lt_abs_1 in D. unfold Rsqr in D. nra.
Qed.
Lemma gauss_peak m s : 0 < s -> calc_gaussian m m s = / (s * sqrt (2 * PI)).
Proof. intro S. unfold calc_gaussian. replace (- (m - m) ^ 2 / (2 * s ^ 2)) with 0 by (field; lra). rewrite exp_0. unfold Rdiv. ring. Qed.
Lemma gauss_standard x m s : 0 < s -> calc_gaussian x m s = calc_gaussian ((x - m) / s) 0 1 / s.
Proof.
  intro S. assert (H := sqrt_2pi). unfold calc_gaussian. replace (- ((x - m) / s - 0) ^ 2 / (2 * 1 ^ 2)) with (- (x - m) ^ 2 / (2 * s ^ 2)) by (field; lra). field. lra.
Qed.
Lemma reached_res o r : reached o -> sm_res o = Some r -> 0 < r < 1.
Proof.
  assert (G : forall l a, memo_ok a -> (forall r, sm_res a = Some r -> 0 < r < 1) -> forall r, sm_res (fold_left used l a) = Some r -> 0 < r < 1).
  { induction l as [|u l IH]; intros a M H; [exact H|]. cbn [fold_left]. apply IH; [now apply used_ok|].
    destruct u as [x|x lamb|es mean]; cbn [used].
    - unfold sm_set_resolution. destruct (sm_res_class a).
      + unfold set_res. destruct (Rlt_dec 0 x); [|exact H]. destruct (Rlt_dec x 1); [|exact H]. cbn. intros r' E. injection E as <-. lra.
      + destruct (set_ly x); exact H.
    - destruct (poisson_step a x lamb M) as (_ & _ & (_ & _ & -> & _)). exact H.
    - destruct (weights_memo a es mean M) as (_ & (_ & _ & -> & _)). exact H. }
  assert (N : forall c p, memo_ok (Smearing c 200 None p [])) by (split; [discriminate|cbn; lra]).
  intros (p & l & [-> | ->]); apply G; try apply N; discriminate.
Qed.
(** All the weights of a window are positive. *)
Lemma weights_positive o es mean ws : reached o -> 0 < mean -> fst (sm_weights o es mean) = Ok ws -> length ws = length es /\ Forall (fun w => 0 < w) ws.
Proof.
  intros R M W. assert (K := reached_ok o R). assert (Rs := reached_res o). unfold sm_weights in W. destruct (sm_sigma o mean) as [sg|x] eqn:Sg; [|discriminate].
  assert (P : 0 < sg).
  { unfold sm_sigma in Sg. destruct (sm_res_class o).
    - destruct (sm_res o) as [r|]; [|discriminate]. injection Sg as <-. apply Rmult_lt_0_compat; [now apply Rs|now apply sqrt_lt_R0].
    - injection Sg as <-. apply sqrt_lt_R0. apply Rdiv_lt_0_compat; [exact M|apply K]. }
  destruct (loop_step es o mean sg K) as (X & _). destruct (weight_loop o es mean sg) as [l o']. cbn in W, X. injection W as <-. subst l.
  split; [apply map_length|]. apply Forall_forall. intros w I. apply in_map_iff in I as (e & <- & _). destruct (sm_poisson o); [apply exp_pos|now apply gauss_pos].
Qed.
(** What the weights are. *)
Lemma weights_gauss o es mean sg : reached o -> sm_poisson o = false -> sm_sigma o mean = Ok sg ->
  fst (sm_weights o es mean) = Ok (map (fun e => calc_gaussian e mean sg) es).
Proof.
  intros R P S. apply reached_ok in R. unfold sm_weights. rewrite S. destruct (loop_step es o mean sg R) as (X & _). rewrite P in X.
  destruct (weight_loop o es mean sg). cbn in *. now rewrite X.
Qed.
Lemma weights_poisson o es mean sg : reached o -> sm_poisson o = true -> sm_sigma o mean = Ok sg -> fst (sm_weights o es mean) = Ok (map (pweight o mean) es).
Proof.
  intros R P S. apply reached_ok in R. unfold sm_weights. rewrite S. destruct (loop_step es o mean sg R) as (X & _). rewrite P in X.
  destruct (weight_loop o es mean sg). cbn in *. rewrite X. f_equal. apply map_ext. intro e. unfold pweight. symmetry. now apply poisson_step.
Qed.

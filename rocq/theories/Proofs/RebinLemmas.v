(** Spectra.rebin (C09-C11). *)
From Coq Require Import Lia Permutation.
From Verif Require Import Model.Base Model.PyStr Model.NDArray Model.Param Model.Config Model.Spectra.
From Verif Require Import Spec.AxisSpec Spec.ArraySpec Spec.SpectraSpec Spec.RebinSpec.
From Verif Require Import Proofs.QcLemmas Proofs.NDArrayLemmas Proofs.ParamLemmas Proofs.DictLemmas
  Proofs.FillLemmas Proofs.ProjectLemmas.

(** ** Row-major positions *)
Lemma asize_pos_valid sh idx : valid_idx sh idx -> 0 < asize sh.
Proof. unfold valid_idx, asize. induction 1; cbn; nia. Qed.
Lemma ravel_lt sh idx : valid_idx sh idx -> ravel sh idx < asize sh.
Proof. unfold valid_idx, asize. induction 1; cbn; [lia|]. fold (asize l') in *. nia. Qed.
Lemma unravel_ravel sh idx : valid_idx sh idx -> unravel sh (ravel sh idx) = idx.
Proof.
  intro H. pose proof H as H0. unfold valid_idx in *. induction H as [|i n idx sh Hi H IH]; [reflexivity|].
  cbn [ravel unravel]. assert (L : ravel sh idx < asize sh) by (apply ravel_lt, H).
  f_equal.
  - rewrite Nat.div_add_l by lia. rewrite Nat.div_small by exact L. lia.
  - rewrite Nat.add_comm, Nat.mod_add by lia. rewrite Nat.mod_small by exact L. apply IH, H.
Qed.
Fixpoint interleave (a b : list nat) : list nat :=
  match a, b with x :: a', y :: b' => x :: y :: interleave a' b' | _, _ => [] end.
Fixpoint fine (r key js : list nat) : list nat :=
  match r, key, js with
  | n :: r', k :: key', j :: js' => (k * n + j) :: fine r' key' js'
  | _, _, _ => []
  end.
Lemma asize_interleave b r : length b = length r -> asize (interleave b r) = asize (zip_with Nat.mul b r).
Proof.
  unfold asize. revert r. induction b as [|x b IH]; intros [|y r] L; cbn in *; try lia. rewrite IH by lia. lia.
Qed.
Lemma ravel_interleave b r key js :
  length b = length r -> length key = length r -> length js = length r ->
  ravel (interleave b r) (interleave key js) = ravel (zip_with Nat.mul b r) (fine r key js).
Proof.
  revert r key js. induction b as [|x b IH]; intros [|y r] [|k key] [|j js] L K J; cbn in *; try lia.
  rewrite IH by lia. pose proof (asize_interleave b r ltac:(lia)) as A. unfold asize in *. rewrite A. nia.
Qed.
Lemma fine_valid b r key js :
  valid_idx b key -> valid_idx r js -> length b = length r -> valid_idx (zip_with Nat.mul b r) (fine r key js).
Proof.
  unfold valid_idx. intros Hk. revert r js. induction Hk as [|k x key b Hkx Hk IH]; intros [|y r] [|j js] Hj L;
    inversion Hj; subst; cbn in *; try lia; constructor.
  - nia.
  - apply IH; [assumption|lia].
Qed.

(** ** Nested block sums *)
Fixpoint bsum (r : list nat) (f : list nat -> Qc) (key : list nat) : Qc :=
  match r, key with
  | n :: r', k :: key' => qsumn n (fun j => bsum r' (fun idx => f ((k * n + j) :: idx)) key')
  | _, _ => f []
  end.
Definition tf_mask (k : nat) : list bool := concat (repeat [true; false] k).
Definition tt_mask (k : nat) : list bool := concat (repeat [true; true] k).

Lemma msum_interleave b r key (g : list nat -> Qc) (f : list nat -> Qc) :
  length b = length r -> valid_idx b key ->
  (forall js, valid_idx r js -> g (interleave key js) = f (fine r key js)) ->
  msum (tf_mask (length r)) (interleave b r) g key = bsum r f key.
Proof.
  intros L Hk. revert b key Hk L g f. induction r as [|n r IH]; intros [|x b] key Hk L g f H; cbn in L; try lia.
  - inversion Hk; subst. cbn. apply (H []). constructor.
  - inversion Hk as [|k y key' b' Hkx Hk']; subst. cbn.
    apply qsumn_ext. intros j Hj. apply (IH b key' Hk'); [lia|].
    intros js Hjs. apply (H (j :: js)). constructor; assumption.
Qed.
Lemma bsum_merged b r f key :
  length b = length r -> valid_idx b key ->
  bsum r f key = merged (zip_with Nat.mul b r) r f key.
Proof.
  unfold merged. intros L Hk. rewrite sum_where_over. revert r L f.
  unfold valid_idx in Hk. induction Hk as [|k x key b Hkx Hk IH]; intros [|n r] L f; cbn in L; try lia.
  - reflexivity.
  - cbn [bsum zip_with sum_over]. rewrite qsumn_mul.
    rewrite (@qsumn_single x k); [|exact Hkx|].
    + apply qsumn_ext. intros j Hj. rewrite IH by lia. apply sum_over_ext. intros idx _.
      cbn [coarse]. assert (E : (k * n + j) / n = k) by (rewrite Nat.div_add_l by lia; rewrite Nat.div_small by exact Hj; lia).
      rewrite E. destruct (list_eq_dec Nat.eq_dec (coarse r idx) key) as [E1|E1];
        destruct (list_eq_dec Nat.eq_dec (k :: coarse r idx) (k :: key)) as [E2|E2]; try reflexivity; congruence.
    + intros i Hi N. apply qsumn_0. intros j Hj. apply sum_over_0. intros idx _. cbn [coarse].
      assert (E : (i * n + j) / n = i) by (rewrite Nat.div_add_l by lia; rewrite Nat.div_small by exact Hj; lia).
      rewrite E. destruct (list_eq_dec Nat.eq_dec (i :: coarse r idx) (k :: key)) as [E2|E2]; [congruence|reflexivity].
Qed.
Lemma bsum_qsumn n r (g : nat -> list nat -> Qc) key :
  bsum r (fun idx => qsumn n (fun j => g j idx)) key = qsumn n (fun j => bsum r (g j) key).
Proof.
  revert g key. induction r as [|m r IH]; intros g [|k key]; cbn; try reflexivity.
  rewrite <- qsumn_swap. apply qsumn_ext. intros i _. apply (IH (fun j idx => g j (k * m + i :: idx))).
Qed.
Lemma bsum_bsum r1 r2 f key :
  length r1 = length r2 -> length key = length r2 ->
  bsum r2 (bsum r1 f) key = bsum (zip_with Nat.mul r2 r1) f key.
Proof.
  revert r2 f key. induction r1 as [|n1 r1 IH]; intros [|n2 r2] f [|k key] L K; cbn in *; try lia; try reflexivity.
  rewrite qsumn_mul. apply qsumn_ext. intros j2 _.
  transitivity (bsum r2 (fun idx => qsumn n1 (fun j1 => bsum r1 (fun idx0 => f ((k * n2 + j2) * n1 + j1 :: idx0)) idx)) key).
  - reflexivity.
  - transitivity (qsumn n1 (fun j1 => bsum r2 (bsum r1 (fun idx0 => f ((k * n2 + j2) * n1 + j1 :: idx0))) key)).
    + apply (bsum_qsumn n1 r2 (fun j1 => bsum r1 (fun idx0 => f ((k * n2 + j2) * n1 + j1 :: idx0)))).
    + apply qsumn_ext. intros j1 _. rewrite IH by lia.
      replace (k * (n2 * n1) + (j2 * n1 + j1)) with ((k * n2 + j2) * n1 + j1) by nia. reflexivity.
Qed.
Lemma bsum_total b r f :
  length b = length r -> sum_over b (bsum r f) = sum_over (zip_with Nat.mul b r) f.
Proof.
  revert r f. induction b as [|x b IH]; intros [|n r] f L; cbn in *; try lia; [reflexivity|].
  rewrite qsumn_mul. apply qsumn_ext. intros k _.
  rewrite sum_over_qsumn. apply qsumn_ext. intros j _. apply IH. lia.
Qed.
Lemma bsum_ext r b f g key :
  length b = length r -> valid_idx b key ->
  (forall idx, valid_idx (zip_with Nat.mul b r) idx -> f idx = g idx) -> bsum r f key = bsum r g key.
Proof.
  intros L Hk. revert r L f g. unfold valid_idx in *. induction Hk as [|k x key b Hkx Hk IH]; intros [|n r] L f g H; cbn in *; try lia.
  - apply H. constructor.
  - apply qsumn_ext. intros j Hj. apply IH; [lia|]. intros idx V. apply H. constructor; [nia|exact V].
Qed.

(** ** The loop of sums *)
Lemma tf_length k : length (tf_mask k) = 2 * k.
Proof. unfold tf_mask. induction k as [|k IH]; cbn in *; lia. Qed.
Lemma tt_length k : length (tt_mask k) = 2 * k.
Proof. unfold tt_mask. induction k as [|k IH]; cbn in *; lia. Qed.
Lemma tf_kept k : kept (tf_mask k) = k.
Proof. unfold kept, tf_mask. induction k as [|k IH]; cbn in *; lia. Qed.
Lemma tt_kept k : kept (tt_mask k) = 2 * k.
Proof. unfold kept, tt_mask. induction k as [|k IH]; cbn in *; lia. Qed.
Lemma tt_snoc k : tt_mask (S k) = tt_mask k ++ [true; true].
Proof. unfold tt_mask. induction k as [|k IH]; [reflexivity|]. cbn in *. rewrite IH. reflexivity. Qed.
Lemma tt_true k : tt_mask k = repeat true (2 * k).
Proof.
  unfold tt_mask. induction k as [|k IH]; [reflexivity|]. cbn [repeat concat app]. rewrite IH.
  replace (2 * S k) with (S (S (2 * k))) by lia. reflexivity.
Qed.
Lemma clear_at_end k A B : kept A = k -> clear k (A ++ true :: B) = A ++ false :: B.
Proof.
  intros <-. induction A as [|[] A IH]; cbn; [reflexivity| |].
  - change (kept (true :: A)) with (S (kept A)). cbn. unfold kept in IH. rewrite IH. reflexivity.
  - change (kept (false :: A)) with (kept A). unfold kept in IH. rewrite IH. reflexivity.
Qed.
Lemma rebin_sums_ok base k i a :
  andim base = 2 * (k + i) ->
  holds base (tt_mask k ++ tf_mask i) a ->
  exists a', rebin_sums (seq i k) a = Ok a' /\ holds base (tf_mask (k + i)) a'.
Proof.
  revert i a. induction k as [|k IH]; intros i a N H; cbn [seq rebin_sums].
  - exists a. split; [reflexivity|exact H].
  - assert (Lm : length (tt_mask (S k) ++ tf_mask i) = andim base) by (rewrite app_length, tt_length, tf_length; lia).
    assert (Kp : kept (tt_mask (S k) ++ tf_mask i) = 2 * S k + i) by (rewrite kept_app, tt_kept, tf_kept; lia).
    assert (E : asum_axis (- (Z.of_nat i + 1)) a = Ok (sum_at (2 * k + 1) a)).
    { unfold asum_axis, norm_axis, andim. destruct H as [Sh _]. rewrite Sh, select_length by exact Lm. rewrite Kp.
      destruct (Z.ltb_spec (- (Z.of_nat i + 1)) 0); [|lia].
      destruct (Z.leb_spec 0 (- (Z.of_nat i + 1) + Z.of_nat (2 * S k + i))); [|lia].
      destruct (Z.ltb_spec (- (Z.of_nat i + 1) + Z.of_nat (2 * S k + i)) (Z.of_nat (2 * S k + i))); [|lia].
      cbn [andb rbind]. do 2 f_equal. lia. }
    rewrite E. cbn [rbind].
    assert (H1 : holds base (clear (2 * k + 1) (tt_mask (S k) ++ tf_mask i)) (sum_at (2 * k + 1) a))
      by (apply holds_sum; [exact Lm|exact H|lia]).
    replace (k + S i) with (k + S i) by lia.
    destruct (IH (S i) (sum_at (2 * k + 1) a)) as (a' & Ea & Ha); [lia| |].
    + replace (tt_mask k ++ tf_mask (S i)) with (clear (2 * k + 1) (tt_mask (S k) ++ tf_mask i)); [exact H1|].
      rewrite tt_snoc. rewrite <- app_assoc. cbn [app].
      change (tt_mask k ++ true :: true :: tf_mask i) with (tt_mask k ++ [true] ++ true :: tf_mask i).
      rewrite app_assoc. rewrite clear_at_end.
      * rewrite <- app_assoc. reflexivity.
      * rewrite kept_app, tt_kept. unfold kept; cbn. lia.
    + exists a'. split; [exact Ea|]. replace (S k + i) with (k + S i) by lia. exact Ha.
Qed.

Lemma set_bins_length c b : length (set_bins c b) = length c.
Proof. revert b; induction c as [|[v p] c IH]; intros [|x b]; cbn; auto. Qed.
Lemma rebin_pars_ok c bs : divides_bins c bs -> rebin_pars c bs = (set_bins c bs, None).
Proof.
  unfold divides_bins. induction 1 as [|[v p] b c bs [Hb Hd] H IH]; [reflexivity|].
  cbn [rebin_pars]. destruct (Z.eqb_spec b 0); [lia|].
  assert (M : (sp_bins p mod b = 0)%Z) by (apply Z.mod_divide; [lia|exact Hd]).
  rewrite M. cbn [Z.eqb negb]. rewrite IH. reflexivity.
Qed.
Lemma rebin_shape_ok c bs :
  Forall (fun kp => wf_axis (snd kp)) c -> divides_bins c bs ->
  rebin_shape bs (cfg_shape c) = Ok (interleave (cfg_shape (set_bins c bs)) (merge_factors c bs)) /\
  zip_with Nat.mul (cfg_shape (set_bins c bs)) (merge_factors c bs) = cfg_shape c /\
  length (cfg_shape (set_bins c bs)) = length (merge_factors c bs) /\
  length (merge_factors c bs) = length bs.
Proof.
  intros W D. unfold divides_bins in D. induction D as [|[v p] b c bs [Hb Hd] D IH].
  - repeat split.
  - inversion W as [|? ? [_ Wp] W']; subst. destruct (IH W') as (E1 & E2 & E3 & E4).
    cbn [snd] in *. cbn [rebin_shape cfg_shape map snd merge_factors set_bins sp_bins interleave zip_with length].
    destruct (Z.ltb_spec b 0); [lia|].
    change (map (fun kp => Z.to_nat (sp_bins (snd kp))) c) with (cfg_shape c).
    change (map (fun kp => Z.to_nat (sp_bins (snd kp))) (set_bins c bs)) with (cfg_shape (set_bins c bs)).
    rewrite E1, E2, E3, E4. cbn [rbind]. rewrite Z2Nat.id by lia. repeat split.
    f_equal. destruct Hd as [q Hq]. rewrite Hq. rewrite Z.div_mul by lia. rewrite <- Z2Nat.inj_mul by nia.
    f_equal. lia.
Qed.
Lemma divides_length c bs : divides_bins c bs -> length c = length bs.
Proof. unfold divides_bins. induction 1; cbn; auto. Qed.
Lemma set_bins_pars c bs : map fst (set_bins c bs) = map fst c.
Proof. revert bs; induction c as [|[v p] c IH]; intros [|b bs]; cbn; auto. rewrite IH. reflexivity. Qed.
Lemma wf_set_bins c bs : wf_cfg c -> divides_bins c bs -> wf_cfg (set_bins c bs).
Proof.
  intros [N W] D. split; [rewrite set_bins_pars; exact N|]. clear N.
  unfold divides_bins in D. induction D as [|[v p] b c bs [Hb Hd] D IH]; [constructor|].
  inversion W as [|? ? [W1 W2] W']; subst. constructor; [|apply IH, W']. split; cbn in *; assumption.
Qed.

Lemma rebin_ok s bs :
  wf_spectra s -> divides_bins (s_cfg s) bs ->
  exists d, rebin bs s = (with_data (with_cfg s (set_bins (s_cfg s) bs)) d, None) /\
    ashape d = cfg_shape (set_bins (s_cfg s) bs) /\
    (forall key, valid_idx (ashape d) key ->
       aget d key = bsum (merge_factors (s_cfg s) bs) (aget (s_data s)) key).
Proof.
  intros [[NDp W] C] D. unfold rebin. unfold get_pars, dkeys. rewrite map_length, (divides_length _ _ D), Nat.eqb_refl.
  cbn [negb]. rewrite rebin_pars_ok by exact D.
  destruct (rebin_shape_ok _ _ W D) as (E1 & E2 & E3 & E4).
  unfold rebin_data. rewrite C, E1. cbn [rbind]. unfold areshape.
  assert (A : asize (interleave (cfg_shape (set_bins (s_cfg s) bs)) (merge_factors (s_cfg s) bs)) =? asize (ashape (s_data s)) = true).
  { apply Nat.eqb_eq. rewrite asize_interleave, E2, C by exact E3. reflexivity. }
  rewrite A. cbn [rbind].
  set (b := cfg_shape (set_bins (s_cfg s) bs)) in *. set (r := merge_factors (s_cfg s) bs) in *.
  set (base := ND (interleave b r) (fun idx => aget (s_data s) (unravel (ashape (s_data s)) (ravel (interleave b r) idx)))).
  assert (Li : forall x y : list nat, length x = length y -> length (interleave x y) = 2 * length y).
  { induction x as [|? ? IHx]; intros [|? y] L; cbn in *; try lia. rewrite IHx by lia. lia. }
  assert (Nd : andim base = 2 * (length bs + 0)) by (unfold andim; cbn [ashape base]; rewrite Li, E4 by exact E3; lia).
  destruct (rebin_sums_ok base (length bs) 0 base Nd) as (d & Ed & [Sh H]).
  { cbn [tf_mask repeat concat]. unfold tf_mask. cbn. rewrite app_nil_r, tt_true.
    replace (2 * length bs) with (andim base) by lia. apply holds_all. }
  rewrite Ed. exists d. split; [reflexivity|].
  rewrite Nat.add_0_r in Sh, H.
  assert (Sd : ashape d = b).
  { rewrite Sh. cbn [ashape base]. rewrite <- E4. clear - E3. revert E3. generalize r. generalize b.
    unfold tf_mask. clear. induction b as [|x b IH]; intros [|y r] L; cbn in *; try lia; [reflexivity|].
    f_equal. apply IH. lia. }
  split; [exact Sd|]. intros key V. rewrite Sd in V.
  rewrite H by (rewrite tf_kept, (valid_length _ _ V), E3, E4; reflexivity).
  rewrite <- E4. apply msum_interleave; [exact E3|exact V|].
  intros js Hjs. cbn [aget base]. rewrite C. f_equal.
  rewrite ravel_interleave, E2 by (try (rewrite (valid_length _ _ V)); try (rewrite (valid_length _ _ Hjs)); auto).
  rewrite <- E2. apply unravel_ravel. apply fine_valid; [exact V|exact Hjs|exact E3].
Qed.

Lemma rebin_l s bs :
  wf_spectra s -> divides_bins (s_cfg s) bs ->
  exists s', rebin bs s = (s', None) /\ wf_spectra s' /\
    s_cfg s' = set_bins (s_cfg s) bs /\
    s_decays s' = s_decays s /\ s_raw s' = s_raw s /\ s_name s' = s_name s /\ s_rois s' = s_rois s /\
    (forall key, valid_idx (ashape (s_data s')) key ->
       aget (s_data s') key = merged (ashape (s_data s)) (merge_factors (s_cfg s) bs) (aget (s_data s)) key) /\
    s_sum s' = s_sum s.
Proof.
  intros W D. pose proof W as [[ND Wa] C]. destruct (rebin_ok s bs W D) as (d & E & Sh & H).
  destruct (rebin_shape_ok _ _ Wa D) as (_ & E2 & E3 & E4).
  eexists. split; [exact E|]. cbn [s_cfg with_data with_cfg s_data s_decays s_raw s_name s_rois].
  split; [split; [apply wf_set_bins; [apply W|exact D]|exact Sh]|]. repeat (split; [reflexivity|]). split.
  - intros key V. rewrite H by exact V. rewrite C, <- E2. apply bsum_merged; [exact E3|].
    rewrite Sh in V. exact V.
  - unfold s_sum, asum. cbn [s_data with_data with_cfg].
    rewrite (@sum_over_ext _ _ (bsum (merge_factors (s_cfg s) bs) (aget (s_data s)))) by (intros; apply H; assumption).
    rewrite Sh, bsum_total by exact E3. rewrite E2, C. reflexivity.
Qed.

(** ** Composition *)
Lemma divides_trans c a b : divides_bins c a -> divides_bins (set_bins c a) b -> divides_bins c b.
Proof.
  unfold divides_bins. intro A. revert b. induction A as [|[v p] x c a [H1 H2] A IH]; intros b B.
  - exact B.
  - inversion B as [|? y ? b' [H3 H4] B']; subst. constructor; [|apply IH, B']. cbn in *.
    split; [exact H3|]. eapply Z.divide_trans; eassumption.
Qed.
Lemma set_bins_twice c a b : length a = length c -> set_bins (set_bins c a) b = set_bins c b \/ length b <> length c.
Proof.
  revert a b. induction c as [|[v p] c IH]; intros [|x a] [|y b] L; cbn in *; try lia; auto.
  - destruct (IH a b) as [E|E]; [lia| |right; lia]. left. rewrite E. reflexivity.
Qed.
Lemma factors_mul c a b :
  Forall (fun kp => wf_axis (snd kp)) c -> divides_bins c a -> divides_bins (set_bins c a) b ->
  zip_with Nat.mul (merge_factors (set_bins c a) b) (merge_factors c a) = merge_factors c b.
Proof.
  unfold divides_bins. intros W A. revert b. induction A as [|[v p] x c a [H1 H2] A IH]; intros b B; [reflexivity|].
  inversion B as [|? y ? b' [H3 H4] B']; subst. inversion W as [|? ? [_ Wp] W']; subst. cbn in *.
  rewrite IH by assumption. f_equal. rewrite <- Z2Nat.inj_mul; try (apply Z.div_pos; lia).
  f_equal. destruct H2 as [q Hq], H4 as [q' Hq']. rewrite Hq, Hq'. rewrite Z.div_mul by lia.
  rewrite Z.div_mul by nia. rewrite Z.mul_assoc, Z.div_mul by lia. ring.
Qed.
Lemma rebin_compose_l s a b :
  wf_spectra s -> divides_bins (s_cfg s) a -> divides_bins (set_bins (s_cfg s) a) b ->
  exists s1 s2 s3, rebin a s = (s1, None) /\ rebin b s1 = (s2, None) /\ rebin b s = (s3, None) /\ same_spectra s2 s3.
Proof.
  intros W A B. destruct (rebin_ok s a W A) as (d1 & E1 & Sh1 & H1).
  set (s1 := with_data (with_cfg s (set_bins (s_cfg s) a)) d1) in *.
  assert (W1 : wf_spectra s1) by (split; [apply wf_set_bins; [apply W|exact A]|exact Sh1]).
  destruct (rebin_ok s1 b W1 B) as (d2 & E2 & Sh2 & H2).
  pose proof (divides_trans _ _ _ A B) as AB.
  destruct (rebin_ok s b W AB) as (d3 & E3 & Sh3 & H3).
  exists s1. do 2 eexists. split; [exact E1|]. split; [exact E2|]. split; [exact E3|].
  assert (Ec : set_bins (s_cfg s1) b = set_bins (s_cfg s) b).
  { destruct (set_bins_twice (s_cfg s) a b) as [E|E]; [symmetry; apply divides_length, A|exact E|].
    exfalso. apply E. symmetry. apply divides_length, AB. }
  assert (Esh : ashape d2 = ashape d3) by (rewrite Sh2, Sh3, Ec; reflexivity).
  split; [repeat split; [exact Ec|exact Esh]|]. cbn [s_data with_data with_cfg].
  intros key V. rewrite H2 by exact V. rewrite H3 by (rewrite <- Esh; exact V).
  destruct W as [[_ Wa] C]. destruct W1 as [[_ Wa1] C1].
  destruct (rebin_shape_ok _ _ Wa1 B) as (_ & Eq1 & Eq2 & Eq3).
  destruct (rebin_shape_ok _ _ Wa A) as (_ & Eq1' & Eq2' & Eq3').
  assert (Vb : valid_idx (cfg_shape (set_bins (s_cfg s1) b)) key) by (rewrite <- Sh2; exact V).
  rewrite (bsum_ext (merge_factors (s_cfg s1) b) (cfg_shape (set_bins (s_cfg s1) b)) (aget (s_data s1))
             (bsum (merge_factors (s_cfg s) a) (aget (s_data s))) key Eq2 Vb).
  - assert (Lr : length (merge_factors (s_cfg s) a) = length (merge_factors (s_cfg s1) b)).
    { rewrite Eq3, Eq3'. rewrite <- (divides_length _ _ A), <- (divides_length _ _ AB). reflexivity. }
    rewrite bsum_bsum; [|exact Lr|].
    + rewrite (factors_mul (s_cfg s) a b Wa A B : zip_with _ (merge_factors (s_cfg s1) b) _ = _). reflexivity.
    + rewrite (valid_length _ _ Vb). exact Eq2.
  - intros idx Vi. apply H1. rewrite Sh1. rewrite Eq1 in Vi. exact Vi.
Qed.
Lemma divides_self c : Forall (fun kp => wf_axis (snd kp)) c -> divides_bins c (get_shape c).
Proof.
  unfold divides_bins, get_shape. induction 1 as [|kp c [_ W] _ IH]; constructor; [|exact IH].
  split; [exact W|apply Z.divide_refl].
Qed.
Lemma set_bins_self c : set_bins c (get_shape c) = c.
Proof.
  unfold get_shape. induction c as [|[v [l h b]] c IH]; [reflexivity|]. cbn. rewrite IH. reflexivity.
Qed.
Lemma factors_self c : Forall (fun kp => wf_axis (snd kp)) c -> merge_factors c (get_shape c) = repeat 1 (length c).
Proof.
  unfold get_shape. induction 1 as [|[v p] c [_ W] _ IH]; [reflexivity|]. cbn in *. rewrite IH, Z.div_same by lia. reflexivity.
Qed.
Lemma bsum_one k f key : length key = k -> bsum (repeat 1 k) f key = f key.
Proof.
  revert f key. induction k as [|k IH]; intros f [|j key] L; cbn in *; try lia; [reflexivity|].
  rewrite IH by lia. replace (j * 1 + 0) with j by lia. ring.
Qed.
Lemma rebin_identity_l s :
  wf_spectra s -> exists s', rebin (get_shape (s_cfg s)) s = (s', None) /\ same_spectra s' s.
Proof.
  intros W. pose proof W as [[ND Wa] C].
  destruct (rebin_ok s (get_shape (s_cfg s)) W (divides_self _ Wa)) as (d & E & Sh & H).
  rewrite set_bins_self in *. eexists. split; [exact E|].
  assert (Es : ashape d = ashape (s_data s)) by (rewrite Sh, C; reflexivity).
  split; [repeat split; exact Es|]. cbn [s_data with_data with_cfg]. intros idx V.
  rewrite H by exact V. rewrite factors_self by exact Wa. apply bsum_one.
  rewrite (valid_length _ _ V), Sh. apply cfg_shape_length.
Qed.

(** ** Rejections *)
Lemma rebin_rejected_data_l bs s e : snd (rebin bs s) = Some e -> s_data (fst (rebin bs s)) = s_data s.
Proof.
  unfold rebin. destruct (negb _); [reflexivity|]. destruct (rebin_pars (s_cfg s) bs) as [c [e'|]]; [reflexivity|].
  destruct (rebin_data bs (s_data s)); [discriminate|reflexivity].
Qed.
Lemma rebin_rejected_partial_l bs s :
  length bs <> length (s_cfg s) \/
  (exists v p c b bs', s_cfg s = (v, p) :: c /\ bs = b :: bs' /\ (b = 0 \/ ~ (b | sp_bins p))%Z) ->
  exists e, rebin bs s = (s, Some e) /\ (e = EValueError \/ e = EZeroDivisionError).
Proof.
  intros [H|(v & p & c & b & bs' & Ec & -> & Hb)]; unfold rebin, get_pars, dkeys; rewrite map_length.
  - destruct (Nat.eqb_spec (length bs) (length (s_cfg s))); [contradiction|]. cbn. eauto.
  - destruct (negb _); [eauto|]. rewrite Ec. cbn [rebin_pars].
    assert (Es : with_cfg s ((v, p) :: c) = s) by (rewrite <- Ec; destruct s; reflexivity).
    destruct (Z.eqb_spec b 0) as [->|N].
    + exists EZeroDivisionError. rewrite Es. auto.
    + destruct (Z.eqb_spec (sp_bins p mod b) 0) as [M|M].
      * exfalso. destruct Hb as [Hb|Hb]; [contradiction|]. apply Hb, Z.mod_divide; assumption.
      * cbn [negb]. exists EValueError. rewrite Es. auto.
Qed.
Local Open Scope string_scope.
Lemma rebin_refuted_l :
  exists s bs s' e, wf_spectra s /\ rebin bs s = (s', Some e) /\ s_cfg s' <> s_cfg s /\ ~ consistent s'.
Proof.
  exists (Spec "x" None [("a", SPar (zq 0) (zq 1) 4); ("b", SPar (zq 0) (zq 1) 4)] (azeros [4; 4]) 1 0 0 []).
  exists [2; 3]%Z. do 2 eexists. split.
  - split; [split; [repeat constructor; cbn; intuition congruence|repeat constructor; vm_compute; reflexivity]|reflexivity].
  - split; [vm_compute; reflexivity|]. split; [discriminate|]. unfold consistent. cbn. discriminate.
Qed.

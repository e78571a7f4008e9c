(** Smearing, shifting and stretching a spectrum whose contents are all multiplied by a
    positive number multiplies the result by that number. *)
From Coq Require Import Lia.
From Verif Require Import Model.Base Model.PyStr Model.NDArray Model.Param Model.Config Model.Spectra
  Model.Smear Model.Shift Model.Heap Model.Minimise Model.Fit.
From Verif Require Import Spec.ArraySpec Spec.SpectraSpec Spec.SmearSpec Spec.ShiftSpec Spec.FitRunSpec Spec.FitLimitSpec.
From Verif Require Import Proofs.QcLemmas Proofs.NDArrayLemmas Proofs.RebinLemmas Proofs.ExtLemmas Proofs.SmearLemmas Proofs.ShiftLemmas Proofs.MinimiseLemmas Proofs.ParamLemmas Proofs.OpsLemmas Proofs.DeriveExt Proofs.FitLemmas Proofs.FitRun.

Section Mul.
Context (c : Qc).
Hypothesis Pos : (0 < c)%Qc.

Definition arr_mul (a b : ndarray) : Prop := ashape a = ashape b /\ forall i, valid_idx (ashape a) i -> (aget b i = aget a i * c)%Qc.
Definition mul (s t : spectra) : Prop :=
  s_name s = s_name t /\ s_bg s = s_bg t /\ s_cfg s = s_cfg t /\ s_raw s = s_raw t /\ s_bipo s = s_bipo t /\ s_rois s = s_rois t /\
  arr_mul (s_data s) (s_data t).

Lemma Nz : c <> 0%Qc.
Proof. intros E. pose proof Pos as P. rewrite E in P. exact (Qclt_not_eq _ _ P eq_refl). Qed.
Lemma lt_mul x : (0 < x -> 0 < x * c)%Qc.
Proof. intro H. pose proof (Qcmult_lt_compat_r 0 x c Pos H) as K. now rewrite Qcmult_0_l in K. Qed.
Lemma le_mul x : (x <= 0 -> x * c <= 0)%Qc.
Proof. intro H. pose proof (Qcmult_le_compat_r x 0 c H (Qclt_le_weak _ _ Pos)) as K. now rewrite Qcmult_0_l in K. Qed.
Lemma qlt_mul x : qlt 0 (x * c) = qlt 0 x.
Proof.
  destruct (qltP 0 x) as [H|H], (qltP 0 (x * c)) as [K|K]; try reflexivity; exfalso.
  - apply K. now apply lt_mul.
  - apply Qcnot_lt_le in H. exact (Qclt_not_le _ _ K (le_mul x H)).
Qed.
Lemma qle_mul x : qle (x * c) 0 = qle x 0.
Proof.
  destruct (qleP x 0) as [H|H], (qleP (x * c) 0) as [K|K]; try reflexivity; exfalso.
  - apply K. now apply le_mul.
  - apply Qcnot_le_lt in H. exact (Qclt_not_le _ _ (lt_mul x H) K).
Qed.
Lemma mul_cancel x : (x * c = 0 -> x = 0)%Qc.
Proof. intro H. destruct (Qcmult_integral _ _ H) as [K|K]; [exact K|destruct (Nz K)]. Qed.
Lemma qeq_mul x : qeq (x * c) 0 = qeq x 0.
Proof. destruct (qeqP x 0) as [E|N]; destruct (qeqP (x * c) 0) as [K|K]; try reflexivity; [destruct K; rewrite E; ring|destruct N; now apply mul_cancel]. Qed.
Lemma div_mul x y : ((x * c) / (y * c) = x / y)%Qc.
Proof.
  destruct (Qc_eq_dec y 0) as [->|N].
  - replace (0 * c)%Qc with 0%Qc by ring. unfold Qcdiv. replace (/ 0)%Qc with 0%Qc by (apply Qc_is_canon; reflexivity). ring.
  - field. split; [exact N|exact Nz].
Qed.
Lemma qabs_mul x : qabs (x * c) = (qabs x * c)%Qc.
Proof.
  unfold qabs. destruct (qleP 0 x) as [H|H].
  - pose proof (Qcmult_le_compat_r 0 x c H (Qclt_le_weak _ _ Pos)) as K. rewrite Qcmult_0_l in K. apply qle_iff in K. now rewrite K.
  - apply Qcnot_le_lt in H. pose proof (Qcmult_lt_compat_r x 0 c Pos H) as K. rewrite Qcmult_0_l in K. apply qle_false in K. rewrite K. ring.
Qed.

(** ** Arrays *)
Lemma sum_mul sh f g : (forall i, valid_idx sh i -> (g i = f i * c)%Qc) -> sum_over sh g = (sum_over sh f * c)%Qc.
Proof. intro H. rewrite <- sum_over_scale. now apply sum_over_ext. Qed.
Lemma qsumn_mult n f g : (forall i, (i < n)%nat -> (g i = f i * c)%Qc) -> qsumn n g = (qsumn n f * c)%Qc.
Proof. intro H. rewrite <- qsumn_scale. now apply qsumn_ext. Qed.
Lemma asum_mul a b : arr_mul a b -> asum b = (asum a * c)%Qc.
Proof. intros [S G]. unfold asum. rewrite <- S. now apply sum_mul. Qed.
Lemma zeros_mul sh : arr_mul (azeros sh) (azeros sh).
Proof. split; [reflexivity|]. intros i _. cbn. ring. Qed.
Lemma aadd_mul a b bins w : arr_mul a b -> res_eq arr_mul (aadd_at a bins w) (aadd_at b bins (w * c)%Qc).
Proof.
  intros [S G]. unfold aadd_at, rbind. rewrite <- S. destruct (norm_indices bins (ashape a)) as [k|] eqn:N; [|reflexivity].
  split; [exact S|]. cbn. intros i V. rewrite (G i V), (G k) by now apply norm_indices_valid in N. destruct (idx_eqb i k); ring.
Qed.
Lemma axis_mul ax a b : arr_mul a b -> res_eq arr_mul (asum_axis ax a) (asum_axis ax b).
Proof.
  intros [S G]. unfold asum_axis, andim. rewrite <- S. destruct (norm_axis ax (length (ashape a))) as [k|e] eqn:N; cbn; [|reflexivity].
  apply norm_axis_lt in N. split; [cbn; congruence|]. cbn. intros i V. rewrite <- S. apply qsumn_mult. intros j J. apply G.
  now apply valid_insert.
Qed.
Lemma project_loop_mul axis is : forall a b, arr_mul a b -> res_eq arr_mul (project_loop axis is a) (project_loop axis is b).
Proof.
  induction is as [|i is IH]; intros a b H; [exact H|]. cbn [project_loop].
  pose proof (axis_mul (if (axis <? i + 1)%nat then 1 else 0)%Z a b H) as E.
  destruct (asum_axis _ a), (asum_axis _ b); cbn in E; try contradiction; [now apply IH|exact E].
Qed.
Lemma project_mul dim s t : mul s t -> res_eq arr_mul (project dim s) (project dim t).
Proof.
  intros (_ & _ & C & _ & _ & _ & A). unfold project. rewrite <- C. destruct (get_index (s_cfg s) dim); [|reflexivity]. cbn [rbind]. now apply project_loop_mul.
Qed.

(** ** Smearing *)
Definition times (l : list (Qc * dict Qc)) : list (Qc * dict Qc) := map (fun x => (fst x * c, snd x)%Qc) l.
Lemma fill_mul w kw s t : mul s t -> mul (fst (fill w kw s)) (fst (fill (w * c)%Qc kw t)) /\ snd (fill w kw s) = snd (fill (w * c)%Qc kw t).
Proof.
  intros H. pose proof H as (Hn & Hb & Hc & Hr & Hp & Ho & A). unfold fill, fill_data. rewrite <- Hc. unfold rbind.
  destruct (fill_check_unknown _ _); [|split; [exact H|reflexivity]]. destruct (fill_check_missing _ _); [|split; [exact H|reflexivity]].
  destruct (fill_check_range _ _); [|split; [exact H|reflexivity]]. destruct (fill_bins _ _) as [bins|]; [|split; [exact H|reflexivity]].
  pose proof (aadd_mul _ _ bins w A) as E. destruct (aadd_at (s_data s) bins w), (aadd_at (s_data t) bins (w * c)%Qc); cbn in E; try contradiction.
  - split; [|reflexivity]. repeat split; try assumption; apply E.
  - split; [exact H|cbn; congruence].
Qed.
Lemma fill_list_mul l : forall s t, mul s t -> res_eq mul (fill_list l s) (fill_list (times l) t).
Proof.
  induction l as [|[w kw] l IH]; intros s t H; [exact H|]. cbn [fill_list times map fst snd].
  destruct (fill_mul w kw s t H) as [E1 E2]. destruct (fill w kw s) as [s' [e|]], (fill (w * c)%Qc kw t) as [t' [e'|]]; cbn in E1, E2; try discriminate.
  - cbn. congruence.
  - now apply IH.
Qed.
Lemma smear_bins_mul f g bins : (forall b, g b = rmap times (f b)) -> forall s t, mul s t ->
  res_eq mul (smear_bins f bins s) (smear_bins g bins t).
Proof.
  intro FG. induction bins as [|b bins IH]; intros s t H; [exact H|]. cbn [smear_bins]. rewrite FG. unfold rbind.
  destruct (f b) as [l|]; [|reflexivity]. cbn [rmap]. pose proof (fill_list_mul l s t H) as E.
  destruct (fill_list l s), (fill_list (times l) t); cbn in E; try contradiction; [now apply IH|exact E].
Qed.
Lemma bin_fills_mul nsig sigma W cf par p x bin : bin_fills nsig sigma W cf par p (x * c)%Qc bin = rmap times (bin_fills nsig sigma W cf par p x bin).
Proof.
  unfold bin_fills. rewrite qeq_mul. destruct (qeq x 0); [reflexivity|]. unfold rbind. destruct (bin_means cf bin) as [data|]; [|reflexivity].
  destruct (dlookup par data) as [mean|]; [|reflexivity]. destruct (smear_window nsig sigma p mean) as [es|]; [|reflexivity]. cbn zeta.
  generalize (qsum (map (fun e => W e mean) es)). intro tw. induction es as [|e es IH]; [reflexivity|]. cbn [rmapM]. unfold rbind in *. unfold qdiv at 1 3.
  destruct (qeqP tw 0); [reflexivity|]. rewrite IH. clear IH. destruct (rmapM _ es); [|reflexivity]. cbn. do 3 f_equal. field. exact n.
Qed.
Lemma target_mul suffix s t : mul s t -> mul (smear_target suffix s) (smear_target suffix t).
Proof. intros (Hn & Hb & Hc & Hr & Hp & Ho & S & G). unfold smear_target. repeat split; cbn; try congruence. intros i _. ring. Qed.
Lemma weighted_mul suffix nsig sigma W par s t : mul s t ->
  res_eq mul (weighted_smear suffix nsig sigma W par s) (weighted_smear suffix nsig sigma W par t).
Proof.
  intro H. pose proof H as (Hn & Hb & Hc & Hr & Hp & Ho & S & G). unfold weighted_smear. rewrite <- Hc. destruct (negb _); [reflexivity|]. unfold rbind.
  destruct (get_par (s_cfg s) par) as [p|]; [|reflexivity]. destruct (rmapM _ (s_cfg s)); [|reflexivity].
  apply smear_bins_mul; [|now apply target_mul]. intro b. rewrite <- S. destruct (in_shape b (ashape (s_data s))) eqn:I; [|reflexivity].
  rewrite G by now apply in_shape_valid. apply bin_fills_mul.
Qed.

(** ** Shifting and stretching *)
Lemma loop_mul f g sh bins : (forall b x y, arr_mul x y -> ashape x = sh -> res_eq (fun x' y' => arr_mul x' y' /\ ashape x' = sh) (f b x) (g b y)) ->
  forall x y, arr_mul x y -> ashape x = sh -> res_eq arr_mul (loop_bins f bins x) (loop_bins g bins y).
Proof.
  intro FG. induction bins as [|b bins IH]; intros x y E S; [exact E|]. cbn [loop_bins]. unfold rbind.
  pose proof (FG b x y E S) as H. destruct (f b x), (g b y); cbn in H; try contradiction; [now apply IH|exact H].
Qed.
Lemma slice_sum_mul k b x y : arr_mul x y -> slice_sum k b y = (slice_sum k b x * c)%Qc.
Proof.
  intros [S G]. unfold slice_sum. rewrite <- S. destruct (Nat.ltb_spec b (nth k (ashape x) 0)) as [L|]; [|ring].
  apply sum_mul. intros i V. apply G. apply valid_insert; [exact V|now apply nth_shape_lt in L|exact L].
Qed.
Lemma slice_at_mul k b x y i : arr_mul x y -> (b < nth k (ashape x) 0)%nat -> valid_idx (ashape x) i -> slice_at k b y i = (slice_at k b x i * c)%Qc.
Proof.
  intros [S G] L V. unfold slice_at. apply G. unfold set_at. apply valid_insert; [now apply valid_remove|now apply nth_shape_lt in L|exact L].
Qed.
Lemma add_slice_mul k b f g x y : arr_mul x y -> (forall i, valid_idx (ashape x) i -> (g i = f i * c)%Qc) -> arr_mul (add_slice k b f x) (add_slice k b g y).
Proof. intros [S G] F. split; [exact S|]. cbn. intros i V. destruct (_ =? _)%nat; rewrite G by exact V; [rewrite F by exact V; ring|reflexivity]. Qed.
Lemma shift_one_mul shift step k p a a' b x y : arr_mul a a' -> arr_mul x y -> ashape x = ashape a ->
  res_eq (fun x' y' => arr_mul x' y' /\ ashape x' = ashape a) (shift_one shift step k p a b x) (shift_one shift step k p a' b y).
Proof.
  intros A E S. unfold shift_one. destruct (qlt _ _ || qlt _ _)%bool; [now split|]. unfold rbind. destruct (get_bin p _) as [ob|]; [|reflexivity].
  rewrite (slice_sum_mul k (Z.to_nat ob) a a' A), qlt_mul. destruct (qlt 0 (slice_sum k (Z.to_nat ob) a)) eqn:Q; [|now split].
  split; [|exact S]. apply add_slice_mul; [exact E|]. intros i V. apply slice_at_mul; [exact A|now apply slice_sum_pos' in Q|congruence].
Qed.
Definition ratio (x y : Z * Qc * Qc) : Prop :=
  fst (fst x) = fst (fst y) /\ (qeq (snd (fst x)) 0 && qeq (snd x) 0 = qeq (snd (fst y)) 0 && qeq (snd y) 0)%bool /\
  (snd (fst x) / (snd (fst x) + snd x) = snd (fst y) / (snd (fst y) + snd y))%Qc /\
  (snd x / (snd (fst x) + snd x) = snd y / (snd (fst y) + snd y))%Qc.
Lemma ratio_mul b x y : ratio (b, x, y) (b, x * c, y * c)%Qc.
Proof.
  unfold ratio. cbn [fst snd]. rewrite !qeq_mul. replace (x * c + y * c)%Qc with ((x + y) * c)%Qc by ring. rewrite !div_mul. auto.
Qed.
Lemma areas_mul f g p step cc ctr b1 : (forall x, g x = f x * c)%Qc -> ratio (areas f p step cc ctr b1) (areas g p step cc ctr b1).
Proof.
  assert (Q : forall u v w, (qabs (qq 1 2 * u * (v * c + w * c)) = qabs (qq 1 2 * u * (v + w)) * c)%Qc) by (intros; rewrite <- qabs_mul; f_equal; ring).
  intro FG. unfold areas. destruct (qlt cc ctr).
  - destruct (0 <=? b1 - 1)%Z; [|now repeat split]. rewrite !FG, !Q. apply ratio_mul.
  - destruct (b1 + 1 <? sp_bins p)%Z; [|now repeat split]. rewrite !FG, !Q. apply ratio_mul.
Qed.
Lemma resample_one_mul src f g step k p a a' b x y : (forall v, g v = f v * c)%Qc -> arr_mul a a' -> arr_mul x y -> ashape x = ashape a ->
  res_eq (fun x' y' => arr_mul x' y' /\ ashape x' = ashape a) (resample_one src f step k p a b x) (resample_one src g step k p a' b y).
Proof.
  intros FG A E S. unfold resample_one. destruct (qlt _ _ || qle _ _)%bool; [now split|]. set (cc := if qlt _ _ then _ else _).
  rewrite FG, qle_mul. destruct (qle (f cc) 0); [now split|]. unfold rbind. destruct (get_bin p cc) as [b1|]; [|reflexivity].
  destruct (get_bin_centre p b1) as [ctr|]; [|reflexivity]. pose proof (areas_mul f g p step cc ctr b1 FG) as R.
  destruct (areas f p step cc ctr b1) as [[b2 a1] a2], (areas g p step cc ctr b1) as [[b2' a1'] a2']. destruct R as (R1 & R2 & R3 & R4). cbn [fst snd] in R1, R2, R3, R4.
  subst b2'. rewrite <- R2, <- R3, <- R4.
  destruct (qeq a1 0 && qeq a2 0)%bool; [now split|].
  rewrite !(slice_sum_mul k _ a a' A), !qle_mul. destruct (qle (slice_sum k (Z.to_nat b1) a) 0) eqn:Q1; destruct (qle (slice_sum k (Z.to_nat b2) a) 0) eqn:Q2; cbn [andb];
    [now split|..]; (split; [|exact S]); apply add_slice_mul; try exact E; intros i V; rewrite S in V; rewrite !div_mul.
  - rewrite (slice_at_mul k (Z.to_nat b2) a a' i A); [ring| |exact V]. now apply slice_sum_pos in Q2.
  - rewrite (slice_at_mul k (Z.to_nat b1) a a' i A); [ring| |exact V]. now apply slice_sum_pos in Q1.
  - rewrite (slice_at_mul k (Z.to_nat b2) a a' i A), (slice_at_mul k (Z.to_nat b1) a a' i A); try exact V; [ring|now apply slice_sum_pos in Q1|now apply slice_sum_pos in Q2].
Qed.
Lemma by_bin_mul suffix shift dim s t : mul s t -> res_eq mul (shift_by_bin suffix shift dim s) (shift_by_bin suffix shift dim t).
Proof.
  intro H. pose proof H as (Hn & Hb & Hc & Hr & Hp & Ho & A). pose proof A as [Hs _]. unfold shift_by_bin. rewrite <- Hc. unfold rbind.
  destruct (get_par (s_cfg s) dim) as [p|]; [|reflexivity]. destruct (get_width p) as [step|]; [|reflexivity].
  destruct (is_multiple shift step) as [m|]; [|reflexivity]. destruct (negb m); [reflexivity|].
  destruct (get_index (s_cfg s) dim) as [k|]; [|reflexivity].
  pose proof (loop_mul (shift_one shift step k p (s_data s)) (shift_one shift step k p (s_data t)) (ashape (s_data s)) (seq 0 (Z.to_nat (sp_bins p)))
    (fun b x y E S => shift_one_mul shift step k p _ _ b x y A E S) (azeros (ashape (s_data s))) (azeros (ashape (s_data t)))) as L.
  assert (Z : arr_mul (azeros (ashape (s_data s))) (azeros (ashape (s_data t)))) by (rewrite Hs; apply zeros_mul).
  specialize (L Z eq_refl). destruct (loop_bins _ _ (azeros (ashape (s_data s)))), (loop_bins _ _ (azeros (ashape (s_data t)))); cbn in L; try contradiction; [|exact L].
  cbn. unfold mul. cbn. repeat (split; [congruence|]). exact L.
Qed.
Lemma resample_mul suffix src f g dim s t : (forall v, g v = f v * c)%Qc -> mul s t ->
  res_eq mul (resample suffix src f dim s) (resample suffix src g dim t).
Proof.
  intros FG H. pose proof H as (Hn & Hb & Hc & Hr & Hp & Ho & A). pose proof A as [Hs _]. unfold resample. rewrite <- Hc. unfold rbind.
  destruct (get_par (s_cfg s) dim) as [p|]; [|reflexivity]. destruct (get_width p) as [step|]; [|reflexivity].
  destruct (get_index (s_cfg s) dim) as [k|]; [|reflexivity].
  pose proof (loop_mul (resample_one src f step k p (s_data s)) (resample_one src g step k p (s_data t)) (ashape (s_data s)) (seq 0 (Z.to_nat (sp_bins p)))
    (fun b x y E S => resample_one_mul src f g step k p _ _ b x y FG A E S) (azeros (ashape (s_data s))) (azeros (ashape (s_data t)))) as L.
  assert (Z : arr_mul (azeros (ashape (s_data s))) (azeros (ashape (s_data t)))) by (rewrite Hs; apply zeros_mul).
  specialize (L Z eq_refl). destruct (loop_bins _ _ (azeros (ashape (s_data s)))) as [d|], (loop_bins _ _ (azeros (ashape (s_data t)))) as [d'|]; cbn in L; try contradiction; [|exact L].
  unfold scale. cbn [s_decays with_decays with_data smear_target s_sum].
  assert (E1 : s_sum t = (s_sum s * c)%Qc) by exact (asum_mul _ _ A).
  assert (E2 : s_sum (with_data (smear_target suffix t) d') = (s_sum (with_data (smear_target suffix s) d) * c)%Qc) by exact (asum_mul _ _ L).
  rewrite E1, E2. unfold qdiv. rewrite qeq_mul, div_mul. destruct (qeq _ 0); [reflexivity|].
  cbn. unfold mul. cbn. repeat (split; [congruence|]). destruct L as [L1 L2]. split; [exact L1|]. cbn. intros i V. rewrite L2 by exact V. ring.
Qed.
(** ** Axes and projections *)
Lemma reshape_mul new a b : arr_mul a b -> res_eq arr_mul (areshape new a) (areshape new b).
Proof.
  intros [S G]. unfold areshape. rewrite <- S. destruct (Nat.eqb_spec (asize new) (asize (ashape a))) as [E|]; [|reflexivity].
  split; [reflexivity|]. cbn. intros i V. apply G. apply unravel_valid. rewrite <- E. now apply ravel_lt.
Qed.
Lemma slice_mul sls a b : arr_mul a b -> res_eq arr_mul (aslice sls a) (aslice sls b).
Proof.
  intros [S G]. unfold aslice, andim. rewrite <- S. destruct (Nat.eqb_spec (length sls) (length (ashape a))) as [E|]; [|reflexivity].
  split; [reflexivity|]. cbn. intros i V. apply G. now apply slice_valid.
Qed.
Lemma rebin_sums_mul is : forall a b, arr_mul a b -> res_eq arr_mul (rebin_sums is a) (rebin_sums is b).
Proof.
  induction is as [|i is IH]; intros a b E; [exact E|]. cbn [rebin_sums].
  pose proof (axis_mul (- (Z.of_nat i + 1))%Z a b E) as H. unfold rbind.
  destruct (asum_axis _ a), (asum_axis _ b); cbn in H; try contradiction; [now apply IH|exact H].
Qed.
Lemma rebin_data_mul bins a b : arr_mul a b -> res_eq arr_mul (rebin_data bins a) (rebin_data bins b).
Proof.
  intro E. unfold rebin_data. rewrite <- (proj1 E). unfold rbind. destruct (rebin_shape bins (ashape a)) as [sh|]; [|reflexivity].
  pose proof (reshape_mul sh a b E) as H. destruct (areshape sh a), (areshape sh b); cbn in H; try contradiction; [now apply rebin_sums_mul|exact H].
Qed.
Lemma nd_loop_mul axes is : forall a b, arr_mul a b -> res_eq arr_mul (nd_project_loop axes is a) (nd_project_loop axes is b).
Proof.
  induction is as [|i is IH]; intros a b E; [exact E|]. cbn [nd_project_loop]. destruct (existsb _ _); [now apply IH|].
  pose proof (axis_mul (Z.of_nat i) a b E) as H. unfold rbind.
  destruct (asum_axis _ a), (asum_axis _ b); cbn in H; try contradiction; [now apply IH|exact H].
Qed.
Lemma nd_project_mul dims s t : mul s t -> res_eq arr_mul (nd_project dims s) (nd_project dims t).
Proof.
  intros (_ & _ & Hc & _ & _ & _ & A). unfold nd_project. rewrite <- Hc. unfold rbind.
  destruct (rmapM (get_index (s_cfg s)) dims) as [axes|]; [|reflexivity].
  destruct (_ =? _)%nat; [exact A|now apply nd_loop_mul].
Qed.
Lemma shrink_mul kw s t : mul s t -> res_eq mul (done (shrink kw s)) (done (shrink kw t)).
Proof.
  intros (Hn & Hb & Hc & Hr & Hp & Ho & A). unfold shrink. rewrite <- Hc. destruct (shrink_check (s_cfg s) kw); [|reflexivity].
  destruct (shrink_pars kw (s_cfg s)) as [c1 [[|sl sls]|e]]; [reflexivity| |reflexivity].
  pose proof (slice_mul (sl :: sls) _ _ A) as E. destruct (aslice (sl :: sls) (s_data s)), (aslice (sl :: sls) (s_data t)); cbn in E; try contradiction; [|exact E].
  cbn. unfold mul. cbn. repeat (split; [congruence|]). exact E.
Qed.
Lemma rebin_mul b s t : mul s t -> res_eq mul (done (rebin b s)) (done (rebin b t)).
Proof.
  intros (Hn & Hb & Hc & Hr & Hp & Ho & A). unfold rebin. rewrite <- Hc. destruct (negb _); [reflexivity|].
  destruct (rebin_pars (s_cfg s) b) as [c1 [e|]]; [reflexivity|].
  pose proof (rebin_data_mul b _ _ A) as E. destruct (rebin_data b (s_data s)), (rebin_data b (s_data t)); cbn in E; try contradiction; [|exact E].
  cbn. unfold mul. cbn. repeat (split; [congruence|]). exact E.
Qed.
Definition derivation_mul (d d' : derivation) : Prop :=
  match d, d' with
  | DWeighted suffix nsig sigma W par, _ => d' = d
  | DShift suffix shift f dim, DShift suffix' shift' g dim' => suffix = suffix' /\ shift = shift' /\ dim = dim' /\ forall v, (g v = f v * c)%Qc
  | DScale suffix sf f dim, DScale suffix' sf' g dim' => suffix = suffix' /\ sf = sf' /\ dim = dim' /\ forall v, (g v = f v * c)%Qc
  | _, _ => False
  end.
Lemma derive_mul d d' s t : derivation_mul d d' -> mul s t -> res_eq mul (derive d s) (derive d' t).
Proof.
  intros D H. pose proof H as (_ & _ & Hc & _). destruct d as [suffix nsig sigma W par|suffix draw par|suffix shift f dim|suffix sf f dim]; cbn in D.
  - subst d'. now apply weighted_mul.
  - contradiction.
  - destruct d' as [| |suffix' shift' g dim'|]; try contradiction. destruct D as (<- & <- & <- & FG). cbn [derive]. unfold shift_axis. rewrite <- Hc. unfold rbind.
    destruct (get_par (s_cfg s) dim) as [p|]; [|reflexivity]. destruct (get_width p) as [step|]; [|reflexivity].
    destruct (is_multiple shift step) as [[]|]; [now apply by_bin_mul|now apply resample_mul|reflexivity].
  - destruct d' as [| | |suffix' sf' g dim']; try contradiction. destruct D as (<- & <- & <- & FG). cbn [derive]. unfold scale_axis.
    destruct (qeq sf 0); [reflexivity|now apply resample_mul].
Qed.
Lemma interpolate_mul spline dim s t : linear_spline spline -> mul s t ->
  res_eq (fun f g => forall v, (g v = f v * c)%Qc) (interpolate1d spline dim s) (interpolate1d spline dim t).
Proof.
  intros SL H. pose proof (project_mul dim s t H) as E. destruct H as (_ & _ & Hc & _). unfold interpolate1d. rewrite <- Hc.
  destruct (get_par (s_cfg s) dim) as [p|]; [|reflexivity]. cbn [rbind]. destruct (get_bin_centres p) as [x|]; [|reflexivity]. cbn [rbind].
  destruct (project dim s) as [y|], (project dim t) as [y'|]; cbn in E; try contradiction; cbn [rbind]; [|exact E].
  destruct E as [E1 E2]. cbn. intro v. rewrite <- SL by exact Pos. do 2 f_equal. rewrite map_map, <- E1. apply map_ext_in. intros i I. apply E2. rewrite c_order_all in I. now apply all_idx_valid.
Qed.
End Mul.

Lemma scale_mul n s s1 : scale n s = (s1, None) -> mul (n / s_decays s)%Qc s s1 /\ s_decays s1 = n /\ s_decays s <> 0%Qc.
Proof.
  unfold scale, qdiv. destruct (qeqP (s_decays s) 0); [discriminate|]. intro H. injection H as <-. split; [|auto]. unfold mul. cbn. now repeat split.
Qed.
Lemma mul_scale n s t t1 : (s_decays s <> 0)%Qc -> mul (n / s_decays s)%Qc s t -> s_decays t = n -> scale n s = (t1, None) -> same_spectra t t1.
Proof.
  intros D (Hn & Hb & Hc & Hr & Hp & Ho & S & G) E. unfold scale. rewrite qdiv_ok by exact D. intro H. injection H as <-.
  apply same_spectra_intro; cbn; try congruence. split; [cbn; congruence|]. cbn. intros i V. apply G. congruence.
Qed.
Lemma positive_ratio n d : (0 < n / d)%Qc -> d <> 0%Qc.
Proof.
  intros P ->. revert P. unfold Qcdiv. replace (/ 0)%Qc with 0%Qc by (apply Qc_is_canon; reflexivity). replace (n * 0)%Qc with 0%Qc by ring.
  intro P. exact (Qclt_not_eq _ _ P eq_refl).
Qed.
(** What is enough to commute with a change of the normalisation. *)
Lemma keeps_mul f : (forall c s t, (0 < c)%Qc -> mul c s t -> res_eq (mul c) (f s) (f t)) -> (forall s t, f s = Ok t -> s_decays t = s_decays s) -> keeps_scaling f.
Proof.
  intros H K n s P. pose proof (positive_ratio _ _ P) as D.
  destruct (scale n s) as [s1 [e|]] eqn:SC. { unfold scale in SC. rewrite qdiv_ok in SC by exact D. discriminate. }
  destruct (scale_mul n s s1 SC) as (M & D1 & _). cbn [done rbind].
  pose proof (H _ s s1 P M) as E. pose proof (K s) as K1. pose proof (K s1) as K2. unfold rbind. destruct (f s) as [t|], (f s1) as [t1|]; cbn in E; try contradiction; [|now rewrite E].
  specialize (K1 t eq_refl). specialize (K2 t1 eq_refl).
  destruct (scale n t) as [u [e|]] eqn:SU. { unfold scale in SU. rewrite qdiv_ok in SU by congruence. discriminate. }
  apply (mul_scale n t t1 u); [congruence|rewrite K1; exact E|congruence|exact SU].
Qed.
Lemma commutes_derive f : (forall v c s t, (0 < c)%Qc -> mul c s t -> res_eq (derivation_mul c) (f v s) (f v t)) -> commutes (KDerive f).
Proof.
  intros H v. apply keeps_mul.
  - intros c s t P M. cbn [apply_value]. pose proof (H v c s t P M) as E. unfold rbind.
    destruct (f v s) as [d|], (f v t) as [d1|]; cbn in E; try contradiction; [now apply derive_mul|exact E].
  - intros s t E. apply apply_value_kept in E as (_ & _ & E). now apply E.
Qed.
Lemma keeps_smear suffix nsig sigma W par : keeps_scaling (weighted_smear suffix nsig sigma W par).
Proof.
  apply keeps_mul; [intros c s t P; now apply weighted_mul|]. intros s t E. now destruct (derive_kept (DWeighted suffix nsig sigma W par) s t E) as (_ & _ & K & _).
Qed.
Lemma keeps_shift suffix shift spline dim : linear_spline spline -> keeps_scaling (fun s => do f <- interpolate1d spline dim s; shift_axis suffix shift f dim s).
Proof.
  intro SL. apply keeps_mul.
  - intros c s t P M. pose proof (interpolate_mul c P spline dim s t SL M) as E. unfold rbind.
    destruct (interpolate1d spline dim s) as [f|], (interpolate1d spline dim t) as [g|]; cbn in E; try contradiction; [|exact E].
    exact (derive_mul c P (DShift suffix shift f dim) (DShift suffix shift g dim) s t (conj eq_refl (conj eq_refl (conj eq_refl E))) M).
  - intros s t E. unfold rbind in E. destruct (interpolate1d spline dim s) as [f|]; [|discriminate]. now destruct (derive_kept (DShift suffix shift f dim) s t E) as (_ & _ & K & _).
Qed.
Lemma keeps_stretch suffix sf spline dim : linear_spline spline -> keeps_scaling (fun s => do f <- interpolate1d spline dim s; scale_axis suffix sf f dim s).
Proof.
  intro SL. apply keeps_mul.
  - intros c s t P M. pose proof (interpolate_mul c P spline dim s t SL M) as E. unfold rbind.
    destruct (interpolate1d spline dim s) as [f|], (interpolate1d spline dim t) as [g|]; cbn in E; try contradiction; [|exact E].
    exact (derive_mul c P (DScale suffix sf f dim) (DScale suffix sf g dim) s t (conj eq_refl (conj eq_refl (conj eq_refl E))) M).
  - intros s t E. unfold rbind in E. destruct (interpolate1d spline dim s) as [f|]; [|discriminate]. now destruct (derive_kept (DScale suffix sf f dim) s t E) as (_ & _ & K & _).
Qed.
Lemma keeps_shrink kw : keeps_scaling (fun s => done (shrink kw s)).
Proof.
  apply keeps_mul; [intros c s t _; apply shrink_mul|]. intros s t. unfold shrink. destruct (shrink_check _ _); [|discriminate].
  destruct (shrink_pars _ _) as [c1 [[|sl sls]|e]]; try discriminate. destruct (aslice _ _); [|discriminate]. intro H. now injection H as <-.
Qed.
Lemma keeps_rebin b : keeps_scaling (fun s => done (rebin b s)).
Proof.
  apply keeps_mul; [intros c s t _; apply rebin_mul|]. intros s t. unfold rebin. destruct (negb _); [discriminate|].
  destruct (rebin_pars _ _) as [c1 [e|]]; [discriminate|]. destruct (rebin_data _ _); [|discriminate]. intro H. now injection H as <-.
Qed.
Lemma project_scaled n s t dims a : scale n s = (t, None) -> nd_project dims s = Ok a ->
  exists b, nd_project dims t = Ok b /\ ashape b = ashape a /\ forall i, valid_idx (ashape a) i -> aget b i = (aget a i * (n / s_decays s))%Qc.
Proof.
  intros SC E. destruct (scale_mul n s t SC) as (M & _ & _). pose proof (nd_project_mul _ dims s t M) as K. rewrite E in K.
  destruct (nd_project dims t) as [b|]; [|contradiction]. exists b. destruct K as [K1 K2]. auto.
Qed.
Lemma commutes_resolution n1 n2 s1 s2 w dim : commutes (resolution_kind n1 n2 s1 s2 w dim).
Proof. apply commutes_derive. intros v c s t P M. destruct (qlt (zq 10) v); [reflexivity|]. destruct (qlt 0 v && qlt v 1)%bool; reflexivity. Qed.
Lemma commutes_shift str spline dim : linear_spline spline -> commutes (shift_kind str spline dim).
Proof.
  intro SL. apply commutes_derive. intros v c s t P M. pose proof (interpolate_mul c P spline dim s t SL M) as E. destruct M as (_ & _ & Hc & _). rewrite <- Hc.
  unfold rbind. destruct (get_par (s_cfg s) dim) as [p|]; [|reflexivity]. destruct (get_width p) as [step|]; [|reflexivity].
  destruct (is_multiple v step) as [[]|]; [|..|reflexivity].
  - cbn. repeat split. intro x. ring.
  - destruct (interpolate1d spline dim s), (interpolate1d spline dim t); cbn in E; try contradiction; [|exact E]. cbn. auto.
Qed.
Lemma commutes_scale str spline dim : linear_spline spline -> commutes (scale_kind str spline dim).
Proof.
  intro SL. apply commutes_derive. intros v c s t P M. pose proof (interpolate_mul c P spline dim s t SL M) as E.
  unfold rbind. destruct (set_scale_factor v) as [sf|]; [|reflexivity].
  destruct (interpolate1d spline dim s), (interpolate1d spline dim t); cbn in E; try contradiction; [|exact E]. cbn. auto.
Qed.

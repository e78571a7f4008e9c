(** Smearing, shifting and scaling depend only on the bins that exist, and leave every
    attribute but the name and the data alone. *)
From Coq Require Import Lia.
From Verif Require Import Model.Base Model.PyStr Model.NDArray Model.Param Model.Config Model.Spectra
  Model.Smear Model.Shift Model.Heap.
From Verif Require Import Spec.ArraySpec Spec.SpectraSpec Spec.SmearSpec Spec.ShiftSpec.
From Verif Require Import Proofs.QcLemmas Proofs.NDArrayLemmas Proofs.ExtLemmas Proofs.SmearLemmas Proofs.ShiftLemmas.

Lemma fill_list_ext l : forall s s', same_spectra s s' -> res_eq same_spectra (fill_list l s) (fill_list l s').
Proof.
  induction l as [|[w kw] l IH]; intros s s' H; [exact H|]. cbn [fill_list].
  destruct (fill_ext w kw s s' H) as [E1 E2]. destruct (fill w kw s) as [t [e|]], (fill w kw s') as [t' [e'|]]; cbn in E1, E2; try discriminate.
  - cbn. congruence.
  - now apply IH.
Qed.
Lemma fill_list_try_ext l : forall s s', same_spectra s s' -> res_eq same_spectra (fill_list_try l s) (fill_list_try l s').
Proof.
  induction l as [|[w kw] l IH]; intros s s' H; [exact H|]. cbn [fill_list_try].
  destruct (fill_ext w kw s s' H) as [E1 E2]. destruct (fill w kw s) as [t [e|]], (fill w kw s') as [t' [e'|]]; cbn in E1, E2; try discriminate.
  - injection E2 as <-. destruct e; try reflexivity; now apply IH.
  - now apply IH.
Qed.
Lemma smear_bins_ext f g bins : (forall b, f b = g b) -> forall s s', same_spectra s s' ->
  res_eq same_spectra (smear_bins f bins s) (smear_bins g bins s').
Proof.
  intro FG. induction bins as [|b bins IH]; intros s s' H; [exact H|]. cbn [smear_bins]. rewrite <- FG. unfold rbind.
  destruct (f b) as [l|]; [|reflexivity]. pose proof (fill_list_ext l s s' H) as E.
  destruct (fill_list l s), (fill_list l s'); cbn in E; try contradiction; [now apply IH|exact E].
Qed.
Lemma random_bins_ext f g bins : (forall b, f b = g b) -> forall s s', same_spectra s s' ->
  res_eq same_spectra (random_bins f bins s) (random_bins g bins s').
Proof.
  intro FG. induction bins as [|b bins IH]; intros s s' H; [exact H|]. cbn [random_bins]. rewrite <- FG. unfold rbind.
  destruct (f b) as [l|]; [|reflexivity]. pose proof (fill_list_try_ext l s s' H) as E.
  destruct (fill_list_try l s), (fill_list_try l s'); cbn in E; try contradiction; [now apply IH|exact E].
Qed.
Lemma in_shape_valid idx : forall sh, in_shape idx sh = true -> valid_idx sh idx.
Proof.
  induction idx as [|i idx IH]; intros [|n sh] H; cbn in H; try discriminate; [constructor|].
  apply andb_prop in H as [A B]. apply Nat.ltb_lt in A. constructor; [exact A|now apply IH].
Qed.
Lemma target_ext suffix s s' : same_spectra s s' -> same_spectra (smear_target suffix s) (smear_target suffix s').
Proof.
  intro H. meta H. unfold smear_target. rewrite Hs. apply same_spectra_intro; cbn; try congruence. apply arr_refl.
Qed.
Lemma weighted_ext suffix nsig sigma W par s s' : same_spectra s s' ->
  res_eq same_spectra (weighted_smear suffix nsig sigma W par s) (weighted_smear suffix nsig sigma W par s').
Proof.
  intro H. pose proof H as H'. meta H'. unfold weighted_smear. rewrite <- Hc. destruct (negb _); [reflexivity|]. unfold rbind.
  destruct (get_par (s_cfg s) par) as [p|]; [|reflexivity]. destruct (rmapM _ (s_cfg s)); [|reflexivity].
  apply smear_bins_ext; [|now apply target_ext]. intro b. rewrite <- Hs. destruct (in_shape b (ashape (s_data s))) eqn:I; [|reflexivity].
  rewrite <- Hg by now apply in_shape_valid. reflexivity.
Qed.
Lemma random_ext suffix draw par s s' : same_spectra s s' ->
  res_eq same_spectra (random_smear suffix draw par s) (random_smear suffix draw par s').
Proof.
  intro H. pose proof H as H'. meta H'. unfold random_smear. rewrite <- Hc. destruct (negb _); [reflexivity|]. unfold rbind.
  destruct (rmapM _ (s_cfg s)); [|reflexivity].
  apply random_bins_ext; [|now apply target_ext]. intro b. rewrite <- Hs. destruct (in_shape b (ashape (s_data s))) eqn:I; [|reflexivity].
  rewrite <- Hg by now apply in_shape_valid. reflexivity.
Qed.

(** ** Shifting *)
Lemma loop_ext f g sh bins : (forall b x y, arr_eq x y -> ashape x = sh -> res_eq (fun x' y' => arr_eq x' y' /\ ashape x' = sh) (f b x) (g b y)) ->
  forall x y, arr_eq x y -> ashape x = sh -> res_eq arr_eq (loop_bins f bins x) (loop_bins g bins y).
Proof.
  intro FG. induction bins as [|b bins IH]; intros x y E S; [exact E|]. cbn [loop_bins]. unfold rbind.
  pose proof (FG b x y E S) as H. destruct (f b x), (g b y); cbn in H; try contradiction; [now apply IH|exact H].
Qed.
Lemma nth_shape_lt k (sh : list nat) b : (b < nth k sh 0)%nat -> (k < length sh)%nat.
Proof. intro H. destruct (Nat.lt_ge_cases k (length sh)) as [L|L]; [exact L|]. rewrite nth_overflow in H by exact L. lia. Qed.
Lemma slice_sum_ext k b x y : arr_eq x y -> slice_sum k b x = slice_sum k b y.
Proof.
  intros [S G]. unfold slice_sum. rewrite <- S. destruct (Nat.ltb_spec b (nth k (ashape x) 0)) as [L|]; [|reflexivity].
  apply sum_over_ext. intros i V. apply G. apply valid_insert; [exact V|now apply nth_shape_lt in L|exact L].
Qed.
Lemma slice_sum_pos k b x : qle (slice_sum k b x) 0 = false -> (b < nth k (ashape x) 0)%nat.
Proof.
  unfold slice_sum. destruct (Nat.ltb_spec b (nth k (ashape x) 0)) as [L|]; [auto|]. intro Q. discriminate Q.
Qed.
Lemma slice_sum_pos' k b x : qlt 0 (slice_sum k b x) = true -> (b < nth k (ashape x) 0)%nat.
Proof.
  unfold slice_sum. destruct (Nat.ltb_spec b (nth k (ashape x) 0)) as [L|]; [auto|]. intro Q. discriminate Q.
Qed.
Lemma slice_at_ext k b x y i : arr_eq x y -> (b < nth k (ashape x) 0)%nat -> valid_idx (ashape x) i -> slice_at k b x i = slice_at k b y i.
Proof.
  intros [S G] L V. unfold slice_at. apply G. unfold set_at. apply valid_insert; [now apply valid_remove|now apply nth_shape_lt in L|exact L].
Qed.
Lemma add_slice_ext k b f g x y : arr_eq x y -> (forall i, valid_idx (ashape x) i -> f i = g i) -> arr_eq (add_slice k b f x) (add_slice k b g y).
Proof. intros [S G] F. split; [exact S|]. cbn. intros i V. rewrite G, F by exact V. reflexivity. Qed.
Lemma shift_one_ext shift step k p a a' b x y : arr_eq a a' -> arr_eq x y -> ashape x = ashape a ->
  res_eq (fun x' y' => arr_eq x' y' /\ ashape x' = ashape a) (shift_one shift step k p a b x) (shift_one shift step k p a' b y).
Proof.
  intros A E S. unfold shift_one. destruct (qlt _ _ || qlt _ _)%bool; [now split|]. unfold rbind. destruct (get_bin p _) as [ob|]; [|reflexivity].
  rewrite <- (slice_sum_ext k (Z.to_nat ob) a a' A). destruct (qlt 0 (slice_sum k (Z.to_nat ob) a)) eqn:Q; [|now split].
  split; [|exact S]. apply add_slice_ext; [exact E|]. intros i V. apply slice_at_ext; [exact A|now apply slice_sum_pos' in Q|congruence].
Qed.
Lemma resample_one_ext src interp step k p a a' b x y : arr_eq a a' -> arr_eq x y -> ashape x = ashape a ->
  res_eq (fun x' y' => arr_eq x' y' /\ ashape x' = ashape a) (resample_one src interp step k p a b x) (resample_one src interp step k p a' b y).
Proof.
  intros A E S. unfold resample_one. destruct (qlt _ _ || qle _ _)%bool; [now split|]. set (c := if qlt _ _ then _ else _).
  destruct (qle (interp c) 0); [now split|]. unfold rbind. destruct (get_bin p c) as [b1|]; [|reflexivity].
  destruct (get_bin_centre p b1) as [ctr|]; [|reflexivity]. destruct (areas interp p step c ctr b1) as [[b2 a1] a2].
  destruct (qeq a1 0 && qeq a2 0)%bool; [now split|].
  rewrite <- !(slice_sum_ext k _ a a' A). destruct (qle (slice_sum k (Z.to_nat b1) a) 0) eqn:Q1; destruct (qle (slice_sum k (Z.to_nat b2) a) 0) eqn:Q2; cbn [andb];
    [now split|..]; (split; [|exact S]); apply add_slice_ext; try exact E; intros i V; rewrite S in V.
  - rewrite (slice_at_ext k (Z.to_nat b2) a a' i A); [reflexivity| |exact V]. now apply slice_sum_pos in Q2.
  - rewrite (slice_at_ext k (Z.to_nat b1) a a' i A); [reflexivity| |exact V]. now apply slice_sum_pos in Q1.
  - rewrite (slice_at_ext k (Z.to_nat b2) a a' i A), (slice_at_ext k (Z.to_nat b1) a a' i A); try exact V; [reflexivity|now apply slice_sum_pos in Q1|now apply slice_sum_pos in Q2].
Qed.
Lemma by_bin_ext suffix shift dim s s' : same_spectra s s' ->
  res_eq same_spectra (shift_by_bin suffix shift dim s) (shift_by_bin suffix shift dim s').
Proof.
  intro H. pose proof (same_spectra_arr _ _ H) as A. pose proof H as H'. meta H'. unfold shift_by_bin. rewrite <- Hc. unfold rbind.
  destruct (get_par (s_cfg s) dim) as [p|]; [|reflexivity]. destruct (get_width p) as [step|]; [|reflexivity].
  destruct (is_multiple shift step) as [m|]; [|reflexivity]. destruct (negb m); [reflexivity|].
  destruct (get_index (s_cfg s) dim) as [k|]; [|reflexivity].
  pose proof (loop_ext (shift_one shift step k p (s_data s)) (shift_one shift step k p (s_data s')) (ashape (s_data s)) (seq 0 (Z.to_nat (sp_bins p)))
    (fun b x y E S => shift_one_ext shift step k p _ _ b x y A E S) (azeros (ashape (s_data s))) (azeros (ashape (s_data s')))) as L.
  assert (Z : arr_eq (azeros (ashape (s_data s))) (azeros (ashape (s_data s')))) by (rewrite Hs; apply arr_refl).
  specialize (L Z eq_refl). destruct (loop_bins _ _ (azeros (ashape (s_data s)))), (loop_bins _ _ (azeros (ashape (s_data s')))); cbn in L; try contradiction; [|exact L].
  cbn. apply same_spectra_intro; cbn; try congruence; exact L.
Qed.
Lemma resample_ext suffix src interp dim s s' : same_spectra s s' ->
  res_eq same_spectra (resample suffix src interp dim s) (resample suffix src interp dim s').
Proof.
  intro H. pose proof (same_spectra_arr _ _ H) as A. pose proof H as H'. meta H'. unfold resample. rewrite <- Hc. unfold rbind.
  destruct (get_par (s_cfg s) dim) as [p|]; [|reflexivity]. destruct (get_width p) as [step|]; [|reflexivity].
  destruct (get_index (s_cfg s) dim) as [k|]; [|reflexivity].
  pose proof (loop_ext (resample_one src interp step k p (s_data s)) (resample_one src interp step k p (s_data s')) (ashape (s_data s)) (seq 0 (Z.to_nat (sp_bins p)))
    (fun b x y E S => resample_one_ext src interp step k p _ _ b x y A E S) (azeros (ashape (s_data s))) (azeros (ashape (s_data s')))) as L.
  assert (Z : arr_eq (azeros (ashape (s_data s))) (azeros (ashape (s_data s')))) by (rewrite Hs; apply arr_refl).
  specialize (L Z eq_refl). destruct (loop_bins _ _ (azeros (ashape (s_data s)))) as [d|], (loop_bins _ _ (azeros (ashape (s_data s')))) as [d'|]; cbn in L; try contradiction; [|exact L].
  rewrite <- (sum_ext s s' H).
  assert (T : same_spectra (with_data (smear_target suffix s) d) (with_data (smear_target suffix s') d')) by (apply same_spectra_intro; cbn; try congruence; exact L).
  rewrite <- (sum_ext _ _ T). set (n := s_sum (with_data _ d)).
  assert (T' : same_spectra (with_decays (with_data (smear_target suffix s) d) n) (with_decays (with_data (smear_target suffix s') d') n)) by (apply same_spectra_intro; cbn; try congruence; exact L).
  destruct (scale_ext (s_sum s) _ _ T') as [E1 E2]. destruct (scale (s_sum s) (with_decays (with_data (smear_target suffix s) d) n)) as [t [e|]],
    (scale (s_sum s) (with_decays (with_data (smear_target suffix s') d') n)) as [t' [e'|]]; cbn in E1, E2; try discriminate; [cbn; congruence|].
  pose proof (same_spectra_arr _ _ E1) as EA. clear - E1 EA Hd. meta2 E1. cbn. apply same_spectra_intro; cbn; try congruence; exact EA.
Qed.
Lemma derive_ext d s s' : same_spectra s s' -> res_eq same_spectra (derive d s) (derive d s').
Proof.
  intro H. destruct d; cbn [derive]; [now apply weighted_ext|now apply random_ext| |].
  - pose proof H as H'. meta H'. unfold shift_axis. rewrite <- Hc. unfold rbind. destruct (get_par (s_cfg s) dim) as [p|]; [|reflexivity].
    destruct (get_width p) as [step|]; [|reflexivity]. destruct (is_multiple shift step) as [[]|]; [now apply by_bin_ext|now apply resample_ext|reflexivity].
  - unfold scale_axis. destruct (qeq sf 0); [reflexivity|now apply resample_ext].
Qed.

(** ** Attributes *)
Definition attrs_kept (s t : spectra) : Prop := s_bg t = s_bg s /\ s_cfg t = s_cfg s /\ s_decays t = s_decays s /\ s_raw t = s_raw s /\ s_bipo t = s_bipo s /\ s_rois t = s_rois s.
Lemma kept_trans a b c : attrs_kept a b -> attrs_kept b c -> attrs_kept a c.
Proof. unfold attrs_kept. intuition congruence. Qed.
Lemma kept_target suffix s : attrs_kept s (smear_target suffix s). Proof. repeat split. Qed.
Lemma fill_kept w kw s : attrs_kept s (fst (fill w kw s)).
Proof. unfold fill. destruct (fill_data w kw s); repeat split. Qed.
Lemma fill_list_kept l : forall s t, fill_list l s = Ok t -> attrs_kept s t.
Proof.
  induction l as [|[w kw] l IH]; intros s t H; cbn in H; [injection H as <-; repeat split|].
  pose proof (fill_kept w kw s) as K. destruct (fill w kw s) as [s' [e|]]; [discriminate|]. eapply kept_trans; [exact K|now apply IH].
Qed.
Lemma fill_list_try_kept l : forall s t, fill_list_try l s = Ok t -> attrs_kept s t.
Proof.
  induction l as [|[w kw] l IH]; intros s t H; cbn in H; [injection H as <-; repeat split|].
  pose proof (fill_kept w kw s) as K. destruct (fill w kw s) as [s' [e|]]; [destruct e; try discriminate|]; (eapply kept_trans; [exact K|now apply IH]).
Qed.
Lemma smear_bins_kept f bins : forall s t, smear_bins f bins s = Ok t -> attrs_kept s t.
Proof.
  induction bins as [|b bins IH]; intros s t H; cbn in H; [injection H as <-; repeat split|]. unfold rbind in H.
  destruct (f b) as [l|]; [|discriminate]. destruct (fill_list l s) as [s'|] eqn:F; [|discriminate].
  eapply kept_trans; [now apply fill_list_kept in F; exact F|now apply IH].
Qed.
Lemma random_bins_kept f bins : forall s t, random_bins f bins s = Ok t -> attrs_kept s t.
Proof.
  induction bins as [|b bins IH]; intros s t H; cbn in H; [injection H as <-; repeat split|]. unfold rbind in H.
  destruct (f b) as [l|]; [|discriminate]. destruct (fill_list_try l s) as [s'|] eqn:F; [|discriminate].
  eapply kept_trans; [now apply fill_list_try_kept in F; exact F|now apply IH].
Qed.
Lemma by_bin_kept suffix shift dim s t : shift_by_bin suffix shift dim s = Ok t -> attrs_kept s t.
Proof.
  unfold shift_by_bin, rbind. destruct (get_par _ _); [|discriminate]. destruct (get_width _); [|discriminate]. destruct (is_multiple _ _) as [m|]; [|discriminate].
  destruct (negb m); [discriminate|]. destruct (get_index _ _); [|discriminate]. destruct (loop_bins _ _ _); [|discriminate]. intro H. injection H as <-. repeat split.
Qed.
Lemma resample_kept suffix src interp dim s t : resample suffix src interp dim s = Ok t -> attrs_kept s t.
Proof.
  unfold resample, rbind. destruct (get_par _ _); [|discriminate]. destruct (get_width _); [|discriminate]. destruct (get_index _ _); [|discriminate].
  destruct (loop_bins _ _ _); [|discriminate]. unfold scale. destruct (qdiv _ _); [|discriminate]. intro H. injection H as <-. repeat split.
Qed.
Lemma derive_kept d s t : derive d s = Ok t -> attrs_kept s t.
Proof.
  destruct d; cbn [derive].
  - unfold weighted_smear, rbind. destruct (negb _); [discriminate|]. destruct (get_par _ _); [|discriminate]. destruct (rmapM _ _); [|discriminate].
    intro H. apply smear_bins_kept in H. exact H.
  - unfold random_smear, rbind. destruct (negb _); [discriminate|]. destruct (rmapM _ _); [|discriminate].
    intro H. apply random_bins_kept in H. exact H.
  - unfold shift_axis, rbind. destruct (get_par _ _); [|discriminate]. destruct (get_width _); [|discriminate]. destruct (is_multiple _ _) as [[]|]; [|..|discriminate].
    + apply by_bin_kept.
    + apply resample_kept.
  - unfold scale_axis. destruct (qeq sf 0); [discriminate|]. apply resample_kept.
Qed.

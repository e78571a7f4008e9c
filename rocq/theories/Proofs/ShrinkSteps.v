(** Shrinking twice is shrinking once to what both ask for. *)
From Coq Require Import Lia.
From Verif Require Import Model.Base Model.PyStr Model.NDArray Model.Param Model.Config Model.Spectra.
From Verif Require Import Spec.AxisSpec Spec.ArraySpec Spec.SpectraSpec Spec.ShrinkSpec.
From Verif Require Import Spec.ShrinkStepsSpec.
From Verif Require Import Proofs.QcLemmas Proofs.NDArrayLemmas Proofs.ParamLemmas Proofs.DictLemmas
  Proofs.StrLemmas Proofs.FillLemmas Proofs.ProjectLemmas Proofs.ShrinkAxis Proofs.ShrinkLemmas Proofs.ShrinkProps.
Local Open Scope string_scope.
Local Open Scope list_scope.

Lemma later_plus a b c x : (later a b + c <= x <-> a + c <= x /\ b + c <= x)%Qc.
Proof.
  unfold later. destruct (qleP a b) as [H|H]; split.
  - intro K. split; qlra.
  - intros [K1 K2]. exact K2.
  - apply Qcnot_le_lt in H. intro K. split; qlra.
  - intros [K1 K2]. exact K1.
Qed.
Lemma earlier_le a b x : (x <= earlier a b <-> x <= a /\ x <= b)%Qc.
Proof.
  unfold earlier. destruct (qleP a b) as [H|H]; split.
  - intro K. split; qlra.
  - intros [K1 K2]. exact K1.
  - apply Qcnot_le_lt in H. intro K. split; qlra.
  - intros [K1 K2]. exact K2.
Qed.
Lemma sub_edge p p1 st j : sub_axis p p1 st -> edge p1 j = edge p (Z.of_nat st + j).
Proof. intros (L & _ & W). unfold edge at 1. rewrite L, W. unfold edge. rewrite zq_add. ring. Qed.
(** The bins of the shrunk axis that are asked for next. *)
Lemma axis_steps v p p1 st kw1 kw2 kw : wf_axis p -> wf_axis p1 -> sub_axis p p1 st ->
  (forall i, req_substantial kw1 v p i <-> (Z.of_nat st <= i < Z.of_nat st + sp_bins p1)%Z) ->
  (sp_low p <= req_low kw1 v p)%Qc -> (req_high kw1 v p <= sp_high p)%Qc ->
  req_low kw v p = later (req_low kw1 v p) (req_low kw2 v p) -> req_high kw v p = earlier (req_high kw1 v p) (req_high kw2 v p) ->
  forall i, req_substantial kw v p i <-> (Z.of_nat st <= i < Z.of_nat st + sp_bins p1)%Z /\ req_substantial kw2 v p1 (i - Z.of_nat st).
Proof.
  intros Wp W1 S I B1 B2 L H i. rewrite <- (I i). unfold req_substantial, substantial. rewrite L, H, later_plus, earlier_le.
  rewrite !(sub_edge p p1 st) by exact S. replace (Z.of_nat st + (i - Z.of_nat st + 1))%Z with (i + 1)%Z by lia.
  replace (Z.of_nat st + (i - Z.of_nat st))%Z with i by lia. pose proof S as (Lo & Hi & Wd). rewrite Wd.
  assert (Q := width_pos p Wp).
  assert (A1 : (req_low kw1 v p + bin_width p * qq 1 100 <= edge p (i + 1))%Qc -> (edge p i + bin_width p * qq 1 100 <= req_high kw1 v p)%Qc ->
    (req_low kw2 v p + bin_width p * qq 1 100 <= edge p (i + 1) <-> req_low kw2 v p1 + bin_width p * qq 1 100 <= edge p (i + 1))%Qc /\
    (edge p i + bin_width p * qq 1 100 <= req_high kw2 v p <-> edge p i + bin_width p * qq 1 100 <= req_high kw2 v p1)%Qc).
  { intros K1 K2. assert (J : req_substantial kw1 v p i) by (split; assumption). apply I in J. unfold req_low at 1 2, req_high at 1 2.
    split.
    - destruct (dget (v ++ "_low") kw2); [reflexivity|]. split; intros _.
      + rewrite Lo. assert (M := edge_mono p (Z.of_nat st) i Wp ltac:(lia)). rewrite edge_succ. qlra.
      + qlra.
    - destruct (dget (v ++ "_high") kw2); [reflexivity|]. split; intros _.
      + rewrite Hi. assert (M := edge_mono p (i + 1) (Z.of_nat st + sp_bins p1) Wp ltac:(lia)). rewrite edge_succ in M. qlra.
      + qlra. }
  split.
  - intros [[K1 K2] [K3 K4]]. destruct (A1 K1 K3) as [X Y]. split; split; try assumption; [now apply X|now apply Y].
  - intros [[K1 K3] [K2 K4]]. destruct (A1 K1 K3) as [X Y]. split; split; try assumption; [now apply X|now apply Y].
Qed.

Lemma nth_error_ext {A} (l : list A) : forall m, (forall k, nth_error l k = nth_error m k) -> l = m.
Proof.
  induction l as [|x l IH]; intros [|y m] H; [reflexivity|now specialize (H 0)|now specialize (H 0)|].
  f_equal; [specialize (H 0); cbn in H; congruence|]. apply IH. intro k. exact (H (S k)).
Qed.
Lemma shrink_steps_l s kw1 kw2 kw s1 : wf_spectra s -> s_cfg s <> [] -> Forall (fun vp => aligned (snd vp)) (s_cfg s) ->
  good_keywords (s_cfg s) kw1 -> good_keywords (s_cfg s) kw -> asks_both (s_cfg s) kw1 kw2 kw -> some_bin (req_substantial kw) (s_cfg s) ->
  shrink kw1 s = (s1, None) -> good_keywords (s_cfg s1) kw2 ->
  exists s2 s3, shrink kw2 s1 = (s2, None) /\ shrink kw s = (s3, None) /\ same_spectra s2 s3.
Proof.
  intros W NE Al G1 G Bo Sb E1 G2. pose proof W as [[NDp Wa] C]. rewrite Forall_forall in Wa. rewrite Forall_forall in Al.
  assert (Sb1 : some_bin (req_substantial kw1) (s_cfg s)).
  { intros v p I. destruct (Sb v p I) as [i J]. exists i. destruct (Bo v p I) as [L H]. unfold req_substantial, substantial in *. rewrite L, H, later_plus, earlier_le in J. tauto. }
  destruct (shrink_aligned_l s kw1 W NE (proj2 (Forall_forall _ _) Al) G1 Sb1) as (s1' & st1 & E1' & W1 & (R11 & R12 & R1) & (B11 & B12 & B13)).
  rewrite E1 in E1'. injection E1' as <-.
  assert (Wa1 := proj2 (proj1 W1)). rewrite Forall_forall in Wa1.
  destruct (shrink_aligned_l s kw W NE (proj2 (Forall_forall _ _) Al) G Sb) as (s3 & st3 & E3 & W3 & (R31 & R32 & R3) & (B31 & B32 & B33)).
  (* the axes of the first step, one by one *)
  assert (Ax : forall k v p, nth_error (s_cfg s) k = Some (v, p) -> exists p1 t1, nth_error (s_cfg s1) k = Some (v, p1) /\ nth_error st1 k = Some t1 /\
    sub_axis p p1 t1 /\ wf_axis p1 /\ forall i, req_substantial kw v p i <-> (Z.of_nat t1 <= i < Z.of_nat t1 + sp_bins p1)%Z /\ req_substantial kw2 v p1 (i - Z.of_nat t1)).
  { intros k v p N. destruct (R1 k v p N) as (p1 & t1 & N1 & N2 & S & I). assert (In_ := nth_error_In _ _ N).
    assert (Wp1 : wf_axis p1) by exact (Wa1 _ (nth_error_In _ _ N1)). assert (Wp : wf_axis p) by exact (Wa _ In_).
    destruct (req_bounds (s_cfg s) kw1 v p NDp Wp G1 In_) as [L1 L2]. destruct (Bo v p In_) as [Q1 Q2].
    exists p1, t1. repeat (split; [assumption|]). exact (axis_steps v p p1 t1 kw1 kw2 kw Wp Wp1 S I L1 L2 Q1 Q2). }
  assert (Back : forall v p1, In (v, p1) (s_cfg s1) -> exists k p, nth_error (s_cfg s1) k = Some (v, p1) /\ nth_error (s_cfg s) k = Some (v, p)).
  { intros v p1 I. apply In_nth_error in I as [k N1]. assert (K : k < length (s_cfg s)) by (rewrite <- R11; apply nth_error_Some; congruence).
    destruct (nth_error (s_cfg s) k) as [[v' p]|] eqn:N; [|apply nth_error_None in N; lia]. destruct (Ax k v' p N) as (p1' & t1 & N1' & _).
    rewrite N1 in N1'. injection N1' as <- <-. eauto. }
  assert (NE1 : s_cfg s1 <> []). { intro Z. rewrite Z in R11. destruct (s_cfg s); [congruence|discriminate]. }
  assert (Al1 : Forall (fun vp => aligned (snd vp)) (s_cfg s1)).
  { apply Forall_forall. intros [v p1] I. destruct (Back v p1 I) as (k & p & N1 & N). destruct (Ax k v p N) as (p1' & t1 & N1' & _ & (S1 & S2 & S3) & _).
    rewrite N1 in N1'. injection N1' as <-. destruct (Al _ (nth_error_In _ _ N)) as [m M]. cbn in M. exists (m + Z.of_nat t1)%Z. cbn. rewrite S1, S3. unfold edge. rewrite M, zq_add. ring. }
  assert (Sb2 : some_bin (req_substantial kw2) (s_cfg s1)).
  { intros v p1 I. destruct (Back v p1 I) as (k & p & N1 & N). destruct (Ax k v p N) as (p1' & t1 & N1' & _ & _ & _ & J).
    rewrite N1 in N1'. injection N1' as <-. destruct (Sb v p (nth_error_In _ _ N)) as [i X]. apply J in X. exists (i - Z.of_nat t1)%Z. apply X. }
  destruct (shrink_aligned_l s1 kw2 W1 NE1 Al1 G2 Sb2) as (s2 & st2 & E2 & W2 & (R21 & R22 & R2) & (B21 & B22 & B23)).
  exists s2, s3. split; [exact E2|]. split; [exact E3|].
  assert (Wa2 := proj2 (proj1 W2)). rewrite Forall_forall in Wa2. assert (Wa3 := proj2 (proj1 W3)). rewrite Forall_forall in Wa3.
  assert (X : forall k v p, nth_error (s_cfg s) k = Some (v, p) -> exists t1 t2 t3, nth_error (s_cfg s2) k = nth_error (s_cfg s3) k /\
    nth_error st1 k = Some t1 /\ nth_error st2 k = Some t2 /\ nth_error st3 k = Some t3 /\ t3 = t1 + t2).
  { intros k v p N. destruct (Ax k v p N) as (p1 & t1 & N1 & M1 & S1 & _ & J). destruct (R2 k v p1 N1) as (p2 & t2 & N2 & M2 & S2 & I2).
    destruct (R3 k v p N) as (p3 & t3 & N3 & M3 & S3 & I3). exists t1, t2, t3.
    assert (P2 : (0 < sp_bins p2)%Z) by exact (proj2 (Wa2 _ (nth_error_In _ _ N2))). assert (P3 : (0 < sp_bins p3)%Z) by exact (proj2 (Wa3 _ (nth_error_In _ _ N3))).
    assert (Y : forall i, (Z.of_nat t3 <= i < Z.of_nat t3 + sp_bins p3)%Z <->
      (Z.of_nat t1 <= i < Z.of_nat t1 + sp_bins p1)%Z /\ (Z.of_nat t2 <= i - Z.of_nat t1 < Z.of_nat t2 + sp_bins p2)%Z).
    { intro i. rewrite <- I3, <- I2. apply J. }
    assert (Z2 : (Z.of_nat t2 + sp_bins p2 <= sp_bins p1)%Z).
    { assert (Q : edge p1 (Z.of_nat t2 + sp_bins p2) = sp_high p2) by (symmetry; apply S2).
      destruct (I2 (Z.of_nat t2 + sp_bins p2 - 1)%Z) as [_ K]. specialize (K ltac:(lia)).
      assert (W_1 : wf_axis p1) by exact (Wa1 _ (nth_error_In _ _ N1)).
      destruct (req_bounds (s_cfg s1) kw2 v p1 (proj1 (proj1 W1)) W_1 G2 (nth_error_In _ _ N1)) as [_ Hb].
      destruct K as [_ K]. assert (Qw := width_pos p1 W_1). assert (Lt : (edge p1 (Z.of_nat t2 + sp_bins p2 - 1) < edge p1 (sp_bins p1))%Qc) by (rewrite (edge_bins p1 W_1); qlra).
      apply edge_lt_inv in Lt; [lia|exact W_1]. }
    assert (Y1 := proj1 (Y (Z.of_nat t3)) ltac:(lia)). assert (Y2 := proj1 (Y (Z.of_nat t3 + sp_bins p3 - 1)%Z) ltac:(lia)).
    assert (Y3 := proj2 (Y (Z.of_nat t1 + Z.of_nat t2)%Z) ltac:(lia)). assert (Y4 := proj2 (Y (Z.of_nat t1 + Z.of_nat t2 + sp_bins p2 - 1)%Z) ltac:(lia)).
    assert (Et : t3 = t1 + t2) by lia. assert (Eb : sp_bins p3 = sp_bins p2) by lia.
    split; [|auto]. rewrite N2, N3. do 2 f_equal. destruct S2 as (L2 & H2 & _), S3 as (L3 & H3 & _).
    rewrite (sub_edge p p1 t1) in L2, H2 by exact S1. destruct p2 as [l2 h2 b2], p3 as [l3 h3 b3]. cbn in *. subst b3. rewrite L2, H2, L3, H3, Et.
    f_equal; f_equal; lia. }
  assert (Ec : s_cfg s2 = s_cfg s3).
  { apply nth_error_ext. intro k. destruct (nth_error (s_cfg s) k) as [[v p]|] eqn:N.
    - destruct (X k v p N) as (_ & _ & _ & Q & _). exact Q.
    - apply nth_error_None in N. rewrite (proj2 (nth_error_None (s_cfg s2) k)) by lia. symmetry. apply nth_error_None. lia. }
  destruct B13 as (? & ? & ? & ? & ? & ?), B23 as (? & ? & ? & ? & ? & ?), B33 as (? & ? & ? & ? & ? & ?).
  assert (Esh : ashape (s_data s2) = ashape (s_data s3)) by (rewrite B21, B31, Ec; reflexivity).
  split; [repeat split; congruence|]. intros idx V. destruct (B22 idx V) as [V2 ->]. destruct (B12 _ V2) as [_ ->]. rewrite Esh in V. destruct (B32 idx V) as [_ ->]. f_equal.
  assert (L : length st1 = length (s_cfg s) /\ length st2 = length (s_cfg s) /\ length st3 = length (s_cfg s)) by (repeat split; congruence).
  assert (T : forall k t1 t2 t3, nth_error st1 k = Some t1 -> nth_error st2 k = Some t2 -> nth_error st3 k = Some t3 -> t3 = t1 + t2).
  { intros k a b c A1 A2 A3. assert (K : k < length (s_cfg s)) by (rewrite <- (proj1 L); apply nth_error_Some; congruence).
    destruct (nth_error (s_cfg s) k) as [[v p]|] eqn:N; [|apply nth_error_None in N; lia]. destruct (X k v p N) as (t1 & t2 & t3 & _ & M1 & M2 & M3 & Q). congruence. }
  destruct L as (L1 & L2 & L3). assert (L12 : length st1 = length st2) by congruence. assert (L13 : length st1 = length st3) by congruence. clear - T L12 L13.
  revert st2 st3 idx T L12 L13. induction st1 as [|a st1 IH]; intros [|b st2] [|c st3] idx T L12 L13; cbn in L12, L13; try discriminate; [reflexivity|].
  destruct idx as [|i idx]; [reflexivity|]. cbn. f_equal; [rewrite (T 0 a b c eq_refl eq_refl eq_refl); lia|]. apply IH; try lia. intro k. exact (T (S k)).
Qed.

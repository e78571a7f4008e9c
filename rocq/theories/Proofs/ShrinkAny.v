(** shrink on any usable axis. *)
From Coq Require Import Lia.
From Verif Require Import Model.Base Model.PyStr Model.NDArray Model.Param Model.Config Model.Spectra.
From Verif Require Import Spec.AxisSpec Spec.ArraySpec Spec.SpectraSpec Spec.ShrinkSpec Spec.ShrinkAnySpec Spec.FitRunSpec.
From Verif Require Import Proofs.QcLemmas Proofs.NDArrayLemmas Proofs.ParamLemmas Proofs.DictLemmas
  Proofs.StrLemmas Proofs.FillLemmas Proofs.ProjectLemmas Proofs.ShrinkAxis Proofs.ShrinkLemmas Proofs.ShrinkProps.
Local Open Scope string_scope.
Local Open Scope list_scope.

Lemma qround_tie x :
  (zq (qround x) <= x + qq 1 2)%Qc /\ (x - qq 1 2 <= zq (qround x))%Qc /\
  ((0 <= x)%Qc -> (x - qq 1 2 < zq (qround x))%Qc) /\ ((x <= 0)%Qc -> (zq (qround x) < x + qq 1 2)%Qc).
Proof.
  unfold qround. destruct (qleP 0 x) as [H|H].
  - pose proof (qfloor_le (x + qq 1 2)%Qc). pose proof (qfloor_lt (x + qq 1 2)%Qc).
    split; [qlra|]. split; [qlra|]. split; [intros _; qlra|]. intro G.
    assert (E : x = 0%Qc) by (apply Qcle_antisym; assumption). subst x.
    replace (qfloor (0 + qq 1 2)) with 0%Z by (vm_compute; reflexivity). rewrite zq_0. qlra.
  - apply Qcnot_le_lt in H. pose proof (qceil_ge (x - qq 1 2)%Qc). pose proof (qceil_lt (x - qq 1 2)%Qc).
    split; [qlra|]. split; [qlra|]. split; [intro G; exfalso; qlra|]. intros _. qlra.
Qed.
Lemma sp_round_nearest p x :
  wf_axis p -> exists y, sp_round p x = Ok y /\ nearest_multiple (bin_width p) x y.
Proof.
  intro W. eexists. split; [apply sp_round_ok, W|]. pose proof (width_pos _ W) as Hw.
  split; [eexists; reflexivity|].
  set (q := (x / bin_width p)%Qc). assert (E : (q * bin_width p = x)%Qc) by (apply Qcdiv_mul_id, width_neq, W).
  destruct (qround_tie q) as (H1 & H2 & H3 & H4). set (z := zq (qround q)) in *. clearbody z q.
  split; [qnra|]. split; [qnra|]. split; intro G.
  - assert (G' : (0 <= q)%Qc). { apply Qcnot_lt_le. intro L. assert ((0 < (- q) * bin_width p)%Qc) by (apply Qcmul_pos; qlra). qlra. }
    specialize (H3 G'). assert ((0 < (z - (q - qq 1 2)) * bin_width p)%Qc) by (apply Qcmul_pos; qlra). qlra.
  - assert (G' : (q <= 0)%Qc). { apply Qcnot_lt_le. intro L. assert ((0 < q * bin_width p)%Qc) by (apply Qcmul_pos; qlra). qlra. }
    specialize (H4 G'). assert ((0 < (q + qq 1 2 - z) * bin_width p)%Qc) by (apply Qcmul_pos; qlra). qlra.
Qed.
(** The nearest multiple is unique. *)
Lemma nearest_unique w x y z : (0 < w)%Qc -> nearest_multiple w x y -> nearest_multiple w x z -> y = z.
Proof.
  assert (K : forall a b, (0 < w)%Qc -> nearest_multiple w x (zq a * w)%Qc -> nearest_multiple w x (zq b * w)%Qc -> ~ (a < b)%Z).
  { intros a b Hw (_ & A1 & A2 & A3 & A4) (_ & B1 & B2 & B3 & B4) L.
    assert (L' : (a + 1 <= b)%Z) by lia. apply zq_le in L'. rewrite zq_add, zq_1 in L'.
    assert (M : (0 <= (zq b - (zq a + 1)) * w)%Qc) by (apply Qcmul_nonneg; qlra).
    destruct (Qclt_le_dec x 0) as [N|N].
    - apply Qclt_le_weak in N. specialize (A4 N). specialize (B4 N). qlra.
    - specialize (A3 N). specialize (B3 N). qlra. }
  intros Hw Y Z. pose proof Y as ((a & Ea) & _). pose proof Z as ((b & Eb) & _). subst y z.
  pose proof (K a b Hw Y Z). pose proof (K b a Hw Z Y). replace b with a by lia. reflexivity.
Qed.

Lemma shrink_axis_any p lo hi :
  wf_axis p -> (sp_low p <= lo)%Qc -> (hi <= sp_high p)%Qc ->
  exists nl nh lb hb, shrink_axis p lo hi = Ok (SPar nl nh (hb - lb), (lb, hb)) /\
    (forall i, (lb <= i < hb)%Z <-> shared p lo hi i) /\
    ((edge p lb <= lo)%Qc -> rounded_edge p lb nl) /\ ((lo < edge p lb)%Qc -> nl = edge p lb) /\
    rounded_edge p hb nh.
Proof.
  intros W L H. pose proof (width_pos _ W) as Hw. pose proof W as [W1 W2].
  unfold shrink_axis. rewrite get_width_ok by exact W. cbn [rbind].
  rewrite !qdiv_ok by (apply width_neq, W). cbn [rbind].
  rewrite qtrunc_nonneg by (apply quot_nonneg; assumption).
  destruct (floor_pos p lo W) as [A1 A2]. destruct (ceil_pos p hi W) as [B1 B2].
  set (lb := qfloor ((lo - sp_low p) / bin_width p)%Qc) in *.
  set (hb := qceil ((hi - sp_low p) / bin_width p)%Qc) in *.
  fold (edge p lb) (edge p hb).
  destruct (sp_round_nearest p (edge p lb) W) as (nl & Enl & Nl). rewrite Enl. cbn [rbind].
  destruct (sp_round_nearest p (edge p hb) W) as (nh & Enh & Nh). rewrite Enh. cbn [rbind].
  pose proof Nl as (_ & N1 & N2 & _). pose proof Nh as (_ & N3 & N4 & _).
  rewrite edge_succ in A2.
  assert (Eh : edge p hb = (edge p (hb - 1) + bin_width p)%Qc) by (rewrite <- edge_succ; f_equal; lia).
  set (lb' := if qlt (qq 99 100 * bin_width p)%Qc (lo - nl)%Qc then (lb + 1)%Z else lb).
  set (hb' := if qlt (qq 99 100 * bin_width p)%Qc (nh - hi)%Qc then (hb - 1)%Z else hb).
  assert (SH : forall i, (lb' <= i < hb')%Z <-> shared p lo hi i).
  { intro i. unfold shared, overlaps. rewrite edge_succ. split.
    - intros [I1 I2].
      assert (Li : (lb <= i)%Z) by (revert I1; unfold lb'; match goal with |- context [if ?b then _ else _] => destruct b end; lia).
      assert (Ri : (i < hb)%Z) by (revert I2; unfold hb'; match goal with |- context [if ?b then _ else _] => destruct b end; lia).
      destruct (sp_round_nearest p (edge p i) W) as (a & _ & Ra).
      destruct (sp_round_nearest p (edge p (i + 1)) W) as (b & _ & Rb).
      pose proof (edge_mono p _ _ W Li) as M1.
      assert (Ri' : (i <= hb - 1)%Z) by lia. pose proof (edge_mono p _ _ W Ri') as M2.
      split; [split; qlra|]. exists a, b. split; [exact Ra|]. split; [exact Rb|].
      pose proof Ra as (_ & Ra1 & Ra2 & _). pose proof Rb as (_ & Rb1 & Rb2 & _). rewrite edge_succ in Rb1, Rb2. split.
      + destruct (Z.eq_dec i lb) as [->|Ne].
        * replace a with nl by (apply (nearest_unique (bin_width p) (edge p lb)); assumption).
          unfold lb' in I1. destruct (qltP (qq 99 100 * bin_width p)%Qc (lo - nl)%Qc) as [C|C]; [lia|].
          apply Qcnot_lt_le in C. qlra.
        * assert (G : (lb + 1 <= i)%Z) by lia. pose proof (edge_mono p _ _ W G) as M. rewrite edge_succ in M. qlra.
      + destruct (Z.eq_dec (i + 1) hb) as [E|Ne].
        * assert (Eb : b = nh) by (apply (nearest_unique (bin_width p) (edge p hb)); [exact Hw|rewrite <- E; exact Rb|exact Nh]).
          rewrite Eb. unfold hb' in I2. destruct (qltP (qq 99 100 * bin_width p)%Qc (nh - hi)%Qc) as [C|C]; [lia|].
          apply Qcnot_lt_le in C. qlra.
        * assert (G : (i + 1 <= hb - 1)%Z) by lia. pose proof (edge_mono p _ _ W G) as M. rewrite edge_succ in M. qlra.
    - intros ((O1 & O2) & a & b & Ra & Rb & K1 & K2).
      assert (Li : (lb <= i)%Z).
      { assert (lb < i + 1)%Z; [|lia]. apply (edge_lt_inv p); [exact W|]. rewrite edge_succ. qlra. }
      assert (Ri : (i < hb)%Z) by (apply (edge_lt_inv p); [exact W|]; qlra).
      split.
      + unfold lb'. destruct (qltP (qq 99 100 * bin_width p)%Qc (lo - nl)%Qc) as [C|C]; [|exact Li].
        destruct (Z.eq_dec i lb) as [->|Ne]; [|lia]. exfalso.
        assert (Ea : a = nl) by (apply (nearest_unique (bin_width p) (edge p lb)); assumption).
        rewrite Ea in K1. qlra.
      + unfold hb'. destruct (qltP (qq 99 100 * bin_width p)%Qc (nh - hi)%Qc) as [C|C]; [|exact Ri].
        destruct (Z.eq_dec (i + 1) hb) as [E|Ne]; [|lia]. exfalso.
        assert (Eb : b = nh) by (apply (nearest_unique (bin_width p) (edge p hb)); [exact Hw|rewrite <- E; exact Rb|exact Nh]).
        rewrite Eb in K2. qlra. }
  assert (AL : qlt (qq 99 100 * bin_width p)%Qc (qabs (nl - lo)) = qlt (qq 99 100 * bin_width p)%Qc (lo - nl)%Qc).
  { destruct (Qclt_le_dec 0 (nl - lo)%Qc) as [G|G].
    - rewrite qabs_pos by (apply Qclt_le_weak, G).
      destruct (qltP (qq 99 100 * bin_width p)%Qc (nl - lo)%Qc), (qltP (qq 99 100 * bin_width p)%Qc (lo - nl)%Qc); trivial; exfalso; qlra.
    - rewrite qabs_neg by exact G. replace (- (nl - lo))%Qc with (lo - nl)%Qc by ring. reflexivity. }
  assert (AH : qlt (qq 99 100 * bin_width p)%Qc (qabs (nh - hi)) = qlt (qq 99 100 * bin_width p)%Qc (nh - hi)%Qc).
  { destruct (Qclt_le_dec 0 (nh - hi)%Qc) as [G|G].
    - rewrite qabs_pos by (apply Qclt_le_weak, G). reflexivity.
    - rewrite qabs_neg by exact G.
      destruct (qltP (qq 99 100 * bin_width p)%Qc (- (nh - hi))%Qc), (qltP (qq 99 100 * bin_width p)%Qc (nh - hi)%Qc); trivial; exfalso; qlra. }
  rewrite AL, AH.
  assert (HI : exists nh', rounded_edge p hb' nh' /\
     (if qlt (qq 99 100 * bin_width p)%Qc (nh - hi)%Qc
      then (let hb1 := if qlt 0 (nh - hi)%Qc then (hb - 1)%Z else (hb + 1)%Z in
            do nh1 <- sp_round p (sp_low p + zq hb1 * bin_width p)%Qc; Ok (hb1, nh1))
      else Ok (hb, nh)) = Ok (hb', nh')).
  { unfold hb'. destruct (qltP (qq 99 100 * bin_width p)%Qc (nh - hi)%Qc) as [C|C]; [|exists nh; split; [exact Nh|reflexivity]].
    destruct (qltP 0 (nh - hi)%Qc) as [G|G]; [|exfalso; apply G; qlra]. fold (edge p (hb - 1)).
    destruct (sp_round_nearest p (edge p (hb - 1)) W) as (nh' & E' & R'). rewrite E'. exists nh'. split; [exact R'|reflexivity]. }
  destruct HI as (nh' & Rh & HI).
  match goal with |- context [rbind ?x _] => replace x with (Ok (hb', nh')) by (symmetry; exact HI) end. cbn [rbind].
  unfold lb' in *. destruct (qltP (qq 99 100 * bin_width p)%Qc (lo - nl)%Qc) as [C|C].
  - destruct (qltP 0 (nl - lo)%Qc) as [G|G]; [exfalso; qlra|].
    exists (edge p (lb + 1)), nh', (lb + 1)%Z, hb'. split; [reflexivity|]. split; [exact SH|].
    split; [intro G'; exfalso; rewrite edge_succ in G'; qlra|]. split; [reflexivity|exact Rh].
  - exists nl, nh', lb, hb'. split; [reflexivity|]. split; [exact SH|].
    split; [intros _; exact Nl|]. split; [intro G'; exfalso; qlra|exact Rh].
Qed.

Lemma shrink_any_l s kw :
  wf_spectra s -> s_cfg s <> [] -> good_keywords (s_cfg s) kw -> some_bin (req_shared kw) (s_cfg s) ->
  exists s' starts, shrink kw s = (s', None) /\ wf_spectra s' /\
    near_restricted (req_shared kw) kw (s_cfg s) (s_cfg s') starts /\ block_of s s' starts.
Proof.
  intros W NE G SB. pose proof W as [[NDp Wa] C].
  assert (A : forall v p, In (v, p) (s_cfg s) -> exists nl nh lb hb,
     shrink_axis p (req_low kw v p) (req_high kw v p) = Ok (SPar nl nh (hb - lb), (lb, hb)) /\
     (forall i, (lb <= i < hb)%Z <-> req_shared kw v p i) /\
     ((edge p lb <= req_low kw v p)%Qc -> rounded_edge p lb nl) /\ ((req_low kw v p < edge p lb)%Qc -> nl = edge p lb) /\
     rounded_edge p hb nh).
  { intros v p I. rewrite Forall_forall in Wa. pose proof (Wa _ I) as Wp. cbn in Wp.
    destruct (req_bounds _ _ _ _ NDp Wp G I) as [B1 B2]. apply shrink_axis_any; assumption. }
  destruct (shrink_general s kw W NE G) as (c' & sls & d & E & K & L1 & L2 & F & Wf & Ag & Sh & Fs).
  { apply shrink_pos; [exact W|exact NE|exact G|]. intros v p p' sl I Es.
    destruct (A v p I) as (nl & nh & lb & hb & Es' & Hi & _). rewrite Es in Es'. injection Es' as -> ->. cbn.
    destruct (SB v p I) as (i & Hs). apply Hi in Hs. lia. }
  eexists. exists (map slice_start sls). split; [exact E|]. split; [exact Wf|]. split.
  - cbn. split; [exact L2|]. split; [rewrite map_length; exact L1|]. intros k v p N.
    destruct (Forall2_nth _ _ _ _ _ F N) as ([[v' p'] sl] & Nx & (Ax & Pos)). apply nth_combine in Nx as [N1 N2].
    cbn [fst snd] in *. assert (v' = v) by (eapply nth_fst; eassumption). subst v'.
    pose proof (nth_error_In _ _ N) as I. destruct (A v p I) as (nl & nh & lb & hb & Es & Hi & Q1 & Q2 & Q3).
    destruct Ax as (Ex & B & A1 & A2 & A3). rewrite Es in Ex. injection Ex as <- <-. cbn [fst snd sp_bins] in *.
    exists (SPar nl nh (hb - lb)), (slice_start (lb, hb)). split; [exact N1|].
    split; [apply map_nth_error, N2|]. unfold slice_start. cbn [fst sp_bins]. rewrite Z2Nat.id by lia. split.
    + unfold near_axis. cbn [sp_low sp_high sp_bins]. rewrite Z2Nat.id by lia.
      replace (lb + (hb - lb))%Z with hb by lia. split; [exact Q1|]. split; [exact Q2|exact Q3].
    + intro i. rewrite <- Hi. lia.
  - unfold block_of. cbn. split; [apply Wf|]. split; [|repeat split].
    intros idx V. split; [|apply Ag]. apply zip_add_valid; [exact Fs|]. rewrite <- Sh. exact V.
Qed.

(** ** The current bounds *)
Lemma shared_current p i : wf_axis p -> (shared p (sp_low p) (sp_high p) i <-> (0 <= i < sp_bins p)%Z).
Proof.
  intro W. pose proof (width_pos _ W) as Hw. unfold shared, overlaps.
  assert (O : ((sp_low p < edge p (i + 1))%Qc /\ (edge p i < sp_high p)%Qc) <-> (0 <= i < sp_bins p)%Z).
  { rewrite <- (edge_0 p) at 1. rewrite <- (edge_bins p W). split.
    - intros [G1 G2]. apply edge_lt_inv in G1; [|exact W]. apply edge_lt_inv in G2; [|exact W]. lia.
    - intros [G1 G2]. split; apply edge_lt; auto; lia. }
  rewrite O. split; [intros [G _]; exact G|]. intro G. split; [exact G|].
  destruct (sp_round_nearest p (edge p i) W) as (a & _ & Ra).
  destruct (sp_round_nearest p (edge p (i + 1)) W) as (b & _ & Rb).
  exists a, b. split; [exact Ra|]. split; [exact Rb|].
  destruct Ra as (_ & Ra1 & _). destruct Rb as (_ & _ & Rb2 & _). rewrite edge_succ in Rb2.
  assert (M1 : (edge p 0 <= edge p i)%Qc) by (apply edge_mono; [exact W|lia]).
  assert (M2 : (edge p (i + 1) <= edge p (sp_bins p))%Qc) by (apply edge_mono; [exact W|lia]).
  rewrite edge_0 in M1. rewrite edge_bins, edge_succ in M2 by exact W. split; qlra.
Qed.
Lemma shrink_current_l s kw :
  wf_spectra s -> s_cfg s <> [] -> current_bounds (s_cfg s) kw ->
  exists s', shrink kw s = (s', None) /\ bounds_rounded (s_cfg s) (s_cfg s') /\
    same_array (s_data s') (s_data s) /\ s_name s' = s_name s /\ s_bg s' = s_bg s /\ s_decays s' = s_decays s /\
    s_raw s' = s_raw s /\ s_bipo s' = s_bipo s /\ s_rois s' = s_rois s.
Proof.
  intros W NE H. pose proof W as [[NDp Wa] C]. rewrite Forall_forall in Wa.
  destruct (shrink_any_l s kw W NE) as (s' & st & E & W' & (R1 & R2 & R) & (B1 & B2 & B3)).
  - intros k x I. destruct (H k x I) as (v & p & G & [[-> ->]|[-> ->]]); exists v, p; (split; [exact G|]).
    + left. split; [reflexivity|qlra].
    + right. split; [reflexivity|qlra].
  - intros v p I. unfold req_shared. destruct (current_req _ _ _ _ NDp H I) as [-> ->]. pose proof (Wa _ I) as Wp. cbn in Wp.
    exists 0%Z. apply shared_current; [exact Wp|]. destruct Wp. lia.
  - exists s'. split; [exact E|].
    assert (X : forall k v p, nth_error (s_cfg s) k = Some (v, p) -> exists p',
              nth_error (s_cfg s') k = Some (v, p') /\ nth_error st k = Some 0 /\ sp_bins p' = sp_bins p /\
              nearest_multiple (bin_width p) (sp_low p) (sp_low p') /\
              nearest_multiple (bin_width p) (sp_high p) (sp_high p')).
    { intros k v p N. destruct (R k v p N) as (p' & s0 & N1 & N2 & (S1 & S2 & S3) & I).
      pose proof (nth_error_In _ _ N) as In_. pose proof (Wa _ In_) as Wp. cbn in Wp.
      destruct (current_req _ _ _ _ NDp H In_) as [E1 E2]. rewrite E1 in S1, S2.
      assert (Hp : (0 < sp_bins p)%Z) by apply Wp.
      assert (I' : forall i, (0 <= i < sp_bins p)%Z <-> (Z.of_nat s0 <= i < Z.of_nat s0 + sp_bins p')%Z).
      { intro i. rewrite <- I. unfold req_shared. rewrite E1, E2. symmetry. apply shared_current, Wp. }
      pose proof (proj1 (I' 0%Z)). pose proof (proj1 (I' (sp_bins p - 1)%Z)).
      assert (0 < sp_bins p')%Z by lia.
      pose proof (proj2 (I' (Z.of_nat s0))). pose proof (proj2 (I' (Z.of_nat s0 + sp_bins p' - 1)%Z)).
      assert (s0 = 0) by lia. subst s0. assert (Eb : sp_bins p' = sp_bins p) by lia.
      exists p'. split; [exact N1|]. split; [exact N2|]. split; [exact Eb|].
      change (Z.of_nat 0) with 0%Z in *. rewrite Eb in S3. unfold rounded_edge in *.
      rewrite edge_0 in S1. rewrite Z.add_0_l, edge_bins in S3 by exact Wp. split; [apply S1; qlra|exact S3]. }
    assert (Ec : cfg_shape (s_cfg s') = cfg_shape (s_cfg s)).
    { clear - X R1. revert X R1. generalize (s_cfg s') as c', (s_cfg s) as c. intros c' c. revert c' st.
      induction c as [|[v p] c IH]; intros [|x c'] st X L; cbn in L; try lia; [reflexivity|].
      destruct (X 0 v p eq_refl) as (p' & X0 & X0' & Eb & _). cbn in X0. injection X0 as ->.
      destruct st as [|s0 st]; [discriminate|]. unfold cfg_shape in *. cbn [map snd]. rewrite Eb. f_equal.
      apply (IH c' st); [|lia]. intros k. apply (X (S k)). }
    assert (Esh : ashape (s_data s') = ashape (s_data s)) by (rewrite B1, C, Ec; reflexivity).
    destruct B3 as (? & ? & ? & ? & ? & ?).
    split.
    { split; [exact R1|]. intros k v p N. destruct (X k v p N) as (p' & X1 & _ & X2 & X3 & X4).
      exists p'. repeat (split; [assumption|]). assumption. }
    split; [|repeat split; assumption]. split; [exact Esh|].
    intros idx V. destruct (B2 idx V) as [_ ->]. f_equal.
    apply block_identity.
    + rewrite R2. apply valid_length in V. rewrite V, Esh, C, cfg_shape_length. reflexivity.
    + intros k x N. assert (Hk : k < length (s_cfg s)) by (rewrite <- R2; apply nth_error_Some; congruence).
      destruct (nth_error (s_cfg s) k) as [[v p]|] eqn:Ek; [|apply nth_error_None in Ek; lia].
      destruct (X k v p Ek) as (p' & _ & X2 & _). congruence.
Qed.

(** ** Refutations *)
Definition sliver_sp : spectra :=
  Spec "x" None [("energy_mc", SPar (zq 0) (zq 10) 10)] (ND [10] (fun _ => 1%Qc)) 1 0 0 [].
Definition sliver_kw : dict Qc := [(("energy_mc" ++ "_low")%string, qq 399 200)].
Lemma sliver_refuted_l :
  exists s kw v p p' i, wf_spectra s /\ Forall (fun vp => aligned (snd vp)) (s_cfg s) /\ good_keywords (s_cfg s) kw /\
    snd (shrink kw s) = None /\ dget v (s_cfg s) = Some p /\ dget v (s_cfg (fst (shrink kw s))) = Some p' /\
    (0 <= i < sp_bins p)%Z /\ req_overlap kw v p i /\ sp_low p' = edge p (i + 1).
Proof.
  assert (F : match dget "energy_mc" (s_cfg (fst (shrink sliver_kw sliver_sp))) with Some p' => this (sp_low p') | None => 0%Q end = this (zq 2))
    by (vm_compute; reflexivity).
  destruct (dget "energy_mc" (s_cfg (fst (shrink sliver_kw sliver_sp)))) as [p'|] eqn:D; [|discriminate F].
  exists sliver_sp, sliver_kw, "energy_mc", (SPar (zq 0) (zq 10) 10), p', 1%Z. split.
  { split; [split|reflexivity]; [repeat constructor; intros []|]. constructor; [|constructor]. split; vm_compute; reflexivity. }
  split; [constructor; [exists 0%Z; apply Qc_is_canon; vm_compute; reflexivity|constructor]|]. split.
  { intros k x [H|[]]. injection H as <- <-. exists "energy_mc", (SPar (zq 0) (zq 10) 10). split; [reflexivity|].
    left. split; [reflexivity|]. vm_compute. discriminate. }
  split; [vm_compute; reflexivity|]. split; [reflexivity|]. split; [exact D|]. split; [cbn; lia|].
  split; [split; vm_compute; reflexivity|]. apply Qc_is_canon. rewrite F. vm_compute. reflexivity.
Qed.
Definition width_sp : spectra :=
  Spec "x" None [("energy_mc", SPar (qq 2 5) (qq 52 5) 10)] (ND [10] (fun _ => 1%Qc)) 1 0 0 [].
Definition width_kw : dict Qc := [(("energy_mc" ++ "_low")%string, zq 2)].
Lemma width_sp_wf : wf_spectra width_sp.
Proof. split; [split|reflexivity]; [repeat constructor; intros []|]. constructor; [|constructor]. split; vm_compute; reflexivity. Qed.
Lemma width_refuted_l :
  exists s kw v p p' i, wf_spectra s /\ good_keywords (s_cfg s) kw /\
    snd (shrink kw s) = None /\ dget v (s_cfg s) = Some p /\ dget v (s_cfg (fst (shrink kw s))) = Some p' /\
    (0 <= i < sp_bins p)%Z /\ (req_low kw v p + bin_width p * qq 2 5 <= edge p (i + 1))%Qc /\
    sp_low p' = edge p (i + 1) /\ bin_width p' <> bin_width p.
Proof.
  assert (F : match dget "energy_mc" (s_cfg (fst (shrink width_kw width_sp))) with
              | Some p' => (this (sp_low p'), this (bin_width p')) | None => (0%Q, 0%Q) end = (this (qq 12 5), this (qq 19 20)))
    by (vm_compute; reflexivity).
  destruct (dget "energy_mc" (s_cfg (fst (shrink width_kw width_sp)))) as [p'|] eqn:D; [|discriminate F].
  pose proof (f_equal fst F) as F1. pose proof (f_equal snd F) as F2. cbn [fst snd] in F1, F2. clear F.
  exists width_sp, width_kw, "energy_mc", (SPar (qq 2 5) (qq 52 5) 10), p', 1%Z. split; [exact width_sp_wf|]. split.
  { intros k x [H|[]]. injection H as <- <-. exists "energy_mc", (SPar (qq 2 5) (qq 52 5) 10). split; [reflexivity|].
    left. split; [reflexivity|]. vm_compute. discriminate. }
  split; [vm_compute; reflexivity|]. split; [reflexivity|]. split; [exact D|]. split; [cbn; lia|].
  split; [vm_compute; discriminate|]. split; [apply Qc_is_canon; rewrite F1; vm_compute; reflexivity|].
  intro E. apply (f_equal this) in E. rewrite F2 in E. vm_compute in E. discriminate.
Qed.
Lemma close_refuted_l :
  exists s v p x, wf_spectra s /\ dget v (s_cfg s) = Some p /\
    x = (sp_high p + qq 1 1000000)%Qc /\
    snd (shrink [((v ++ "_high")%string, x)] s) = None /\ ~ consistent (fst (shrink [((v ++ "_high")%string, x)] s)).
Proof.
  exists width_sp, "energy_mc", (SPar (qq 2 5) (qq 52 5) 10). eexists. split; [exact width_sp_wf|]. split; [reflexivity|].
  split; [reflexivity|]. split; [vm_compute; reflexivity|]. unfold consistent. intro E. vm_compute in E. discriminate.
Qed.

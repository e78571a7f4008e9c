(** One axis of Spectra.shrink. *)
From Coq Require Import Lia.
From Verif Require Import Model.Base Model.PyStr Model.NDArray Model.Param Model.Config Model.Spectra.
From Verif Require Import Spec.AxisSpec Spec.ArraySpec Spec.SpectraSpec Spec.ShrinkSpec.
From Verif Require Import Proofs.QcLemmas Proofs.NDArrayLemmas Proofs.ParamLemmas.

Lemma sp_round_ok p x :
  wf_axis p -> sp_round p x = Ok (zq (qround (x / bin_width p)%Qc) * bin_width p)%Qc.
Proof.
  intro W. unfold sp_round. rewrite get_width_ok by exact W. cbn [rbind].
  rewrite qdiv_ok by (apply width_neq, W). reflexivity.
Qed.
Lemma qround_near x : (zq (qround x) <= x + qq 1 2)%Qc /\ (x - qq 1 2 <= zq (qround x))%Qc.
Proof.
  unfold qround. destruct (qleP 0 x) as [H|H].
  - pose proof (qfloor_le (x + qq 1 2)%Qc). pose proof (qfloor_lt (x + qq 1 2)%Qc). split; qlra.
  - pose proof (qceil_ge (x - qq 1 2)%Qc). pose proof (qceil_lt (x - qq 1 2)%Qc). split; qlra.
Qed.
(** Rounding moves a value by at most half a bin. *)
Lemma sp_round_near p x :
  wf_axis p -> exists y, sp_round p x = Ok y /\
    (y <= x + bin_width p * qq 1 2)%Qc /\ (x - bin_width p * qq 1 2 <= y)%Qc.
Proof.
  intro W. eexists. split; [apply sp_round_ok, W|]. pose proof (width_pos _ W) as Hw.
  set (q := (x / bin_width p)%Qc). assert (E : (q * bin_width p = x)%Qc) by (apply Qcdiv_mul_id, width_neq, W).
  destruct (qround_near q) as [H1 H2]. set (z := zq (qround q)) in *. clearbody z q. split; qnra.
Qed.
Lemma sp_round_edge p k : wf_axis p -> aligned p -> sp_round p (edge p k) = Ok (edge p k).
Proof.
  intros W [m E]. rewrite sp_round_ok by exact W. f_equal. unfold edge. rewrite E.
  replace ((zq m * bin_width p + zq k * bin_width p) / bin_width p)%Qc with (zq (m + k)).
  - rewrite qround_zq, zq_add. ring.
  - rewrite zq_add. field. apply width_neq, W.
Qed.

(** Floor and ceiling of a position measured in bins. *)
Lemma floor_pos p x (k := qfloor ((x - sp_low p) / bin_width p)%Qc) :
  wf_axis p -> (edge p k <= x)%Qc /\ (x < edge p (k + 1))%Qc.
Proof. intro W. exact (quot_floor_bin p x W). Qed.
Lemma ceil_pos p x (k := qceil ((x - sp_low p) / bin_width p)%Qc) :
  wf_axis p -> (x <= edge p k)%Qc /\ (edge p (k - 1) < x)%Qc.
Proof.
  intro W. pose proof (width_pos _ W) as Hw. unfold k. clear k.
  set (q := ((x - sp_low p) / bin_width p)%Qc) in *.
  assert (E : (q * bin_width p = x - sp_low p)%Qc) by (apply Qcdiv_mul_id, width_neq, W).
  pose proof (qceil_ge q) as F1. pose proof (qceil_lt q) as F2.
  unfold edge. rewrite zq_sub, zq_1. set (z := zq (qceil q)) in *. clearbody z q.
  assert (G1 : (0 <= (z - q) * bin_width p)%Qc) by (apply Qcmul_nonneg; qlra).
  assert (G2 : (0 < (q + 1 - z) * bin_width p)%Qc) by (apply Qcmul_pos; qlra).
  split; qlra.
Qed.
Lemma edge_le_inv p i j : wf_axis p -> (edge p i <= edge p j)%Qc -> (i <= j)%Z.
Proof.
  intros W H. destruct (Z.le_gt_cases i j) as [L|L]; [exact L|].
  pose proof (edge_lt _ _ _ W L). exfalso. qlra.
Qed.

Lemma qround_step x y : (x + 1 <= y)%Qc -> (qround x + 1 <= qround y)%Z.
Proof.
  intro H. unfold qround. destruct (qleP 0 x) as [X|X]; destruct (qleP 0 y) as [Y|Y].
  - rewrite <- (qfloor_add_z _ 1). apply qfloor_mono. rewrite zq_1. qlra.
  - exfalso. apply Y. qlra.
  - apply Qcnot_le_lt in X. destruct (Qclt_le_dec y (qq 1 2)) as [Z|Z].
    + assert (qceil (x - qq 1 2) <= -1)%Z by (apply qceil_le_z; change (zq (-1)) with (zq (- (1))); rewrite zq_opp, zq_1; qlra).
      assert (0 <= qfloor (y + qq 1 2))%Z by (apply qfloor_ge; rewrite zq_0; qlra). lia.
    + assert (qceil (x - qq 1 2) <= 0)%Z by (apply qceil_le_z; rewrite zq_0; qlra).
      assert (1 <= qfloor (y + qq 1 2))%Z by (apply qfloor_ge; rewrite zq_1; qlra). lia.
  - apply Qcnot_le_lt in Y. pose proof (qceil_lt (x - qq 1 2)%Qc). pose proof (qceil_ge (y - qq 1 2)%Qc).
    assert (A : (zq (qceil (x - qq 1 2)) < zq (qceil (y - qq 1 2)))%Qc) by qlra.
    apply zq_lt in A. lia.
Qed.
Lemma sp_round_lt p i j a b :
  wf_axis p -> (i < j)%Z -> sp_round p (edge p i) = Ok a -> sp_round p (edge p j) = Ok b -> (a < b)%Qc.
Proof.
  intros W L Ea Eb. rewrite sp_round_ok in Ea, Eb by exact W. injection Ea as <-. injection Eb as <-.
  pose proof (width_pos _ W) as Hw.
  assert (S : (qround (edge p i / bin_width p) + 1 <= qround (edge p j / bin_width p))%Z).
  { apply qround_step. unfold edge.
    replace ((sp_low p + zq i * bin_width p) / bin_width p + 1)%Qc
      with ((sp_low p + (zq i + 1) * bin_width p) / bin_width p)%Qc by (field; apply width_neq, W).
    apply Qcdiv_le_iff; [exact Hw|]. rewrite Qcdiv_mul_id by (apply width_neq, W).
    assert (L' : (i + 1 <= j)%Z) by lia. apply zq_le in L'. rewrite zq_add, zq_1 in L'. qnra. }
  apply zq_le in S. rewrite zq_add, zq_1 in S. qnra.
Qed.

(** The outcome for any usable axis. *)
Lemma shrink_axis_general p lo hi :
  wf_axis p -> (sp_low p <= lo)%Qc -> (hi <= sp_high p)%Qc ->
  exists nl nh lb hb, shrink_axis p lo hi = Ok (SPar nl nh (hb - lb), (lb, hb)) /\
    (0 <= lb)%Z /\ (hb <= sp_bins p)%Z /\ ((0 < hb - lb)%Z -> (nl < nh)%Qc).
Proof.
  intros W L H. pose proof (width_pos _ W) as Hw. pose proof W as [W1 W2].
  unfold shrink_axis. rewrite get_width_ok by exact W. cbn [rbind].
  rewrite !qdiv_ok by (apply width_neq, W). cbn [rbind].
  rewrite qtrunc_nonneg by (apply quot_nonneg; assumption).
  destruct (floor_pos p lo W) as [A1 A2]. destruct (ceil_pos p hi W) as [B1 B2].
  set (lb := qfloor ((lo - sp_low p) / bin_width p)%Qc) in *.
  set (hb := qceil ((hi - sp_low p) / bin_width p)%Qc) in *.
  fold (edge p lb) (edge p hb).
  assert (Hlb : (0 <= lb)%Z).
  { assert (0 < lb + 1)%Z; [|lia]. apply (edge_lt_inv p); [exact W|]. rewrite edge_0. qlra. }
  assert (Hhb : (hb <= sp_bins p)%Z).
  { assert (hb - 1 < sp_bins p)%Z; [|lia]. apply (edge_lt_inv p); [exact W|]. rewrite edge_bins by exact W. qlra. }
  destruct (sp_round_near p (edge p lb) W) as (nl & Enl & N1 & N2). rewrite Enl. cbn [rbind].
  destruct (sp_round_near p (edge p hb) W) as (nh & Enh & N3 & N4). rewrite Enh. cbn [rbind].
  rewrite edge_succ in A2.
  assert (B2' : (edge p hb < hi + bin_width p)%Qc).
  { assert (E : edge p hb = (edge p (hb - 1) + bin_width p)%Qc) by (rewrite <- edge_succ; f_equal; lia).
    rewrite E. qlra. }
  destruct (qltP (qq 99 100 * bin_width p)%Qc (qabs (nh - hi))) as [C1|C1];
  destruct (qltP (qq 99 100 * bin_width p)%Qc (qabs (nl - lo))) as [C2|C2].
  - assert (P1 : (0 < nh - hi)%Qc).
    { destruct (Qclt_le_dec 0 (nh - hi)%Qc) as [G|G]; [exact G|]. rewrite qabs_neg in C1 by exact G. exfalso. qlra. }
    destruct (qltP 0 (nh - hi)%Qc); [|contradiction]. fold (edge p (hb - 1)).
    destruct (sp_round_near p (edge p (hb - 1)) W) as (nh' & Enh' & N5 & N6). rewrite Enh'. cbn [rbind].
    assert (P2 : ~ (0 < nl - lo)%Qc).
    { intro G. rewrite qabs_pos in C2 by (apply Qclt_le_weak, G). qlra. }
    destruct (qltP 0 (nl - lo)%Qc); [contradiction|].
    exists (edge p (lb + 1)), nh', (lb + 1)%Z, (hb - 1)%Z. split; [reflexivity|]. split; [lia|]. split; [lia|].
    intro G. assert (M : (edge p (lb + 1 + 1) <= edge p (hb - 1))%Qc) by (apply edge_mono; [exact W|lia]).
    rewrite edge_succ in M. qlra.
  - assert (P1 : (0 < nh - hi)%Qc).
    { destruct (Qclt_le_dec 0 (nh - hi)%Qc) as [G|G]; [exact G|]. rewrite qabs_neg in C1 by exact G. exfalso. qlra. }
    destruct (qltP 0 (nh - hi)%Qc); [|contradiction]. fold (edge p (hb - 1)).
    destruct (sp_round_near p (edge p (hb - 1)) W) as (nh' & Enh' & N5 & N6). rewrite Enh'. cbn [rbind].
    exists nl, nh', lb, (hb - 1)%Z. split; [reflexivity|]. split; [lia|]. split; [lia|].
    intro G. apply (sp_round_lt p lb (hb - 1)); [exact W|lia|exact Enl|exact Enh'].
  - cbn [rbind]. assert (P2 : ~ (0 < nl - lo)%Qc).
    { intro G. rewrite qabs_pos in C2 by (apply Qclt_le_weak, G). qlra. }
    destruct (qltP 0 (nl - lo)%Qc); [contradiction|].
    exists (edge p (lb + 1)), nh, (lb + 1)%Z, hb. split; [reflexivity|]. split; [lia|]. split; [lia|].
    intro G. assert (M : (edge p (lb + 1 + 1) <= edge p hb)%Qc) by (apply edge_mono; [exact W|lia]).
    rewrite edge_succ in M. qlra.
  - cbn [rbind]. exists nl, nh, lb, hb. split; [reflexivity|]. split; [lia|]. split; [lia|].
    intro G. apply (sp_round_lt p lb hb); [exact W|lia|exact Enl|exact Enh].
Qed.

(** The exact outcome for an aligned axis. *)
Lemma shrink_axis_aligned p lo hi :
  wf_axis p -> aligned p -> (sp_low p <= lo)%Qc -> (hi <= sp_high p)%Qc ->
  exists lb hb, shrink_axis p lo hi = Ok (SPar (edge p lb) (edge p hb) (hb - lb), (lb, hb)) /\
    (forall i, (lb <= i < hb)%Z <-> substantial p lo hi i).
Proof.
  intros W A L H. pose proof (width_pos _ W) as Hw. pose proof W as [W1 W2].
  unfold shrink_axis. rewrite get_width_ok by exact W. cbn [rbind].
  rewrite !qdiv_ok by (apply width_neq, W). cbn [rbind].
  rewrite qtrunc_nonneg by (apply quot_nonneg; assumption).
  destruct (floor_pos p lo W) as [A1 A2]. destruct (ceil_pos p hi W) as [B1 B2].
  set (lb := qfloor ((lo - sp_low p) / bin_width p)%Qc) in *.
  set (hb := qceil ((hi - sp_low p) / bin_width p)%Qc) in *.
  fold (edge p lb) (edge p hb).
  rewrite !sp_round_edge by assumption. cbn [rbind].
  assert (Eh : edge p hb = (edge p (hb - 1) + bin_width p)%Qc) by (rewrite <- edge_succ; f_equal; lia).
  assert (El : edge p (lb + 1) = (edge p lb + bin_width p)%Qc) by apply edge_succ.
  assert (R1 : qabs (edge p hb - hi) = (edge p hb - hi)%Qc) by (apply qabs_pos; qlra).
  assert (R2 : qabs (edge p lb - lo) = (lo - edge p lb)%Qc) by (rewrite qabs_neg by qlra; ring).
  rewrite R1, R2. unfold substantial.
  set (lb' := if qlt (qq 99 100 * bin_width p)%Qc (lo - edge p lb)%Qc then (lb + 1)%Z else lb).
  set (hb' := if qlt (qq 99 100 * bin_width p)%Qc (edge p hb - hi)%Qc then (hb - 1)%Z else hb).
  exists lb', hb'. split.
  - unfold lb', hb'.
    destruct (qltP (qq 99 100 * bin_width p)%Qc (edge p hb - hi)%Qc) as [C1|C1].
    + destruct (qltP 0 (edge p hb - hi)%Qc) as [C3|C3]; [|exfalso; apply C3; qlra].
      fold (edge p (hb - 1)). rewrite sp_round_edge by assumption. cbn [rbind].
      destruct (qltP (qq 99 100 * bin_width p)%Qc (lo - edge p lb)%Qc) as [C2|C2]; [|reflexivity].
      destruct (qltP 0 (edge p lb - lo)%Qc) as [C4|C4]; [exfalso; qlra|]. reflexivity.
    + cbn [rbind]. destruct (qltP (qq 99 100 * bin_width p)%Qc (lo - edge p lb)%Qc) as [C2|C2]; [|reflexivity].
      destruct (qltP 0 (edge p lb - lo)%Qc) as [C4|C4]; [exfalso; qlra|]. reflexivity.
  - intro i. rewrite edge_succ.
    assert (Low : (lb' <= i)%Z <-> (lo + bin_width p * qq 1 100 <= edge p i + bin_width p)%Qc).
    { unfold lb'. destruct (qltP (qq 99 100 * bin_width p)%Qc (lo - edge p lb)%Qc) as [C2|C2].
      - split; intro G.
        + pose proof (edge_mono p _ _ W G). qlra.
        + assert (lb < i)%Z; [|lia]. apply (edge_lt_inv p); [exact W|]. qlra.
      - apply Qcnot_lt_le in C2. split; intro G.
        + pose proof (edge_mono p _ _ W G). qlra.
        + assert (lb < i + 1)%Z; [|lia]. apply (edge_lt_inv p); [exact W|]. rewrite edge_succ. qlra. }
    assert (High : (i < hb')%Z <-> (edge p i + bin_width p * qq 1 100 <= hi)%Qc).
    { unfold hb'. destruct (qltP (qq 99 100 * bin_width p)%Qc (edge p hb - hi)%Qc) as [C2|C2].
      - split; intro G.
        + assert (G' : (i + 1 <= hb - 1)%Z) by lia. pose proof (edge_mono p _ _ W G') as M. rewrite edge_succ in M. qlra.
        + apply (edge_lt_inv p); [exact W|]. qlra.
      - apply Qcnot_lt_le in C2. split; intro G.
        + assert (G' : (i + 1 <= hb)%Z) by lia. pose proof (edge_mono p _ _ W G') as M. rewrite edge_succ in M. qlra.
        + apply (edge_lt_inv p); [exact W|]. qlra. }
    rewrite <- Low, <- High. reflexivity.
Qed.

(** On bin edges, overlapping and substantially overlapping are the same. *)
Lemma substantial_edges p lo hi i :
  wf_axis p -> on_edge p lo -> on_edge p hi -> (substantial p lo hi i <-> overlaps p lo hi i).
Proof.
  intros W [a ->] [b ->]. pose proof (width_pos _ W) as Hw. unfold substantial, overlaps. split.
  - intros [G1 G2]. split; qlra.
  - intros [G1 G2]. apply (edge_lt_inv p) in G1; [|exact W]. apply (edge_lt_inv p) in G2; [|exact W].
    assert (M1 : (edge p a <= edge p i)%Qc) by (apply edge_mono; [exact W|lia]).
    assert (M2 : (edge p (i + 1) <= edge p b)%Qc) by (apply edge_mono; [exact W|lia]).
    rewrite edge_succ in *. split; qlra.
Qed.

(** Bin lookup, centres, boundaries (C01, C02). *)
From Coq Require Import Lia Lqa.
From Verif Require Import Model.Base Model.Param Spec.AxisSpec Proofs.QcLemmas.

Lemma zq_pos z : (0 < z)%Z -> (0 < zq z)%Qc.
Proof. intro H. pose proof (proj1 (zq_lt 0 z) H) as E. rewrite zq_0 in E. exact E. Qed.

Lemma width_pos p : wf_axis p -> (0 < bin_width p)%Qc.
Proof.
  intros [H1 H2]. apply Qcdiv_pos; [qlra|]. apply zq_pos, H2.
Qed.
Lemma width_neq p : wf_axis p -> bin_width p <> 0%Qc.
Proof. intro H. apply Qc_pos_neq, width_pos, H. Qed.
Lemma width_total p : wf_axis p -> (zq (sp_bins p) * bin_width p = sp_high p - sp_low p)%Qc.
Proof. intros [_ H]. unfold bin_width. field. apply Qc_pos_neq, zq_pos, H. Qed.
Lemma get_width_ok p : wf_axis p -> get_width p = Ok (bin_width p).
Proof.
  intros [_ H]. unfold get_width, qdiv. destruct (qeqP (zq (sp_bins p)) 0) as [E|E]; [|reflexivity].
  exfalso. revert E. apply Qc_pos_neq, zq_pos, H.
Qed.
Lemma qdiv_ok x y : y <> 0%Qc -> qdiv x y = Ok (x / y)%Qc.
Proof. intro H. unfold qdiv. destruct (qeqP y 0); [contradiction|reflexivity]. Qed.

Lemma edge_0 p : edge p 0 = sp_low p.
Proof. unfold edge. rewrite zq_0. ring. Qed.
Lemma edge_bins p : wf_axis p -> edge p (sp_bins p) = sp_high p.
Proof. intro H. unfold edge. rewrite width_total by exact H. ring. Qed.
Lemma edge_succ p i : edge p (i + 1) = (edge p i + bin_width p)%Qc.
Proof. unfold edge. rewrite zq_add, zq_1. ring. Qed.
Lemma edge_mono p i j : wf_axis p -> (i <= j)%Z -> (edge p i <= edge p j)%Qc.
Proof.
  intros W H. pose proof (width_pos _ W). apply zq_le in H. unfold edge. qnra.
Qed.
Lemma edge_lt p i j : wf_axis p -> (i < j)%Z -> (edge p i < edge p j)%Qc.
Proof.
  intros W H. pose proof (width_pos _ W). apply zq_lt in H. unfold edge. qnra.
Qed.
Lemma edge_lt_inv p i j : wf_axis p -> (edge p i < edge p j)%Qc -> (i < j)%Z.
Proof.
  intros W H. destruct (Z.lt_ge_cases i j) as [L|L]; [exact L|].
  pose proof (edge_mono _ _ _ W L). exfalso. qlra.
Qed.

Lemma in_bin_unique p i j x : wf_axis p -> in_bin p i x -> in_bin p j x -> i = j.
Proof.
  intros W [A B] [C D].
  assert (i < j + 1)%Z by (apply (edge_lt_inv p); [exact W | qlra]).
  assert (j < i + 1)%Z by (apply (edge_lt_inv p); [exact W | qlra]).
  lia.
Qed.

(** The quotient used by both lookup formulas. *)
Lemma quot_floor_bin p x :
  wf_axis p -> in_bin p (qfloor ((x - sp_low p) / bin_width p)%Qc) x.
Proof.
  intro W. pose proof (width_pos _ W) as Hw.
  set (q := ((x - sp_low p) / bin_width p)%Qc).
  assert (E : (q * bin_width p = x - sp_low p)%Qc) by (apply Qcdiv_mul_id, width_neq, W).
  pose proof (qfloor_le q) as F1. pose proof (qfloor_lt q) as F2.
  unfold in_bin. rewrite edge_succ. unfold edge.
  set (k := zq (qfloor q)) in *. clearbody k q. split; qnra.
Qed.
Lemma quot_nonneg p x : wf_axis p -> (sp_low p <= x)%Qc -> (0 <= (x - sp_low p) / bin_width p)%Qc.
Proof. intros W H. apply Qcdiv_nonneg; [qlra | apply width_pos, W]. Qed.

Lemma in_bin_range p i x :
  wf_axis p -> in_bin p i x -> (sp_low p <= x)%Qc -> (x < sp_high p)%Qc -> (0 <= i < sp_bins p)%Z.
Proof.
  intros W [A B] L H. split.
  - assert (0 < i + 1)%Z; [|lia]. apply (edge_lt_inv p); [exact W|]. rewrite edge_0. qlra.
  - apply (edge_lt_inv p); [exact W|]. rewrite edge_bins by exact W. qlra.
Qed.

Lemma get_bin_partition_l p x :
  wf_axis p -> (sp_low p <= x)%Qc -> (x < sp_high p)%Qc ->
  exists i, get_bin p x = Ok i /\ (0 <= i < sp_bins p)%Z /\ in_bin p i x /\
            (forall j, in_bin p j x -> j = i).
Proof.
  intros W L H. set (i := qfloor ((x - sp_low p) / bin_width p)%Qc).
  exists i. pose proof (quot_floor_bin _ x W) as B. fold i in B.
  split; [|split; [|split]].
  - unfold get_bin. destruct (qltP x (sp_low p)); [exfalso; qlra|].
    destruct (qltP (sp_high p) x); [exfalso; qlra|].
    rewrite get_width_ok by exact W. cbn [rbind].
    rewrite qdiv_ok by (apply width_neq, W). cbn [rbind].
    rewrite qtrunc_nonneg by (apply quot_nonneg; assumption). reflexivity.
  - eapply in_bin_range; eassumption.
  - exact B.
  - intros j Hj. eapply in_bin_unique; eassumption.
Qed.
Lemma get_bin_out_l p x :
  (x < sp_low p)%Qc \/ (sp_high p < x)%Qc -> get_bin p x = Err EValueError.
Proof.
  intro H. unfold get_bin. destruct (qltP x (sp_low p)); [reflexivity|].
  destruct H as [H|H]; [contradiction|]. destruct (qltP (sp_high p) x); [reflexivity|contradiction].
Qed.
Lemma get_bin_high_l p : wf_axis p -> get_bin p (sp_high p) = Ok (sp_bins p).
Proof.
  intros W. unfold get_bin.
  destruct W as [W1 W2]. assert (W : wf_axis p) by (split; assumption).
  destruct (qltP (sp_high p) (sp_low p)); [exfalso; qlra|].
  destruct (qltP (sp_high p) (sp_high p)); [exfalso; qlra|].
  rewrite get_width_ok by exact W. cbn [rbind].
  rewrite qdiv_ok by (apply width_neq, W). cbn [rbind].
  rewrite <- width_total by exact W.
  replace (zq (sp_bins p) * bin_width p / bin_width p)%Qc with (zq (sp_bins p))
    by (field; apply width_neq, W).
  rewrite qtrunc_zq. reflexivity.
Qed.

(** ** Centres *)
Lemma get_bin_centre_ok p i :
  wf_axis p -> (0 <= i < sp_bins p)%Z ->
  get_bin_centre p i = Ok (edge p i + bin_width p * qq 1 2)%Qc.
Proof.
  intros W H. unfold get_bin_centre.
  destruct (Z.ltb_spec i 0); [lia|]. destruct (Z.ltb_spec (sp_bins p - 1) i); [lia|].
  rewrite get_width_ok by exact W. cbn [rbind]. f_equal. unfold edge. ring.
Qed.
Lemma centre_in_bin p i : wf_axis p -> in_bin p i (edge p i + bin_width p * qq 1 2)%Qc.
Proof.
  intro W. pose proof (width_pos _ W). unfold in_bin. rewrite edge_succ. split; qlra.
Qed.
Lemma get_bin_centre_roundtrip_l p i :
  wf_axis p -> (0 <= i < sp_bins p)%Z ->
  exists c, get_bin_centre p i = Ok c /\ get_bin p c = Ok i.
Proof.
  intros W H. eexists. split; [apply get_bin_centre_ok; assumption|].
  pose proof (centre_in_bin p i W) as B. pose proof (width_pos _ W) as Hw.
  set (c := (edge p i + bin_width p * qq 1 2)%Qc) in *.
  destruct (get_bin_partition_l p c W) as (j & G & _ & _ & U).
  - assert (edge p 0 <= edge p i)%Qc by (apply edge_mono; [exact W|lia]).
    rewrite edge_0 in H0. destruct B. qlra.
  - assert (edge p (i+1) <= edge p (sp_bins p))%Qc by (apply edge_mono; [exact W|lia]).
    rewrite edge_bins in H0 by exact W. destruct B. qlra.
  - rewrite G. f_equal. symmetry. apply U, B.
Qed.
Lemma get_bin_centre_err_l p i :
  (i < 0)%Z \/ (sp_bins p <= i)%Z -> get_bin_centre p i = Err EValueError.
Proof.
  intro H. unfold get_bin_centre. destruct (Z.ltb_spec i 0); [reflexivity|].
  destruct (Z.ltb_spec (sp_bins p - 1) i); [reflexivity|lia].
Qed.

(** ** Boundaries *)
Lemma boundaries_l p :
  wf_axis p ->
  get_bin_boundaries p = Ok (map (fun k => edge p (Z.of_nat k)) (seq 0 (Z.to_nat (sp_bins p + 1)))).
Proof.
  intros W. unfold get_bin_boundaries, linspace. destruct W as [W1 W2].
  destruct (Z.ltb_spec (sp_bins p + 1) 0); [lia|]. f_equal. apply map_ext. intro k.
  unfold edge, bin_width. replace (sp_bins p + 1 - 1)%Z with (sp_bins p) by lia. reflexivity.
Qed.

Lemma arange_len p :
  wf_axis p ->
  qceil ((sp_high p - (sp_low p + bin_width p * qq 1 2)) / bin_width p)%Qc = sp_bins p.
Proof.
  intro W. pose proof (width_neq _ W) as N.
  replace ((sp_high p - (sp_low p + bin_width p * qq 1 2)) / bin_width p)%Qc
    with (zq (sp_bins p) - qq 1 2)%Qc.
  2:{ replace (sp_high p - (sp_low p + bin_width p * qq 1 2))%Qc
        with (sp_high p - sp_low p - bin_width p * qq 1 2)%Qc by ring.
      rewrite <- width_total by exact W. field. exact N. }
  apply qceil_uniq; qlra.
Qed.
Lemma centres_l p :
  wf_axis p ->
  get_bin_centres p =
  Ok (map (fun k => (edge p (Z.of_nat k) + bin_width p * qq 1 2)%Qc) (seq 0 (Z.to_nat (sp_bins p)))).
Proof.
  intro W. unfold get_bin_centres. rewrite get_width_ok by exact W. cbn [rbind].
  unfold arange. rewrite qdiv_ok by (apply width_neq, W). cbn [rbind].
  rewrite arange_len by exact W. f_equal. apply map_ext. intro k. unfold edge, nq. ring.
Qed.

Lemma centre_midpoint_l p i :
  wf_axis p -> (0 <= i < sp_bins p)%Z ->
  exists c, get_bin_centre p i = Ok c /\ (c + c = edge p i + edge p (i + 1))%Qc.
Proof.
  intros W H. eexists. split; [apply get_bin_centre_ok; assumption|].
  rewrite edge_succ. qlra.
Qed.
Lemma nth_error_map_seq {A} (f : nat -> A) n k : k < n -> nth_error (map f (seq 0 n)) k = Some (f k).
Proof.
  intro H. rewrite nth_error_map. rewrite (nth_error_nth' _ 0) by (rewrite seq_length; exact H).
  rewrite seq_nth by exact H. reflexivity.
Qed.
Lemma boundaries_full_l p :
  wf_axis p ->
  exists l, get_bin_boundaries p = Ok l /\
    length l = Z.to_nat (sp_bins p + 1) /\
    (forall k, k < length l -> nth_error l k = Some (edge p (Z.of_nat k))) /\
    nth_error l 0 = Some (sp_low p) /\
    nth_error l (Z.to_nat (sp_bins p)) = Some (sp_high p) /\
    (forall i j a b, i < j -> nth_error l i = Some a -> nth_error l j = Some b -> (a < b)%Qc).
Proof.
  intro W. pose proof W as [_ Hb]. eexists. split; [apply boundaries_l, W|].
  rewrite map_length, seq_length. split; [reflexivity|]. split; [|split; [|split]].
  - intros k Hk. apply (nth_error_map_seq (fun k => edge p (Z.of_nat k))), Hk.
  - rewrite (nth_error_map_seq (fun k => edge p (Z.of_nat k))) by lia. f_equal. apply edge_0.
  - rewrite (nth_error_map_seq (fun k => edge p (Z.of_nat k))) by lia. f_equal.
    rewrite Z2Nat.id by lia. apply edge_bins, W.
  - intros i j a b Hij Hi Hj.
    assert (Li : i < Z.to_nat (sp_bins p + 1)).
    { assert (nth_error (map (fun k => edge p (Z.of_nat k)) (seq 0 (Z.to_nat (sp_bins p + 1)))) j <> None) by congruence.
      apply nth_error_Some in H. rewrite map_length, seq_length in H. lia. }
    assert (Lj : j < Z.to_nat (sp_bins p + 1)).
    { assert (nth_error (map (fun k => edge p (Z.of_nat k)) (seq 0 (Z.to_nat (sp_bins p + 1)))) j <> None) by congruence.
      apply nth_error_Some in H. rewrite map_length, seq_length in H. lia. }
    rewrite (nth_error_map_seq (fun k => edge p (Z.of_nat k))) in Hi, Hj by assumption.
    injection Hi as <-. injection Hj as <-. apply edge_lt; [exact W|lia].
Qed.
Lemma centres_full_l p :
  wf_axis p ->
  exists l, get_bin_centres p = Ok l /\ length l = Z.to_nat (sp_bins p) /\
    (forall k, k < length l -> exists c, nth_error l k = Some c /\ get_bin_centre p (Z.of_nat k) = Ok c).
Proof.
  intro W. pose proof W as [_ Hb]. eexists. split; [apply centres_l, W|].
  rewrite map_length, seq_length. split; [reflexivity|]. intros k Hk.
  eexists. split; [apply (nth_error_map_seq (fun k => (edge p (Z.of_nat k) + bin_width p * qq 1 2)%Qc)), Hk|].
  apply get_bin_centre_ok; [exact W|lia].
Qed.

From Verif Require Import Model.Base Model.PyStr Model.NDArray Model.Param Model.Config Model.Spectra Model.Smear Model.Shift.
From Verif Require Import Spec.AxisSpec Spec.ArraySpec Spec.SpectraSpec Spec.SmearSpec Spec.ShiftSpec.
From Verif Require Import Proofs.QcLemmas Proofs.NDArrayLemmas Proofs.ParamLemmas Proofs.DictLemmas Proofs.FillLemmas
  Proofs.ProjectLemmas Proofs.SmearLemmas Proofs.OpsLemmas.
From Coq Require Import Lia.

Lemma set_at_at_bin k b idx : k < length idx -> set_at k b idx = at_bin k b idx.
Proof.
  unfold set_at, at_bin. revert idx. induction k as [|k IH]; intros [|x idx] L; cbn in L; try lia.
  - cbn. reflexivity.
  - cbn [remove_at insert_at firstn skipn app]. f_equal. apply IH. lia.
Qed.
Lemma coord_at_bin k b idx : k < length idx -> coord k (at_bin k b idx) = b.
Proof.
  intro L. unfold coord, at_bin. rewrite app_nth2; rewrite firstn_length, Nat.min_l by lia; [|lia].
  rewrite Nat.sub_diag. reflexivity.
Qed.
Lemma at_bin_self k idx : k < length idx -> at_bin k (coord k idx) idx = idx.
Proof.
  unfold at_bin, coord. revert idx. induction k as [|k IH]; intros [|x idx] L; cbn in L; try lia; [reflexivity|].
  cbn. f_equal. apply IH. lia.
Qed.
Lemma at_bin_twice k b b' idx : k < length idx -> at_bin k b (at_bin k b' idx) = at_bin k b idx.
Proof.
  unfold at_bin. revert idx. induction k as [|k IH]; intros [|x idx] L; cbn in L; try lia; [reflexivity|].
  cbn. f_equal. apply IH. lia.
Qed.
Lemma at_bin_length k b idx : k < length idx -> length (at_bin k b idx) = length idx.
Proof.
  intro L. unfold at_bin. rewrite app_length, firstn_length, Nat.min_l by lia. cbn [length]. rewrite skipn_length. lia.
Qed.
Lemma at_bin_valid sh k b idx : valid_idx sh idx -> b < nth k sh 0 -> valid_idx sh (at_bin k b idx).
Proof.
  unfold valid_idx, at_bin. intro V. revert k. induction V as [|i n idx sh Hi V IH]; intros k L.
  - destruct k; cbn in L; lia.
  - destruct k as [|k]; cbn in *; constructor; auto.
Qed.
Lemma valid_remove sh idx k : valid_idx sh idx -> valid_idx (remove_at k sh) (remove_at k idx).
Proof.
  unfold valid_idx. intro V. revert k. induction V as [|i n idx sh Hi V IH]; intros [|k]; cbn; auto using Forall2.
Qed.
Lemma sum_over_ge_one sh f idx : (forall j, valid_idx sh j -> 0 <= f j)%Qc -> valid_idx sh idx -> (f idx <= sum_over sh f)%Qc.
Proof.
  intros H V. pose proof (sum_over_single sh (fun j => if idx_eqb j idx then f j else 0%Qc) idx) as X.
  cbn beta in X. rewrite idx_eqb_refl in X. rewrite <- X.
  - apply sum_over_le. intros j Vj. destruct (idx_eqb j idx); [apply Qcle_refl|apply H, Vj].
  - exact V.
  - intros j _ N. rewrite idx_eqb_neq by exact N. reflexivity.
Qed.
Lemma slice_zero a k b idx :
  (forall j, valid_idx (ashape a) j -> 0 <= aget a j)%Qc -> valid_idx (ashape a) idx -> k < length (ashape a) ->
  b < nth k (ashape a) 0 -> (slice_sum k b a <= 0)%Qc -> aget a (at_bin k b idx) = 0%Qc.
Proof.
  intros N V Lk Lb. unfold slice_sum. destruct (Nat.ltb_spec b (nth k (ashape a) 0)); [|lia]. intro S.
  pose proof (valid_length _ _ V) as Li.
  assert (I : forall j, valid_idx (remove_at k (ashape a)) j -> valid_idx (ashape a) (insert_at k b j)).
  { intros j. clear -Lb Lk. unfold valid_idx. revert k j Lb Lk. generalize (ashape a). 
    induction l as [|n l IH]; intros k j Lb Lk; [cbn in Lk; lia|]. destruct k as [|k]; cbn [remove_at nth] in *.
    - intro F. cbn [insert_at]. destruct j; constructor; auto.
    - intro F. inversion F as [|x y j' l' Hx Fr]; subst. cbn [insert_at]. constructor; [exact Hx|]. apply IH; [exact Lb|cbn in Lk; lia|exact Fr]. }
  rewrite <- set_at_at_bin by lia. unfold set_at. apply Qcle_antisym.
  - eapply Qcle_trans; [|exact S].
    apply (sum_over_ge_one (remove_at k (ashape a)) (fun j => aget a (insert_at k b j)) (remove_at k idx)).
    + intros j Vj. apply N, I, Vj.
    + apply valid_remove, V.
  - apply N, I, valid_remove, V.
Qed.

Definition do_slice axis (g : nat -> option (list nat -> Qc)) b acc :=
  match g b with Some h => add_slice axis b h acc | None => acc end.
Definition contrib (g : nat -> option (list nat -> Qc)) b idx : Qc :=
  match g b with Some h => h idx | None => 0%Qc end.
Lemma do_slice_shape axis g b acc : ashape (do_slice axis g b acc) = ashape acc.
Proof. unfold do_slice. destruct (g b); reflexivity. Qed.
Lemma do_slice_get axis g b acc idx :
  aget (do_slice axis g b acc) idx = (aget acc idx + if Nat.eqb (coord axis idx) b then contrib g b idx else 0)%Qc.
Proof.
  unfold do_slice, contrib, coord. destruct (g b) as [h|]; cbn [add_slice aget].
  - destruct (Nat.eqb _ _); ring.
  - destruct (Nat.eqb _ _); ring.
Qed.
Lemma loop_closed axis f g bins acc :
  NoDup bins -> (forall b acc, In b bins -> f b acc = Ok (do_slice axis g b acc)) ->
  exists a, loop_bins f bins acc = Ok a /\ ashape a = ashape acc /\
    forall idx, aget a idx = (aget acc idx + if existsb (Nat.eqb (coord axis idx)) bins then contrib g (coord axis idx) idx else 0)%Qc.
Proof.
  intro ND. revert acc. induction ND as [|b bins Nb ND IH]; intros acc H.
  - exists acc. repeat split. intro idx. cbn. ring.
  - cbn [loop_bins]. rewrite H by (left; reflexivity). cbn [rbind].
    destruct (IH (do_slice axis g b acc)) as (a & E & Sh & C).
    + intros. apply H. right. assumption.
    + exists a. split; [exact E|]. split; [rewrite Sh; apply do_slice_shape|]. intro idx. rewrite C, do_slice_get. cbn [existsb].
      destruct (Nat.eqb_spec (coord axis idx) b) as [E'|N]; cbn [orb]; [|ring].
      subst b. destruct (existsb (Nat.eqb (coord axis idx)) bins) eqn:X; [|ring].
      apply existsb_exists in X. destruct X as (y & Y & Z). apply Nat.eqb_eq in Z. subst y. contradiction.
Qed.
Lemma existsb_seq i n : existsb (Nat.eqb i) (seq 0 n) = (i <? n).
Proof.
  apply eq_true_iff_eq. rewrite existsb_exists, Nat.ltb_lt. split.
  - intros (x & X & E). apply Nat.eqb_eq in E. subst x. apply in_seq in X. lia.
  - intro L. exists i. split; [apply in_seq; lia|apply Nat.eqb_refl].
Qed.
Lemma cfg_nth c k par p : nth_error c k = Some (par, p) -> nth k (cfg_shape c) 0 = Z.to_nat (sp_bins p).
Proof.
  intro E. unfold cfg_shape. change 0 with ((fun kp : string * spar => Z.to_nat (sp_bins (snd kp))) (EmptyString, SPar 0 0 0)).
  rewrite map_nth. f_equal. apply nth_error_nth with (d := (EmptyString, SPar 0 0 0)) in E. rewrite E. reflexivity.
Qed.
Lemma get_index_nth c k par p : NoDup (map fst c) -> nth_error c k = Some (par, p) -> get_index c par = Ok k.
Proof.
  unfold get_index, get_pars, dkeys. revert c. induction k as [|k IH]; intros [|[v q] c] ND E; try discriminate.
  - injection E as -> ->. cbn. rewrite String.eqb_refl. reflexivity.
  - cbn [map] in *. inversion ND as [|? ? Nv ND']; subst. cbn [index_of fst]. destruct (String.eqb_spec v par) as [->|N].
    + destruct Nv. change (nth_error c k = Some (par, p)) in E. apply nth_error_In in E. apply (in_map fst) in E. exact E.
    + rewrite IH; [reflexivity|exact ND'|exact E].
Qed.

Lemma about_multiple p shift d : wf_axis p -> about_bins p shift d -> is_multiple shift (bin_width p) = Ok true.
Proof.
  intros W (r & -> & R0 & R1 & R2). pose proof (width_pos p W) as P. pose proof (width_neq p W) as N.
  unfold is_multiple, pmod. rewrite qdiv_ok by exact N. cbn [rbind]. f_equal.
  assert (F : qfloor ((zq d * bin_width p + r) / bin_width p) = d).
  { apply qfloor_uniq.
    - rewrite Qcle_div_iff by exact P. qlra.
    - rewrite Qcdiv_lt_iff by exact P.
      assert ((zq d + 1) * bin_width p = zq d * bin_width p + bin_width p)%Qc by ring. rewrite H.
      assert (bin_width p * qq 1 2 < bin_width p)%Qc by qlra. qlra. }
  rewrite F. unfold isclose.
  assert (Z : (zq d * bin_width p + r - zq d * bin_width p = r)%Qc) by ring. rewrite Z.
  apply qle_iff. assert (Z2 : (r - 0 = r)%Qc) by ring. rewrite Z2. rewrite qabs_pos by exact R0. rewrite qabs_0. qlra.
Qed.

(** The position looked up for bin i. *)
Lemma shift_pos p i d r :
  (get_bin_mean (sp_low p) i (bin_width p) - (zq d * bin_width p + r) =
   sp_low p + zq (Z.of_nat i - d) * bin_width p + (bin_width p * qq 1 2 - r))%Qc.
Proof. unfold get_bin_mean. rewrite zq_sub, nq_zq. ring. Qed.

Definition shift_g k p d a (b : nat) : option (list nat -> Qc) :=
  let o := (Z.of_nat b - d)%Z in
  if ((0 <=? o) && (o <? sp_bins p))%Z then
    if qlt 0 (slice_sum k (Z.to_nat o) a) then Some (slice_at k (Z.to_nat o) a) else None
  else None.
Lemma shift_one_ok k p d shift a b acc :
  wf_axis p -> about_bins p shift d -> b < Z.to_nat (sp_bins p) -> nth k (ashape a) 0 = Z.to_nat (sp_bins p) ->
  shift_one shift (bin_width p) k p a b acc = Ok (do_slice k (shift_g k p d a) b acc).
Proof.
  intros W (r & -> & R0 & R1 & R2) Lb Sh. pose proof (width_pos p W) as P. pose proof W as [W1 W2].
  unfold shift_one. rewrite shift_pos. set (o := (Z.of_nat b - d)%Z).
  set (q := (bin_width p * qq 1 2 - r)%Qc).
  assert (Q0 : (0 <= q)%Qc) by (unfold q; qlra).
  assert (Q1 : (q <= bin_width p * qq 1 2)%Qc) by (unfold q; qlra).
  assert (Q2 : (bin_width p * qq 1 2 < bin_width p)%Qc) by qlra.
  clearbody q. clear R0 R1 R2.
  set (x := (sp_low p + zq o * bin_width p + q)%Qc).
  pose proof (width_total p W) as T.
  unfold do_slice, shift_g. fold o.
  assert (Xe : x = (edge p o + q)%Qc) by (unfold x, edge; ring).
  destruct (Z.leb_spec 0 o) as [Lo|Lo]; cbn [andb].
  - assert (A : qlt x (sp_low p) = false).
    { apply qlt_false. rewrite <- (edge_0 p), Xe. pose proof (edge_mono p 0 o W Lo). qlra. }
    rewrite A. cbn [orb].
    destruct (Z.ltb_spec o (sp_bins p)) as [Ln|Ln].
    + assert (B : (x < sp_high p)%Qc).
      { rewrite <- (edge_bins p W), Xe. pose proof (edge_mono p (o + 1) (sp_bins p) W ltac:(lia)) as M. rewrite edge_succ in M. qlra. }
      assert (B' : qlt (sp_high p) x = false) by (apply qlt_false, Qclt_le_weak, B). rewrite B'.
      destruct (get_bin_partition_l p x W) as (i & Ei & _ & Ib & _).
      * apply qlt_false in A. exact A.
      * exact B.
      * assert (Io : i = o). { eapply in_bin_unique; [exact W|exact Ib|]. split; rewrite ?edge_succ; rewrite Xe; qlra. }
        subst i. rewrite Ei. cbn [rbind]. destruct (qlt 0 (slice_sum k (Z.to_nat o) a)); reflexivity.
    + destruct (qlt (sp_high p) x) eqn:B; [reflexivity|]. apply qlt_false in B.
      (* x = high: the lookup returns the number of bins, an empty slice *)
      assert (E1 : (edge p (sp_bins p) <= edge p o)%Qc) by (apply edge_mono; [exact W|exact Ln]).
      rewrite (edge_bins p W) in E1.
      assert (E2 : x = sp_high p) by (apply Qcle_antisym; [exact B|rewrite Xe; qlra]).
      rewrite E2, get_bin_high_l by exact W. cbn [rbind].
      unfold slice_sum. rewrite Sh. rewrite Nat.ltb_irrefl. reflexivity.
  - assert (A : qlt x (sp_low p) = true).
    { apply qlt_iff. rewrite <- (edge_0 p), Xe. pose proof (edge_mono p (o + 1) 0 W ltac:(lia)) as M. rewrite edge_succ in M. qlra. }
    rewrite A. reflexivity.
Qed.

Lemma shift_l c k dim p suffix shift d s :
  wf_spectra s -> s_cfg s = c -> nth_error c k = Some (dim, p) -> nonneg s -> about_bins p shift d ->
  forall interp, exists s', shift_axis suffix shift interp dim s = Ok s' /\ shift_by_bin suffix shift dim s = Ok s' /\
    s_name s' = (s_name s ++ suffix)%string /\ same_but_name s s' /\
    forall idx, valid_idx (ashape (s_data s)) idx ->
      aget (s_data s') idx = moved (aget (s_data s)) k (sp_bins p) d idx.
Proof.
  intros Ws Ec Hk N Ab interp. pose proof Ws as [[ND WA] Cs]. unfold consistent in Cs. rewrite Ec in *.
  assert (Wp : wf_axis p). { rewrite Forall_forall in WA. apply (WA _ (nth_error_In _ _ Hk)). }
  pose proof (cfg_nth c k dim p Hk) as Shk. rewrite <- Cs in Shk.
  assert (X : shift_axis suffix shift interp dim s = shift_by_bin suffix shift dim s).
  { unfold shift_axis. rewrite Ec, (get_par_nth c k dim p ND Hk). cbn [rbind]. rewrite get_width_ok by exact Wp. cbn [rbind].
    rewrite (about_multiple p shift d Wp Ab). reflexivity. }
  rewrite X. unfold shift_by_bin. rewrite Ec, (get_par_nth c k dim p ND Hk). cbn [rbind]. rewrite get_width_ok by exact Wp. cbn [rbind].
  rewrite (about_multiple p shift d Wp Ab). cbn [rbind negb]. rewrite (get_index_nth c k dim p ND Hk). cbn [rbind].
  destruct (loop_closed k (shift_one shift (bin_width p) k p (s_data s)) (shift_g k p d (s_data s)) (seq 0 (Z.to_nat (sp_bins p)))
              (azeros (ashape (s_data s)))) as (a & E & Sh & C).
  - apply seq_NoDup.
  - intros b acc Hb. apply in_seq in Hb. apply shift_one_ok; [exact Wp|exact Ab|lia|exact Shk].
  - rewrite E. cbn [rbind]. eexists. split; [reflexivity|]. split; [reflexivity|]. split; [reflexivity|]. split.
    + repeat split. exact Sh.
    + intros idx V. cbn [with_data s_data]. rewrite C. cbn [azeros aget]. rewrite Qcplus_0_l, existsb_seq.
      assert (Lk : k < length (ashape (s_data s))).
      { rewrite Cs. unfold cfg_shape. rewrite map_length. apply nth_error_Some. congruence. }
      assert (Li : length idx = length (ashape (s_data s))) by apply (valid_length _ _ V).
      assert (Lc : coord k idx < Z.to_nat (sp_bins p)).
      { rewrite <- Shk. clear -V Lk. unfold valid_idx in V. unfold coord. revert k Lk. induction V as [|i n idx sh Hi V IH]; intros [|k] Lk; cbn in *; try lia. apply IH. lia. }
      destruct (Nat.ltb_spec (coord k idx) (Z.to_nat (sp_bins p))); [|lia].
      unfold contrib, shift_g, moved. set (o := (Z.of_nat (coord k idx) - d)%Z).
      destruct (Z.leb_spec 0 o) as [Lo|Lo]; cbn [andb]; [|reflexivity].
      destruct (Z.ltb_spec o (sp_bins p)) as [Ln|Ln]; [|reflexivity].
      destruct (qltP 0 (slice_sum k (Z.to_nat o) (s_data s))) as [Q|Q].
      * unfold slice_at. rewrite set_at_at_bin by lia. reflexivity.
      * symmetry. apply slice_zero; [exact N|exact V|exact Lk|rewrite Shk; lia|]. apply Qcnot_lt_le. exact Q.
Qed.

Lemma moved_zero f k n idx : k < length idx -> (0 <= Z.of_nat (coord k idx) < n)%Z -> moved f k n 0 idx = f idx.
Proof.
  intros L R. unfold moved. rewrite Z.sub_0_r. destruct (Z.leb_spec 0 (Z.of_nat (coord k idx))); [|lia].
  destruct (Z.ltb_spec (Z.of_nat (coord k idx)) n); [|lia]. cbn [andb]. rewrite Nat2Z.id, at_bin_self by exact L. reflexivity.
Qed.
Lemma moved_compose f k n a b idx : k < length idx -> (0 <= Z.of_nat (coord k idx) < n)%Z -> (0 <= a * b)%Z ->
  moved (moved f k n a) k n b idx = moved f k n (a + b) idx.
Proof.
  intros L R S. unfold moved at 1. set (o := (Z.of_nat (coord k idx) - b)%Z).
  destruct (Z.leb_spec 0 o) as [L0|L0]; cbn [andb].
  - destruct (Z.ltb_spec o n) as [L1|L1].
    + unfold moved. rewrite coord_at_bin by exact L. rewrite Z2Nat.id by exact L0.
      replace (o - a)%Z with (Z.of_nat (coord k idx) - (a + b))%Z by lia.
      rewrite at_bin_twice by exact L. reflexivity.
    + unfold moved. destruct (Z.ltb_spec (Z.of_nat (coord k idx) - (a + b)) n); [|rewrite andb_false_r; reflexivity]. nia.
  - unfold moved. destruct (Z.leb_spec 0 (Z.of_nat (coord k idx) - (a + b))); [|reflexivity]. nia.
Qed.

(** interpolated moves *)
Lemma areas_ok interp p step c ctr b1 b2 a1 a2 :
  (0 <= b1 < sp_bins p)%Z -> areas interp p step c ctr b1 = (b2, a1, a2) ->
  (0 <= b2 < sp_bins p)%Z /\ (0 <= a1)%Qc /\ (0 <= a2)%Qc.
Proof.
  intros B. unfold areas. destruct (qlt c ctr).
  - destruct (Z.leb_spec 0 (b1 - 1)); intro E; injection E as <- <- <-.
    + split; [lia|]. split; apply qabs_nonneg.
    + split; [lia|]. split; vm_compute; discriminate.
  - destruct (Z.ltb_spec (b1 + 1) (sp_bins p)); intro E; injection E as <- <- <-.
    + split; [lia|]. split; apply qabs_nonneg.
    + split; [lia|]. split; vm_compute; discriminate.
Qed.

Lemma slice_at_nonneg a k b idx :
  (forall j, valid_idx (ashape a) j -> 0 <= aget a j)%Qc -> valid_idx (ashape a) idx -> k < length (ashape a) ->
  b < nth k (ashape a) 0 -> (0 <= slice_at k b a idx)%Qc.
Proof.
  intros N V Lk Lb. unfold slice_at. pose proof (valid_length _ _ V).
  rewrite set_at_at_bin by lia. apply N, at_bin_valid; assumption.
Qed.

Lemma resample_one_ok src interp k p a b :
  wf_axis p -> (qq 2 1000000 <= bin_width p)%Qc -> nth k (ashape a) 0 = Z.to_nat (sp_bins p) -> k < length (ashape a) ->
  exists o : option (list nat -> Qc),
    (forall acc, resample_one src interp (bin_width p) k p a b acc =
                 Ok (match o with Some h => add_slice k b h acc | None => acc end)) /\
    ((forall j, valid_idx (ashape a) j -> 0 <= aget a j)%Qc ->
     forall h, o = Some h -> forall idx, valid_idx (ashape a) idx -> (0 <= h idx)%Qc).
Proof.
  intros W Hw Sh Lk. pose proof (width_pos p W) as P. pose proof W as [W1 W2]. unfold resample_one.
  set (c0 := src _).
  destruct (qltP c0 (sp_low p)) as [A|A]; cbn [orb]; [exists None; split; [reflexivity|discriminate]|].
  destruct (qleP (sp_high p) c0) as [B|B]; [exists None; split; [reflexivity|discriminate]|].
  apply Qcnot_lt_le in A. apply Qcnot_le_lt in B.
  assert (Wn : (bin_width p <= sp_high p - sp_low p)%Qc).
  { rewrite <- (width_total p W). assert (zq 1 <= zq (sp_bins p))%Qc by (apply (proj1 (zq_le _ _)); lia). rewrite zq_1 in H.
    assert (0 <= (zq (sp_bins p) - 1) * bin_width p)%Qc by (apply Qcmul_nonneg; qlra).
    assert ((zq (sp_bins p) - 1) * bin_width p = zq (sp_bins p) * bin_width p - bin_width p)%Qc by ring. qlra. }
  set (c := if qlt c0 _ then _ else _).
  assert (C : (sp_low p <= c)%Qc /\ (c < sp_high p)%Qc).
  { unfold c. destruct (qltP c0 (sp_low p + qq 1 2 * bin_width p)) as [X|X]; [split; qlra|].
    destruct (qltP (sp_high p - qq 1 2 * bin_width p) c0) as [Y|Y]; [split; qlra|]. split; assumption. }
  clearbody c. destruct C as [C1 C2].
  destruct (qleP (interp c) 0) as [Y|Y]; [exists None; split; [reflexivity|discriminate]|]. apply Qcnot_le_lt in Y.
  destruct (get_bin_partition_l p c W C1 C2) as (b1 & E1 & B1 & _). rewrite E1. cbn [rbind].
  rewrite (get_bin_centre_ok p b1 W B1). cbn [rbind].
  set (ctr := (_ + _)%Qc). destruct (areas interp p (bin_width p) c ctr b1) as [[b2 a1] a2] eqn:EA.
  destruct (areas_ok _ _ _ _ _ _ _ _ _ B1 EA) as (B2 & A1 & A2).
  destruct (qeq a1 0 && qeq a2 0) eqn:Z; [exists None; split; [reflexivity|discriminate]|].
  assert (T : (0 < a1 + a2)%Qc).
  { destruct (qeqP a1 0) as [Z1|Z1]; cbn [andb] in Z.
    - destruct (qeqP a2 0) as [Z2|Z2]; [discriminate|]. assert (0 < a2)%Qc by (apply Qcnot_le_lt; intro; apply Z2, Qcle_antisym; assumption). qlra.
    - assert (0 < a1)%Qc by (apply Qcnot_le_lt; intro; apply Z1, Qcle_antisym; assumption). qlra. }
  set (s1 := slice_sum k (Z.to_nat b1) a). set (s2 := slice_sum k (Z.to_nat b2) a).
  assert (L1 : Z.to_nat b1 < nth k (ashape a) 0) by (rewrite Sh; lia).
  assert (L2 : Z.to_nat b2 < nth k (ashape a) 0) by (rewrite Sh; lia).
  destruct (qleP s1 0) as [S1|S1]; destruct (qleP s2 0) as [S2|S2]; cbn [andb].
  - exists None. split; [reflexivity|discriminate].
  - apply Qcnot_le_lt in S2. eexists (Some _). split; [reflexivity|]. intros N h Eh idx V. injection Eh as <-.
    apply Qcmul_nonneg; [apply slice_at_nonneg; assumption|]. apply Qcdiv_nonneg; [qlra|exact S2].
  - apply Qcnot_le_lt in S1. eexists (Some _). split; [reflexivity|]. intros N h Eh idx V. injection Eh as <-.
    apply Qcmul_nonneg; [apply slice_at_nonneg; assumption|]. apply Qcdiv_nonneg; [qlra|exact S1].
  - apply Qcnot_le_lt in S1. apply Qcnot_le_lt in S2. eexists (Some _). split; [reflexivity|]. intros N h Eh idx V. injection Eh as <-.
    assert (0 <= slice_at k (Z.to_nat b1) a idx * (a1 / (a1 + a2)) * (interp c / s1))%Qc.
    { apply Qcmul_nonneg; [apply Qcmul_nonneg; [apply slice_at_nonneg; assumption|apply Qcdiv_nonneg; assumption]|].
      apply Qcdiv_nonneg; [qlra|exact S1]. }
    assert (0 <= slice_at k (Z.to_nat b2) a idx * (a2 / (a1 + a2)) * (interp c / s2))%Qc.
    { apply Qcmul_nonneg; [apply Qcmul_nonneg; [apply slice_at_nonneg; assumption|apply Qcdiv_nonneg; assumption]|].
      apply Qcdiv_nonneg; [qlra|exact S2]. }
    qlra.
Qed.

Lemma loop_resample src interp k p a bins acc :
  wf_axis p -> (qq 2 1000000 <= bin_width p)%Qc -> nth k (ashape a) 0 = Z.to_nat (sp_bins p) -> k < length (ashape a) ->
  ashape acc = ashape a ->
  exists a', loop_bins (resample_one src interp (bin_width p) k p a) bins acc = Ok a' /\ ashape a' = ashape a /\
    ((forall j, valid_idx (ashape a) j -> 0 <= aget a j)%Qc -> (forall j, valid_idx (ashape a) j -> 0 <= aget acc j)%Qc ->
     forall j, valid_idx (ashape a) j -> (0 <= aget a' j)%Qc).
Proof.
  intros W Hw Sh Lk. revert acc. induction bins as [|b r IH]; intros acc Sa.
  - exists acc. repeat split; [exact Sa|]. intros _ H. exact H.
  - destruct (resample_one_ok src interp k p a b W Hw Sh Lk) as (o & E & N). cbn [loop_bins]. rewrite E. cbn [rbind].
    destruct (IH (match o with Some h => add_slice k b h acc | None => acc end)) as (a' & E' & S' & N').
    + destruct o; exact Sa.
    + exists a'. split; [exact E'|]. split; [exact S'|]. intros Na Nacc. apply N'; [exact Na|]. intros j Vj.
      destruct o as [h|]; [|apply Nacc, Vj]. cbn [add_slice aget]. pose proof (Nacc j Vj). pose proof (N Na h eq_refl j Vj).
      destruct (Nat.eqb _ _); [qlra|assumption].
Qed.

Lemma resample_l c k dim p suffix src interp s :
  wf_spectra s -> s_cfg s = c -> nth_error c k = Some (dim, p) -> (qq 2 1000000 <= bin_width p)%Qc ->
  (exists s', resample suffix src interp dim s = Ok s' /\ s_name s' = (s_name s ++ suffix)%string /\
     same_but_name s s' /\ s_sum s' = s_sum s /\ (nonneg s -> nonneg s')) \/
  resample suffix src interp dim s = Err EZeroDivisionError.
Proof.
  intros Ws Ec Hk Hw. pose proof Ws as [[ND WA] Cs]. unfold consistent in Cs. rewrite Ec in *.
  assert (Wp : wf_axis p). { rewrite Forall_forall in WA. apply (WA _ (nth_error_In _ _ Hk)). }
  pose proof (cfg_nth c k dim p Hk) as Shk. rewrite <- Cs in Shk.
  assert (Lk : k < length (ashape (s_data s))).
  { rewrite Cs. unfold cfg_shape. rewrite map_length. apply nth_error_Some. congruence. }
  unfold resample. rewrite Ec, (get_par_nth c k dim p ND Hk). cbn [rbind]. rewrite get_width_ok by exact Wp. cbn [rbind].
  rewrite (get_index_nth c k dim p ND Hk). cbn [rbind].
  destruct (loop_resample src interp k p (s_data s) (seq 0 (Z.to_nat (sp_bins p))) (azeros (ashape (s_data s)))) as (a & E & Sh & N); auto.
  rewrite E. cbn [rbind]. cbn zeta. set (t := with_data (smear_target suffix s) a).
  unfold scale. cbn [with_decays s_decays]. unfold qdiv. destruct (qeqP (s_sum t) 0) as [Z|NZ].
  - right. reflexivity.
  - left. eexists. split; [reflexivity|]. split; [reflexivity|]. split; [repeat split; exact Sh|].
    split.
    + change (s_sum (with_decays _ _)) with (sum_over (ashape a) (fun idx => aget a idx * (s_sum s / s_sum t))%Qc).
      rewrite sum_over_scale. change (sum_over (ashape a) (fun i => aget a i)) with (s_sum t).
      rewrite Qcmult_comm. apply Qcdiv_mul_id. exact NZ.
    + intros Ns idx V. cbn [with_decays with_data s_data amap aget ashape] in *.
      assert (Nt : forall j, valid_idx (ashape (s_data s)) j -> (0 <= aget a j)%Qc).
      { apply N; [exact Ns|]. intros j _. cbn. apply Qcle_refl. }
      change (ashape (s_data t)) with (ashape a) in V. rewrite Sh in V.
      apply Qcmul_nonneg; [apply Nt, V|]. apply Qcdiv_nonneg.
      * apply sum_over_nonneg. exact Ns.
      * apply Qcnot_le_lt. intro X. apply NZ, Qcle_antisym; [exact X|]. apply sum_over_nonneg.
        change (ashape (s_data t)) with (ashape a). rewrite Sh. exact Nt.
Qed.

Lemma shift_interp_l c k dim p suffix shift interp s :
  wf_spectra s -> s_cfg s = c -> nth_error c k = Some (dim, p) -> (qq 2 1000000 <= bin_width p)%Qc ->
  is_multiple shift (bin_width p) = Ok false ->
  (exists s', shift_axis suffix shift interp dim s = Ok s' /\ s_name s' = (s_name s ++ suffix)%string /\
     same_but_name s s' /\ s_sum s' = s_sum s /\ (nonneg s -> nonneg s')) \/
  shift_axis suffix shift interp dim s = Err EZeroDivisionError.
Proof.
  intros Ws Ec Hk Hw M. pose proof Ws as [[ND WA] Cs]. rewrite Ec in *.
  assert (Wp : wf_axis p). { rewrite Forall_forall in WA. apply (WA _ (nth_error_In _ _ Hk)). }
  unfold shift_axis. rewrite Ec, (get_par_nth c k dim p ND Hk). cbn [rbind]. rewrite get_width_ok by exact Wp. cbn [rbind].
  rewrite M. cbn [rbind]. eapply resample_l; eauto.
Qed.
Lemma scale_axis_l c k dim p suffix sf interp s :
  wf_spectra s -> s_cfg s = c -> nth_error c k = Some (dim, p) -> (qq 2 1000000 <= bin_width p)%Qc ->
  set_scale_factor sf = Ok sf ->
  (exists s', scale_axis suffix sf interp dim s = Ok s' /\ s_name s' = (s_name s ++ suffix)%string /\
     same_but_name s s' /\ s_sum s' = s_sum s /\ (nonneg s -> nonneg s')) \/
  scale_axis suffix sf interp dim s = Err EZeroDivisionError.
Proof.
  intros Ws Ec Hk Hw M. unfold scale_axis. destruct (qeq sf 0); [right; reflexivity|]. eapply resample_l; eauto.
Qed.
Lemma scale_factor_l sf : set_scale_factor sf = (if qlt 0 sf then Ok sf else Err EValueError).
Proof. unfold set_scale_factor, qlt. destruct (qle sf 0); reflexivity. Qed.

Lemma coord_valid_lt sh idx k : valid_idx sh idx -> k < length sh -> coord k idx < nth k sh 0.
Proof.
  unfold valid_idx, coord. intro V. revert k. induction V as [|i n idx sh Hi V IH]; intros [|k] L; cbn in *; try lia. apply IH. lia.
Qed.
Lemma shift_zero_l c k dim p suffix s :
  wf_spectra s -> s_cfg s = c -> nth_error c k = Some (dim, p) -> nonneg s ->
  forall interp, exists s', shift_axis suffix 0 interp dim s = Ok s' /\ same_but_name s s' /\
    forall idx, valid_idx (ashape (s_data s)) idx -> aget (s_data s') idx = aget (s_data s) idx.
Proof.
  intros Ws Ec Hk N interp. pose proof Ws as [Wc Cs]. unfold consistent in Cs. rewrite Ec in *.
  pose proof (axis_wf c Wc k dim p Hk) as Wp. pose proof (width_pos p Wp) as P.
  destruct (shift_l c k dim p suffix 0%Qc 0 s Ws Ec Hk N) with (interp := interp) as (s' & E & _ & _ & M & C).
  { exists 0%Qc. rewrite zq_0. split; [ring|]. split; [apply Qcle_refl|]. split; [vm_compute; discriminate|]. qlra. }
  exists s'. split; [exact E|]. split; [exact M|]. intros idx V. rewrite C by exact V.
  pose proof (valid_length _ _ V) as L.
  assert (Lk : k < length (ashape (s_data s))).
  { rewrite Cs. unfold cfg_shape. rewrite map_length. apply nth_error_Some. congruence. }
  pose proof (coord_valid_lt _ _ _ V Lk) as X. rewrite Cs, (cfg_nth c k dim p Hk) in X.
  apply moved_zero; [lia|lia].
Qed.
Lemma moved_nonneg f k sh n d idx : (forall j, valid_idx sh j -> 0 <= f j)%Qc -> nth k sh 0 = Z.to_nat n ->
  valid_idx sh idx -> (0 <= moved f k n d idx)%Qc.
Proof.
  intros N Sh V. unfold moved. set (o := (_ - d)%Z). destruct (Z.leb_spec 0 o); cbn [andb]; [|apply Qcle_refl].
  destruct (Z.ltb_spec o n); [|apply Qcle_refl]. apply N, at_bin_valid; [exact V|]. rewrite Sh. lia.
Qed.
Lemma shift_twice_l c k dim p suffix suffix' sa sb a b s :
  wf_spectra s -> s_cfg s = c -> nth_error c k = Some (dim, p) -> nonneg s ->
  about_bins p sa a -> about_bins p sb b -> (0 <= a * b)%Z ->
  forall interp interp', exists s1 s2, shift_axis suffix sa interp dim s = Ok s1 /\ shift_axis suffix' sb interp' dim s1 = Ok s2 /\
    same_but_name s s2 /\
    forall idx, valid_idx (ashape (s_data s)) idx ->
      aget (s_data s2) idx = moved (aget (s_data s)) k (sp_bins p) (a + b) idx.
Proof.
  intros Ws Ec Hk N Aa Ab S interp interp'.
  destruct (shift_l c k dim p suffix sa a s Ws Ec Hk N Aa interp) as (s1 & E1 & _ & _ & M1 & C1).
  pose proof M1 as (_ & Mc & _ & _ & _ & _ & Msh). pose proof Ws as [Wc Cs]. unfold consistent in Cs. rewrite Ec in *.
  assert (Sk : nth k (ashape (s_data s)) 0 = Z.to_nat (sp_bins p)) by (rewrite Cs; eapply cfg_nth, Hk).
  assert (N1 : nonneg s1).
  { intros idx V. rewrite Msh in V. rewrite C1 by exact V. apply moved_nonneg with (sh := ashape (s_data s)); auto. }
  assert (W1 : wf_spectra s1) by (split; [rewrite Mc; exact Wc|unfold consistent; rewrite Msh, Mc; exact Cs]).
  destruct (shift_l c k dim p suffix' sb b s1 W1 Mc Hk N1 Ab interp') as (s2 & E2 & _ & _ & M2 & C2).
  exists s1, s2. split; [exact E1|]. split; [exact E2|].
  split. { unfold same_but_name in *. intuition congruence. }
  intros idx V. rewrite C2 by (rewrite Msh; exact V).
  pose proof (valid_length _ _ V) as L.
  assert (Lk : k < length (ashape (s_data s))).
  { rewrite Cs. unfold cfg_shape. rewrite map_length. apply nth_error_Some. congruence. }
  pose proof (coord_valid_lt _ _ _ V Lk) as X. rewrite Sk in X.
  rewrite <- moved_compose by (try lia; exact S).
  unfold moved at 1 2. set (o := (Z.of_nat (coord k idx) - b)%Z).
  destruct (Z.leb_spec 0 o); cbn [andb]; [|reflexivity]. destruct (Z.ltb_spec o (sp_bins p)); [|reflexivity].
  apply C1. apply at_bin_valid; [exact V|]. rewrite Sk. lia.
Qed.

Lemma resample_one_shape src interp step k p a b acc acc' :
  resample_one src interp step k p a b acc = Ok acc' -> ashape acc' = ashape acc.
Proof.
  unfold resample_one. cbn zeta. intro E.
  destruct (_ || _); [injection E as <-; reflexivity|].
  destruct (qle _ 0); [injection E as <-; reflexivity|].
  destruct (get_bin _ _) as [b1|]; cbn [rbind] in E; [|discriminate].
  destruct (get_bin_centre _ _) as [ctr|]; cbn [rbind] in E; [|discriminate].
  destruct (areas _ _ _ _ _ _) as [[b2 a1] a2].
  destruct (qeq a1 0 && qeq a2 0); [injection E as <-; reflexivity|].
  destruct (qle (slice_sum k (Z.to_nat b1) a) 0 && qle (slice_sum k (Z.to_nat b2) a) 0); [injection E as <-; reflexivity|].
  destruct (qle (slice_sum k (Z.to_nat b1) a) 0); [injection E as <-; reflexivity|].
  destruct (qle (slice_sum k (Z.to_nat b2) a) 0); injection E as <-; reflexivity.
Qed.
Lemma loop_shape (f : nat -> ndarray -> res ndarray) bins acc a :
  (forall b acc acc', f b acc = Ok acc' -> ashape acc' = ashape acc) ->
  loop_bins f bins acc = Ok a -> ashape a = ashape acc.
Proof.
  intro H. revert acc. induction bins as [|b r IH]; intros acc E; cbn in E; [injection E as <-; reflexivity|].
  destruct (f b acc) as [acc'|] eqn:F; cbn [rbind] in E; [|discriminate]. rewrite (IH _ E). eapply H, F.
Qed.
Lemma resample_total_l suffix src interp dim s s' :
  resample suffix src interp dim s = Ok s' ->
  s_sum s' = s_sum s /\ same_but_name s s'.
Proof.
  unfold resample. intro E.
  destruct (get_par _ _) as [p|]; cbn [rbind] in E; [|discriminate].
  destruct (get_width p) as [w|]; cbn [rbind] in E; [|discriminate].
  destruct (get_index _ _) as [k|]; cbn [rbind] in E; [|discriminate].
  destruct (loop_bins _ _ _) as [a|] eqn:L; cbn [rbind] in E; [|discriminate].
  apply loop_shape in L; [|intros ? ? ? X; eapply resample_one_shape, X]. cbn [azeros ashape] in L.
  cbn zeta in E. set (t := with_data (smear_target suffix s) a) in E.
  unfold scale in E. cbn [with_decays s_decays] in E. unfold qdiv in E. destruct (qeqP (s_sum t) 0) as [Z|NZ]; [discriminate|].
  injection E as <-. split.
  - change (s_sum (with_decays _ _)) with (sum_over (ashape a) (fun idx => aget a idx * (s_sum s / s_sum t))%Qc).
    rewrite sum_over_scale. change (sum_over (ashape a) (fun i => aget a i)) with (s_sum t).
    rewrite Qcmult_comm. apply Qcdiv_mul_id. exact NZ.
  - repeat split. exact L.
Qed.
Lemma scale_total_l suffix sf interp dim s s' :
  scale_axis suffix sf interp dim s = Ok s' -> s_sum s' = s_sum s /\ same_but_name s s'.
Proof. unfold scale_axis. destruct (qeq sf 0); [discriminate|]. apply resample_total_l. Qed.
Lemma shift_total_l suffix shift interp dim s s' p step :
  get_par (s_cfg s) dim = Ok p -> get_width p = Ok step -> is_multiple shift step = Ok false ->
  shift_axis suffix shift interp dim s = Ok s' -> s_sum s' = s_sum s /\ same_but_name s s'.
Proof.
  intros E1 E2 E3. unfold shift_axis. rewrite E1. cbn [rbind]. rewrite E2. cbn [rbind]. rewrite E3. cbn [rbind]. apply resample_total_l.
Qed.

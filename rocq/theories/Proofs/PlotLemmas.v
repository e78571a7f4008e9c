(** Proofs for C72. *)
From Coq Require Import Lia.
From Verif Require Import Model.Base Model.PyStr Model.NDArray Model.Param Model.Config Model.Spectra Model.FloatFill Model.Plot.
From Verif Require Import Spec.AxisSpec Spec.ArraySpec Spec.SpectraSpec Spec.PlotSpec.
From Verif Require Import Proofs.QcLemmas Proofs.ParamLemmas Proofs.DictLemmas Proofs.FillLemmas Proofs.ProjectLemmas Proofs.NDProjectLemmas.

(** ** The counts are marginals *)
Lemma coord_nth c d : forall idx axis p, NoDup (map fst c) -> nth_error c axis = Some (d, p) -> axis < length idx ->
  coord c d idx = Some (nth axis idx 0).
Proof.
  induction c as [|[k q] c IH]; intros idx axis p ND N L; [destruct axis; discriminate N|].
  inversion ND as [|? ? H1 H2]; subst. destruct idx as [|i idx]; [cbn in L; lia|]. cbn [coord].
  destruct axis as [|axis]; cbn in N.
  - injection N as -> ->. rewrite String.eqb_refl. reflexivity.
  - destruct (String.eqb_spec k d) as [->|NE].
    + exfalso. apply H1. apply nth_error_In in N. apply (in_map fst) in N. exact N.
    + cbn [nth]. cbn in L. apply (IH idx axis p H2 N). lia.
Qed.
Lemma all_idx_length sh : forall idx, In idx (all_idx sh) -> length idx = length sh.
Proof.
  induction sh as [|n sh IH]; cbn; intros idx I.
  - destruct I as [<-|[]]. reflexivity.
  - apply in_flat_map in I as (i & _ & I). apply in_map_iff in I as (r & <- & I). cbn. f_equal. apply IH, I.
Qed.
Lemma sum_where_same sh f P Q : (forall idx, In idx (all_idx sh) -> P idx = Q idx) -> sum_where sh f P = sum_where sh f Q.
Proof. intro H. unfold sum_where. rewrite (filter_ext_in _ _ _ H). reflexivity. Qed.
Lemma counts_marginal s d axis p i : wf_spectra s -> nth_error (s_cfg s) axis = Some (d, p) ->
  counts s d i = marginal (ashape (s_data s)) (aget (s_data s)) [axis] [i].
Proof.
  intros [[ND _] C] N. apply sum_where_same. intros idx I. apply all_idx_length in I.
  rewrite C in I. unfold cfg_shape in I. rewrite map_length in I.
  assert (L : axis < length (s_cfg s)) by (apply nth_error_Some; congruence).
  unfold at_coord. rewrite (coord_nth _ _ _ _ _ ND N) by lia. cbn [map].
  destruct (list_eq_dec Nat.eq_dec _ _) as [E|E]; destruct (Nat.eqb_spec (nth axis idx 0) i); congruence.
Qed.
Lemma counts2_marginal s d1 d2 a1 a2 p1 p2 i j : wf_spectra s -> nth_error (s_cfg s) a1 = Some (d1, p1) ->
  nth_error (s_cfg s) a2 = Some (d2, p2) ->
  counts2 s d1 d2 i j = marginal (ashape (s_data s)) (aget (s_data s)) [a1; a2] [i; j].
Proof.
  intros [[ND _] C] N1 N2. apply sum_where_same. intros idx I. apply all_idx_length in I.
  rewrite C in I. unfold cfg_shape in I. rewrite map_length in I.
  assert (L1 : a1 < length (s_cfg s)) by (apply nth_error_Some; congruence).
  assert (L2 : a2 < length (s_cfg s)) by (apply nth_error_Some; congruence).
  unfold at_coord. rewrite (coord_nth _ _ _ _ _ ND N1), (coord_nth _ _ _ _ _ ND N2) by lia. cbn [map].
  destruct (list_eq_dec Nat.eq_dec _ _) as [E|E];
    destruct (Nat.eqb_spec (nth a1 idx 0) i); destruct (Nat.eqb_spec (nth a2 idx 0) j); cbn; congruence.
Qed.
Lemma counts2_swap s d1 d2 i j : counts2 s d1 d2 i j = counts2 s d2 d1 j i.
Proof. apply sum_where_same. intros. apply Bool.andb_comm. Qed.

(** ** Looking up an axis *)
Lemma nth_get_par (c : sconfig) d axis p : NoDup (map fst c) -> nth_error c axis = Some (d, p) -> get_par c d = Ok p.
Proof.
  intros ND N. unfold get_par, dlookup.
  assert (G : dget d c = Some p).
  { clear -ND N. revert axis N. induction c as [|[k q] c IH]; intros axis N; [destruct axis; discriminate N|].
    inversion ND as [|? ? H1 H2]; subst. cbn. destruct axis as [|axis]; cbn in N.
    - injection N as -> ->. rewrite String.eqb_refl. reflexivity.
    - destruct (String.eqb_spec d k) as [<-|NE].
      + exfalso. apply H1. apply nth_error_In in N. apply (in_map fst) in N. exact N.
      + apply (IH H2 axis N). }
  rewrite G. reflexivity.
Qed.
Lemma nth_shape s d axis p : Spec.SpectraSpec.consistent s -> nth_error (s_cfg s) axis = Some (d, p) ->
  nth axis (ashape (s_data s)) 0 = Z.to_nat (sp_bins p).
Proof.
  intros C N. rewrite C. unfold cfg_shape.
  apply (nth_error_nth _ _ 0). rewrite nth_error_map, N. reflexivity.
Qed.
Lemma nth_axis_wf s d axis p : wf_spectra s -> nth_error (s_cfg s) axis = Some (d, p) -> wf_axis p.
Proof.
  intros [[_ F] _] N. apply nth_error_In in N. rewrite Forall_forall in F. exact (F _ N).
Qed.
Lemma project_items s d axis p : wf_spectra s -> nth_error (s_cfg s) axis = Some (d, p) ->
  exists a, project d s = Ok a /\ items1 a = Ok (map (counts s d) (seq 0 (Z.to_nat (sp_bins p)))).
Proof.
  intros W N. destruct W as [[ND F] C].
  destruct (project_l s d axis C) as (a & E & Sh & G & _); [|exact ND|].
  { rewrite nth_error_map, N. reflexivity. }
  exists a. split; [exact E|]. unfold items1. rewrite Sh, (nth_shape _ _ _ _ C N). f_equal.
  apply map_ext_in. intros i I. apply in_seq in I. rewrite (counts_marginal s d axis p) by (try split; try split; assumption).
  apply G. rewrite (nth_shape _ _ _ _ C N). lia.
Qed.

(** ** ROOT *)
Lemma set_bins_shape l : forall b h, h1_bins (set_bins b l h) = h1_bins h /\ h1_low (set_bins b l h) = h1_low h /\
  h1_high (set_bins b l h) = h1_high h.
Proof.
  induction l as [|v l IH]; intros b h; cbn [set_bins]; [auto|]. destruct (IH (b + 1)%Z (h1_set b v h)) as (-> & -> & ->).
  unfold h1_set. destruct (_ && _); auto.
Qed.
Lemma set_bins_at l : forall b h, (0 <= b)%Z -> (b + Z.of_nat (length l) <= h1_bins h + 2)%Z ->
  (forall k, k < length l -> h1_at (set_bins b l h) (b + Z.of_nat k) = nth k l 0%Qc) /\
  (forall x, (x < b)%Z \/ (b + Z.of_nat (length l) <= x)%Z -> h1_at (set_bins b l h) x = h1_at h x).
Proof.
  induction l as [|v l IH]; intros b h B L; cbn [set_bins].
  - split; [intros k K; cbn in K; lia|reflexivity].
  - cbn [length] in L.
    assert (E : h1_set b v h = H1 (h1_bins h) (h1_low h) (h1_high h) (fun b' => if (b' =? b)%Z then v else h1_at h b')).
    { unfold h1_set. destruct (Z.leb_spec 0 b); [|lia]. destruct (Z.leb_spec b (h1_bins h + 1)); [|lia]. reflexivity. }
    destruct (IH (b + 1)%Z (h1_set b v h)) as [G1 G2]; [lia|rewrite E; cbn [h1_bins]; lia|]. split.
    + intros [|k] K.
      * rewrite G2 by lia. rewrite E. cbn [h1_at nth]. rewrite Z.add_0_r, Z.eqb_refl. reflexivity.
      * cbn [length] in K. replace (b + Z.of_nat (S k))%Z with (b + 1 + Z.of_nat k)%Z by lia. cbn [nth]. apply G1. lia.
    + intros x X. cbn [length] in X. rewrite G2 by lia. rewrite E. cbn [h1_at].
      destruct (Z.eqb_spec x b); [lia|reflexivity].
Qed.
Lemma nth_map_seq {A} (f : nat -> A) n k d : k < n -> nth k (map f (seq 0 n)) d = f k.
Proof. intro K. rewrite (nth_indep _ d (f 0)) by (rewrite map_length, seq_length; exact K). rewrite map_nth, seq_nth by exact K. reflexivity. Qed.
Lemma root_projection_l s d axis p : wf_spectra s -> nth_error (s_cfg s) axis = Some (d, p) ->
  exists h, root_projection s d = Ok h /\ shows h p (counts s d).
Proof.
  intros W N. destruct (project_items s d axis p W N) as (a & E & I).
  destruct (nth_axis_wf _ _ _ _ W N) as [_ B]. pose proof (proj1 (proj1 W)) as ND.
  unfold root_projection. rewrite (nth_get_par _ _ _ _ ND N), E. cbn [rbind]. rewrite I. cbn [rbind].
  eexists. split; [reflexivity|]. set (l := map _ _). set (h0 := new_h1 _ _ _).
  destruct (set_bins_shape l 1 h0) as (S1 & S2 & S3).
  assert (L : length l = Z.to_nat (sp_bins p)) by (unfold l; rewrite map_length, seq_length; reflexivity).
  destruct (set_bins_at l 1 h0) as [G1 G2]; [lia|rewrite L; unfold h0; cbn [new_h1 h1_bins]; lia|].
  split; [exact S1|]. split; [exact S2|]. split; [exact S3|]. split.
  - intros i Hi. rewrite Z.add_comm, G1 by (rewrite L; lia). unfold l. apply nth_map_seq. lia.
  - intros b Hb. rewrite G2 by (rewrite L; lia). reflexivity.
Qed.

(** ** matplotlib *)
Lemma full_arange_len p : wf_axis p -> qceil ((sp_high p - sp_low p) / bin_width p)%Qc = sp_bins p.
Proof.
  intros W. pose proof (width_neq p W) as WN.
  assert (E : ((sp_high p - sp_low p) / bin_width p = zq (sp_bins p))%Qc).
  { rewrite <- (width_total p W). field. exact WN. }
  rewrite E. apply qceil_uniq; [apply Qcle_refl|]. pose proof (zq_lt (sp_bins p) (sp_bins p + 1)) as H.
  rewrite zq_add, zq_1 in H. apply H. lia.
Qed.
Lemma produce_axis_l s d axis p : wf_spectra s -> nth_error (s_cfg s) axis = Some (d, p) ->
  produce_axis s d = Ok (centres p).
Proof.
  intros W N. pose proof (nth_axis_wf _ _ _ _ W N) as WA. pose proof (proj1 (proj1 W)) as ND.
  unfold produce_axis. rewrite (nth_get_par _ _ _ _ ND N). cbn [rbind]. rewrite (get_width_ok p WA). cbn [rbind].
  unfold arange. rewrite qdiv_ok by (apply width_neq, WA). cbn [rbind].
  rewrite full_arange_len by exact WA. rewrite map_map. f_equal. apply map_ext. intro k.
  unfold edge, nq. replace (qq 1 2) with (/ zq 2)%Qc by (apply Qc_is_canon; vm_compute; reflexivity).
  unfold Qcdiv. ring.
Qed.
Lemma produce_bins_l s d axis p : wf_spectra s -> nth_error (s_cfg s) axis = Some (d, p) ->
  produce_bins s d = Ok (map (fun k => edge p (Z.of_nat k)) (seq 0 (S (Z.to_nat (sp_bins p))))).
Proof.
  intros W N. pose proof (nth_axis_wf _ _ _ _ W N) as WA. pose proof (proj1 (proj1 W)) as ND.
  unfold produce_bins. rewrite (nth_get_par _ _ _ _ ND N). cbn [rbind]. unfold linspace. destruct WA as [_ B].
  destruct (Z.ltb_spec (sp_bins p + 1) 0); [lia|]. f_equal.
  replace (Z.to_nat (sp_bins p + 1)) with (S (Z.to_nat (sp_bins p))) by lia.
  apply map_ext. intro k. unfold edge, bin_width, nq. rewrite Z.add_simpl_r. reflexivity.
Qed.
Lemma weigh_centres closed p k f : wf_axis p -> forall m a,
  weigh closed (edge p (Z.of_nat k)) (edge p (Z.of_nat (S k)))
    (map (fun j => edge p (Z.of_nat j) + bin_width p / zq 2)%Qc (seq a m)) (map f (seq a m))
  = if (a <=? k)%nat && (k <? a + m)%nat then f k else 0%Qc.
Proof.
  intro W. pose proof (width_pos p W) as WP.
  assert (H2 : (bin_width p / zq 2 + bin_width p / zq 2 = bin_width p)%Qc).
  { replace (zq 2) with (1 + 1)%Qc by (apply Qc_is_canon; vm_compute; reflexivity).
    field. intro E. apply (f_equal this) in E. discriminate E. }
  set (hw := (bin_width p / zq 2)%Qc) in *. clearbody hw.
  assert (In1 : forall j, j = k -> qle (edge p (Z.of_nat k)) (edge p (Z.of_nat j) + hw)%Qc &&
      (if closed then qle (edge p (Z.of_nat j) + hw)%Qc (edge p (Z.of_nat (S k)))
       else qlt (edge p (Z.of_nat j) + hw)%Qc (edge p (Z.of_nat (S k)))) = true).
  { intros j ->. assert (E : edge p (Z.of_nat (S k)) = (edge p (Z.of_nat k) + bin_width p)%Qc).
    { unfold edge. rewrite Nat2Z.inj_succ, <- Z.add_1_r, zq_add. rewrite zq_1. ring. }
    rewrite E. apply andb_true_iff. split; [apply qle_iff; qlra|].
    destruct closed; [apply qle_iff|apply qlt_iff]; qlra. }
  assert (Out : forall j, j <> k -> qle (edge p (Z.of_nat k)) (edge p (Z.of_nat j) + hw)%Qc &&
      (if closed then qle (edge p (Z.of_nat j) + hw)%Qc (edge p (Z.of_nat (S k)))
       else qlt (edge p (Z.of_nat j) + hw)%Qc (edge p (Z.of_nat (S k)))) = false).
  { intros j NE. assert (S1 : forall x y, x < y -> (edge p (Z.of_nat x) + bin_width p <= edge p (Z.of_nat y))%Qc).
    { intros x y L. replace y with (S x + (y - S x))%nat by lia. generalize (y - S x)%nat as r. intro r. unfold edge.
      rewrite Nat2Z.inj_add, Nat2Z.inj_succ, <- Z.add_1_r, !zq_add. rewrite zq_1.
      assert (R : (0 <= zq (Z.of_nat r) * bin_width p)%Qc).
      { assert (Zr : (0 <= zq (Z.of_nat r))%Qc) by (rewrite <- zq_0; apply (proj1 (zq_le 0 (Z.of_nat r))), Nat2Z.is_nonneg).
        clear -WP Zr. apply Qclt_le_weak in WP. pose proof (Qcmult_le_compat_r _ _ _ Zr WP) as M. rewrite Qcmult_0_l in M. exact M. }
      qlra. }
    apply andb_false_iff. destruct (Nat.lt_total j k) as [L|[L|L]]; [|contradiction|].
    - left. apply Bool.not_true_is_false. rewrite qle_iff. pose proof (S1 j k L) as Q. intro Q2. clear -WP H2 Q Q2. qlra.
    - right. assert (X : (edge p (Z.of_nat (S k)) <= edge p (Z.of_nat j))%Qc).
      { destruct (Nat.eq_dec (S k) j) as [<-|NE2]; [apply Qcle_refl|]. pose proof (S1 (S k) j). 
        assert (Lt : S k < j) by lia. specialize (H Lt). qlra. }
      destruct closed; apply Bool.not_true_is_false; [rewrite qle_iff|rewrite qlt_iff]; intro Q2; clear -WP H2 X Q2; qlra. }
  induction m as [|m IH]; intro a; cbn [seq map weigh].
  - destruct (Nat.leb_spec a k), (Nat.ltb_spec k (a + 0)); cbn; try reflexivity; lia.
  - rewrite IH. destruct (Nat.eq_dec a k) as [E|NE].
    + rewrite (In1 a E). subst a. destruct (Nat.leb_spec (S k) k); [lia|]. cbn [andb].
      destruct (Nat.leb_spec k k), (Nat.ltb_spec k (k + S m)); try lia. cbn [andb]. ring.
    + rewrite (Out a NE). rewrite Qcplus_0_l.
      destruct (Nat.leb_spec (S a) k), (Nat.leb_spec a k), (Nat.ltb_spec k (S a + m)), (Nat.ltb_spec k (a + S m)); cbn; try reflexivity; lia.
Qed.
Lemma heights_map (e : nat -> Qc) xs ws f : forall m a,
  (forall closed k, a <= k -> k < a + m -> weigh closed (e k) (e (S k)) xs ws = f k) ->
  heights (map e (seq a (S m))) xs ws = map f (seq a m).
Proof.
  induction m as [|m IH]; intros a H; [reflexivity|].
  change (map e (seq a (S (S m)))) with (e a :: map e (seq (S a) (S m))).
  destruct (map e (seq (S a) (S m))) as [|hi rest] eqn:E; [discriminate E|].
  cbn [heights]. injection E as E1 E2. rewrite <- E1. rewrite H by lia. cbn [seq map]. f_equal.
  rewrite E1, <- E2. change (hi :: map e (seq (S (S a)) m)) with (hi :: map e (seq (S (S a)) m)).
  rewrite <- E1. change (e (S a) :: map e (seq (S (S a)) m)) with (map e (seq (S a) (S m))).
  apply IH. intros. apply H; lia.
Qed.
Lemma hist_draws p f : wf_axis p ->
  exists b, hist (centres p) (map (fun k => edge p (Z.of_nat k)) (seq 0 (S (Z.to_nat (sp_bins p)))))
              (map f (seq 0 (Z.to_nat (sp_bins p)))) = Ok b /\ draws b p f.
Proof.
  intro W. unfold hist, centres. rewrite !map_length, !seq_length, Nat.eqb_refl. eexists. split; [reflexivity|].
  split; [reflexivity|]. cbn [b_heights].
  apply heights_map. intros closed k _ K. rewrite weigh_centres by exact W.
  destruct (Nat.leb_spec 0 k), (Nat.ltb_spec k (0 + Z.to_nat (sp_bins p))); try lia. reflexivity.
Qed.
Lemma mpl_projection_l s d axis p : wf_spectra s -> nth_error (s_cfg s) axis = Some (d, p) ->
  exists b, mpl_projection s d = Ok b /\ draws b p (counts s d).
Proof.
  intros W N. pose proof (nth_axis_wf _ _ _ _ W N) as WA. pose proof (proj1 (proj1 W)) as ND.
  destruct (project_items s d axis p W N) as (a & E & I).
  unfold mpl_projection. rewrite (nth_get_par _ _ _ _ ND N). cbn [rbind]. rewrite (get_width_ok p WA). cbn [rbind].
  rewrite (produce_bins_l _ _ _ _ W N). cbn [rbind]. rewrite (produce_axis_l _ _ _ _ W N). cbn [rbind].
  rewrite E. cbn [rbind]. rewrite I. cbn [rbind]. apply hist_draws, WA.
Qed.
Lemma has_axis_nth s d p : has_axis s d p -> wf_spectra s /\ exists axis, nth_error (s_cfg s) axis = Some (d, p).
Proof. intros [W I]. split; [exact W|]. apply In_nth_error in I. exact I. Qed.

(** ** spectral_plot *)
Lemma spar_eq p q : sp_low p = sp_low q -> sp_high p = sp_high q -> sp_bins p = sp_bins q -> p = q.
Proof. destruct p, q; cbn. congruence. Qed.
Lemma check_same f l dim : check_axes (Some f) l dim = Ok tt <-> Forall (fun sb => get_par (s_cfg (fst sb)) dim = Ok f) l.
Proof.
  induction l as [|[s b] l IH]; cbn [check_axes].
  - split; [constructor|reflexivity].
  - destruct (get_par (s_cfg s) dim) as [p|e] eqn:G; cbn [rbind].
    + destruct (qeq (sp_low p) (sp_low f)) eqn:E1; cbn [negb].
      * destruct (qeq (sp_high p) (sp_high f)) eqn:E2; cbn [negb].
        -- destruct (Z.eqb_spec (sp_bins p) (sp_bins f)) as [E3|E3]; cbn [negb].
           ++ apply qeq_iff in E1. apply qeq_iff in E2. pose proof (spar_eq p f E1 E2 E3) as ->.
              rewrite IH. split; [intro H; constructor; [exact G|exact H]|intro H; inversion H; assumption].
           ++ split; [discriminate|]. intro H. inversion H as [|? ? H1 H2]; subst. cbn [fst] in H1.
              rewrite G in H1. injection H1 as ->. contradiction.
        -- split; [discriminate|]. intro H. inversion H as [|? ? H1 H2]; subst. cbn [fst] in H1.
           rewrite G in H1. injection H1 as ->. rewrite (proj2 (qeq_iff _ _)) in E2 by reflexivity. discriminate.
      * split; [discriminate|]. intro H. inversion H as [|? ? H1 H2]; subst. cbn [fst] in H1.
        rewrite G in H1. injection H1 as ->. rewrite (proj2 (qeq_iff _ _)) in E1 by reflexivity. discriminate.
    + split; [discriminate|]. intro H. inversion H as [|? ? H1 H2]; subst. cbn [fst] in H1. congruence.
Qed.
Lemma vadd_map f g n : vadd (map f (seq 0 n)) (map g (seq 0 n)) = Ok (map (fun i => f i + g i)%Qc (seq 0 n)).
Proof.
  unfold vadd. rewrite !map_length, !seq_length, Nat.eqb_refl. f_equal. generalize 0 as a. induction n as [|n IH]; intro a; cbn; [reflexivity|].
  f_equal. apply IH.
Qed.
Lemma draw_all_l p dim l : forall f g,
  Forall (fun sb => has_axis (fst sb) dim p) l ->
  let n := Z.to_nat (sp_bins p) in
  exists hs,
    draw_all (centres p) (map (fun k => edge p (Z.of_nat k)) (seq 0 (S n))) l dim (map f (seq 0 n)) (map g (seq 0 n))
    = Ok (hs, map (fun i => f i + qsum (map (fun sb => counts (fst sb) dim i) (filter snd l)))%Qc (seq 0 n),
              map (fun i => g i + qsum (map (fun sb => counts (fst sb) dim i) l))%Qc (seq 0 n)) /\
    Forall2 (fun sb b => draws b p (counts (fst sb) dim)) l hs.
Proof.
  induction l as [|[s b] l IH]; intros f g F n.
  - exists []. split; [|constructor]. cbn [draw_all filter map qsum].
    f_equal. f_equal; [f_equal|]; apply map_ext; intro i; cbn; ring.
  - inversion F as [|? ? H1 H2]; subst. cbn [fst] in H1. destruct (has_axis_nth _ _ _ H1) as (W & axis & N).
    destruct (project_items s dim axis p W N) as (a & E & I). fold n in I.
    destruct (hist_draws p (counts s dim) (nth_axis_wf _ _ _ _ W N)) as (h & Eh & Dh). fold n in Eh.
    cbn [draw_all]. rewrite E. cbn [rbind]. rewrite I. cbn [rbind]. rewrite Eh. cbn [rbind].
    set (f' := fun i => (f i + (if b then counts s dim i else 0))%Qc).
    assert (B : (if b then vadd (map f (seq 0 n)) (map (counts s dim) (seq 0 n)) else Ok (map f (seq 0 n))) = Ok (map f' (seq 0 n))).
    { unfold f'. destruct b; [apply vadd_map|]. f_equal. apply map_ext. intro. ring. }
    rewrite B. cbn [rbind]. rewrite vadd_map. cbn [rbind].
    destruct (IH f' (fun i => g i + counts s dim i)%Qc H2) as (hs & Er & Fr). fold n in Er. rewrite Er. cbn [rbind].
    exists (h :: hs). split; [|constructor; assumption]. f_equal. f_equal; [f_equal|].
    + apply map_ext. intro i. unfold f'. cbn [filter snd]. destruct b; cbn [map fst]; unfold qsum; cbn [fold_right]; ring.
    + apply map_ext. intro i. cbn [map fst]; unfold qsum; cbn [fold_right]; ring.
Qed.
Lemma rev_last {A} (l : list A) x r : rev l = x :: r -> In x l.
Proof. intro E. apply in_rev. rewrite E. left. reflexivity. Qed.
Lemma map_const {A} (x : A) n : repeat x n = map (fun _ => x) (seq 0 n).
Proof. generalize 0 as a. induction n as [|n IH]; intro a; cbn; [reflexivity|]. f_equal. apply IH. Qed.
Lemma spectral_plot_l l dim p lim : l <> [] -> Forall (fun sb => has_axis (fst sb) dim p) l ->
  match lim with Some s => exists q, has_axis s dim q /\ sp_bins q = sp_bins p | None => True end ->
  exists pl, spectral_plot l dim lim = Ok pl /\
    Forall2 (fun sb b => draws b p (counts (fst sb) dim)) l (pl_spectra pl) /\
    draws (pl_bg pl) p (fun i => qsum (map (fun sb => counts (fst sb) dim i) (filter snd l))) /\
    draws (pl_sum pl) p (fun i => qsum (map (fun sb => counts (fst sb) dim i) l)) /\
    match lim, pl_limit pl with
    | Some s, Some b => draws b p (counts s dim)
    | None, None => True
    | _, _ => False
    end.
Proof.
  intros NE F Q.
  assert (G : forall sb, In sb l -> get_par (s_cfg (fst sb)) dim = Ok p).
  { intros sb I. rewrite Forall_forall in F. destruct (has_axis_nth _ _ _ (F _ I)) as (W & axis & N).
    apply (nth_get_par _ _ _ _ (proj1 (proj1 W)) N). }
  assert (Ck : check_axes None l dim = Ok tt).
  { destruct l as [|[s b] l]; [reflexivity|]. cbn [check_axes]. pose proof (G (s, b) (or_introl eq_refl)) as G0. cbn [fst] in G0. rewrite G0. cbn [rbind].
    apply check_same. apply Forall_forall. intros sb I. apply G. right. exact I. }
  unfold spectral_plot. rewrite Ck. cbn [rbind].
  destruct l as [|[s0 b0] l0]; [contradiction|]. set (l := (s0, b0) :: l0) in *.
  destruct (rev l) as [|[sl bl] r] eqn:R.
  { apply (f_equal (@length _)) in R. rewrite rev_length in R. discriminate R. }
  assert (Il : In (sl, bl) l) by (apply (rev_last _ _ _ R)).
  pose proof (G (s0, b0) (or_introl eq_refl)) as G0. cbn [fst] in G0. rewrite G0. cbn [rbind].
  assert (Fl : has_axis sl dim p) by (rewrite Forall_forall in F; apply (F _ Il)).
  destruct (has_axis_nth _ _ _ Fl) as (Wl & axis & N). pose proof (nth_axis_wf _ _ _ _ Wl N) as WA.
  rewrite (produce_axis_l _ _ _ _ Wl N). cbn [rbind]. rewrite (produce_bins_l _ _ _ _ Wl N). cbn [rbind].
  set (n := Z.to_nat (sp_bins p)). rewrite (map_const 0%Qc n).
  destruct (draw_all_l p dim l (fun _ => 0%Qc) (fun _ => 0%Qc) F) as (hs & Er & Fr). fold n in Er. rewrite Er. cbn [rbind].
  set (fb := fun i => (0 + qsum (map (fun sb => counts (fst sb) dim i) (filter snd l)))%Qc).
  set (ft := fun i => (0 + qsum (map (fun sb => counts (fst sb) dim i) l))%Qc).
  destruct (hist_draws p fb WA) as (hb & Eb & Db). fold n in Eb. rewrite Eb. cbn [rbind].
  destruct (hist_draws p ft WA) as (ht & Et & Dt). fold n in Et. rewrite Et. cbn [rbind].
  assert (Db' : draws hb p (fun i => qsum (map (fun sb => counts (fst sb) dim i) (filter snd l)))).
  { destruct Db as [D1 D2]. split; [exact D1|]. rewrite D2. apply map_ext. intro i. unfold fb. ring. }
  assert (Dt' : draws ht p (fun i => qsum (map (fun sb => counts (fst sb) dim i) l))).
  { destruct Dt as [D1 D2]. split; [exact D1|]. rewrite D2. apply map_ext. intro i. unfold ft. ring. }
  destruct lim as [s|].
  - destruct Q as (q & Hq & Bq). destruct (has_axis_nth _ _ _ Hq) as (Wq & aq & Nq).
    destruct (project_items s dim aq q Wq Nq) as (a & E & I). rewrite E. cbn [rbind]. rewrite I. cbn [rbind].
    rewrite Bq. fold n. destruct (hist_draws p (counts s dim) WA) as (h & Eh & Dh). fold n in Eh. rewrite Eh. cbn [rbind].
    eexists. split; [reflexivity|]. cbn [pl_spectra pl_bg pl_sum pl_limit]. auto.
  - cbn [rbind]. eexists. split; [reflexivity|]. cbn [pl_spectra pl_bg pl_sum pl_limit]. auto.
Qed.
Lemma spectral_same_l l dim lim pl : spectral_plot l dim lim = Ok pl ->
  exists p, Forall (fun sb => get_par (s_cfg (fst sb)) dim = Ok p) l.
Proof.
  unfold spectral_plot. destruct (check_axes None l dim) as [[]|e] eqn:C; [|discriminate]. cbn [rbind].
  destruct l as [|[s b] l]; [discriminate|]. intros _. cbn [check_axes] in C.
  destruct (get_par (s_cfg s) dim) as [p|e] eqn:G; [|discriminate C]. cbn [rbind] in C. apply check_same in C.
  exists p. constructor; [exact G|exact C].
Qed.

(** ** Surfaces *)
Lemma axes_two c d1 d2 a1 a2 p1 p2 : NoDup (map fst c) -> nth_error c a1 = Some (d1, p1) -> nth_error c a2 = Some (d2, p2) ->
  a1 < a2 -> axes_of c [d1; d2] = [a1; a2].
Proof.
  intros ND N1 N2 L. assert (L2 : a2 < length c) by (apply nth_error_Some; congruence).
  assert (P : forall a, a < length c -> (match nth_error (map fst c) a with Some v => existsb (String.eqb v) [d1; d2] | None => false end)
             = ((a =? a1)%nat || (a =? a2)%nat)).
  { intros a La. destruct (nth_error (map fst c) a) as [v|] eqn:E; [|apply nth_error_None in E; rewrite map_length in E; lia].
    assert (M1 : nth_error (map fst c) a1 = Some d1) by (rewrite nth_error_map, N1; reflexivity).
    assert (M2 : nth_error (map fst c) a2 = Some d2) by (rewrite nth_error_map, N2; reflexivity).
    assert (K : forall b d, nth_error (map fst c) b = Some d -> (v =? d)%string = (a =? b)%nat).
    { intros b d Mb. destruct (Nat.eqb_spec a b) as [->|NE].
      - rewrite E in Mb. injection Mb as ->. apply String.eqb_refl.
      - apply String.eqb_neq. intros ->. apply NE. rewrite NoDup_nth_error in ND. apply ND; [rewrite map_length; lia|congruence]. }
    cbn [existsb]. rewrite (K a1 d1 M1), (K a2 d2 M2), Bool.orb_false_r. reflexivity. }
  unfold axes_of. rewrite (filter_ext_in _ (fun a => ((a =? a1)%nat || (a =? a2)%nat))).
  2:{ intros a I. apply in_seq in I. apply P. lia. }
  generalize (length c) L2. intros n Ln. clear -L Ln.
  assert (Q : forall m b, filter (fun a => ((a =? a1)%nat || (a =? a2)%nat)) (seq b m) =
     (if (b <=? a1)%nat && (a1 <? b + m)%nat then [a1] else []) ++ (if (b <=? a2)%nat && (a2 <? b + m)%nat then [a2] else [])).
  { induction m as [|m IH]; intro b; cbn [seq filter].
    - destruct (Nat.leb_spec b a1), (Nat.ltb_spec a1 (b + 0)), (Nat.leb_spec b a2), (Nat.ltb_spec a2 (b + 0)); try lia; reflexivity.
    - rewrite IH. destruct (Nat.eqb_spec b a1), (Nat.eqb_spec b a2); cbn [orb];
      destruct (Nat.leb_spec b a1), (Nat.ltb_spec a1 (b + S m)), (Nat.leb_spec b a2), (Nat.ltb_spec a2 (b + S m)),
        (Nat.leb_spec (S b) a1), (Nat.ltb_spec a1 (S b + m)), (Nat.leb_spec (S b) a2), (Nat.ltb_spec a2 (S b + m)); try lia; cbn; subst; reflexivity. }
  rewrite Q. destruct (Nat.leb_spec 0 a1), (Nat.ltb_spec a1 (0 + n)), (Nat.leb_spec 0 a2), (Nat.ltb_spec a2 (0 + n)); try lia. reflexivity.
Qed.
Lemma axes_comm c d1 d2 : axes_of c [d1; d2] = axes_of c [d2; d1].
Proof.
  apply filter_ext. intro a. destruct (nth_error _ a); [|reflexivity]. cbn [existsb]. rewrite !Bool.orb_false_r. apply Bool.orb_comm.
Qed.
Lemma index_at x l k : NoDup l -> nth_error l k = Some x -> index_of x l = Ok k.
Proof.
  intros ND N. destruct (index_of_ok x l (nth_error_In _ _ N)) as (k' & E & L & G). rewrite E. f_equal.
  rewrite NoDup_nth_error in ND. apply ND; [exact L|congruence].
Qed.
Lemma surface_items s d1 d2 a1 a2 p1 p2 : wf_spectra s -> nth_error (s_cfg s) a1 = Some (d1, p1) ->
  nth_error (s_cfg s) a2 = Some (d2, p2) -> a1 < a2 -> length (s_cfg s) <= 3 ->
  exists a, surface d1 d2 s = Ok a /\ surface d2 d1 s = Ok a /\
    items2 a = Ok (map (fun i => map (fun j => counts2 s d1 d2 i j) (seq 0 (Z.to_nat (sp_bins p2)))) (seq 0 (Z.to_nat (sp_bins p1)))).
Proof.
  intros W N1 N2 L L3. pose proof W as [[ND FA] C].
  assert (NE : d1 <> d2).
  { intros ->. assert (M1 : nth_error (map fst (s_cfg s)) a1 = Some d2) by (rewrite nth_error_map, N1; reflexivity).
    assert (M2 : nth_error (map fst (s_cfg s)) a2 = Some d2) by (rewrite nth_error_map, N2; reflexivity).
    assert (a1 = a2); [|lia]. rewrite NoDup_nth_error in ND. apply ND; [|congruence]. apply nth_error_Some. congruence. }
  assert (I1 : In d1 (map fst (s_cfg s))) by (apply nth_error_In in N1; apply (in_map fst) in N1; exact N1).
  assert (I2 : In d2 (map fst (s_cfg s))) by (apply nth_error_In in N2; apply (in_map fst) in N2; exact N2).
  destruct (surface_partial_l s d1 d2 ND C NE I1 I2 L3) as (a & E & M & _).
  exists a. split; [exact E|]. split.
  - (* the loop skips the same axes *)
    assert (G1 : get_index (s_cfg s) d1 = Ok a1).
    { unfold get_index, get_pars, dkeys. apply index_at; [exact ND|]. rewrite nth_error_map, N1. reflexivity. }
    assert (G2 : get_index (s_cfg s) d2 = Ok a2).
    { unfold get_index, get_pars, dkeys. apply index_at; [exact ND|]. rewrite nth_error_map, N2. reflexivity. }
    unfold surface in E |- *. rewrite G1, G2 in E |- *. cbn [rbind] in E |- *.
    destruct (_ <? a1)%nat, (_ <? a2)%nat; try discriminate E. rewrite <- E. generalize (seq 0 (length (get_pars (s_cfg s)))) (s_data s).
    intro l. induction l as [|i l IH]; intro x; cbn [surface_loop]; [reflexivity|].
    rewrite (Bool.andb_comm (negb (i =? a2)%nat)). destruct (_ && _); [|apply IH].
    destruct (asum_axis (Z.of_nat i) x); [apply IH|reflexivity].
  - rewrite (axes_two _ _ _ _ _ _ _ ND N1 N2 L) in M. destruct M as [Sh V]. cbn [map] in Sh.
    rewrite (nth_shape _ _ _ _ C N1), (nth_shape _ _ _ _ C N2) in Sh.
    unfold items2. rewrite Sh. f_equal. apply map_ext_in. intros i Ii. apply map_ext_in. intros j Ij.
    apply in_seq in Ii. apply in_seq in Ij.
    rewrite (counts2_marginal s d1 d2 a1 a2 p1 p2) by assumption. apply V. rewrite Sh. repeat constructor; lia.
Qed.
(** ROOT two-dimensional: row and column views, whichever axis is which. *)
Definition rc_at (flip : bool) (h : hist2) (r c : Z) : Qc := if flip then h2_at h c r else h2_at h r c.
Definition rbins (flip : bool) (h : hist2) : Z := if flip then h2_ybins h else h2_xbins h.
Definition cbins (flip : bool) (h : hist2) : Z := if flip then h2_xbins h else h2_ybins h.
Definition same_axes (h h' : hist2) : Prop :=
  h2_xbins h = h2_xbins h' /\ h2_xlow h = h2_xlow h' /\ h2_xhigh h = h2_xhigh h' /\
  h2_ybins h = h2_ybins h' /\ h2_ylow h = h2_ylow h' /\ h2_yhigh h = h2_yhigh h'.
Lemma same_axes_trans a b c : same_axes a b -> same_axes b c -> same_axes a c.
Proof. unfold same_axes. intuition congruence. Qed.
Lemma clamp_in b n : (0 <= b <= n + 1)%Z -> clamp b n = b.
Proof. unfold clamp. lia. Qed.
Lemma set_one_at flip r c v h : (0 <= r <= rbins flip h + 1)%Z -> (0 <= c <= cbins flip h + 1)%Z ->
  let h' := (if flip then h2_set c r v h else h2_set r c v h) in
  same_axes h' h /\ forall x y, rc_at flip h' x y = if (x =? r)%Z && (y =? c)%Z then v else rc_at flip h x y.
Proof.
  intros R C h'. split; [destruct flip; repeat split|]. intros x y. unfold h', rc_at, rbins, cbins in *.
  destruct flip; cbn [h2_set h2_at]; rewrite (clamp_in r), (clamp_in c) by assumption; [|reflexivity].
  rewrite Bool.andb_comm. reflexivity.
Qed.
Lemma set_row_at flip r l : forall c h, (0 <= r <= rbins flip h + 1)%Z -> (0 <= c)%Z -> (c + Z.of_nat (length l) <= cbins flip h + 2)%Z ->
  let h' := set_row flip r c l h in
  same_axes h' h /\
  (forall k, k < length l -> rc_at flip h' r (c + Z.of_nat k) = nth k l 0%Qc) /\
  (forall x y, x <> r \/ (y < c)%Z \/ (c + Z.of_nat (length l) <= y)%Z -> rc_at flip h' x y = rc_at flip h x y).
Proof.
  induction l as [|v l IH]; intros c h R C L; cbn [set_row].
  - split; [repeat split|]. split; [intros k K; cbn in K; lia|reflexivity].
  - cbn [length] in L. set (h1 := if flip then h2_set c r v h else h2_set r c v h).
    destruct (set_one_at flip r c v h R) as [A V]; [lia|]. fold h1 in A, V.
    assert (RB : rbins flip h1 = rbins flip h /\ cbins flip h1 = cbins flip h).
    { unfold rbins, cbins. destruct A as (A1 & _ & _ & A2 & _). destruct flip; auto. }
    destruct RB as [RB CB].
    destruct (IH (c + 1)%Z h1) as (A' & G1 & G2); [rewrite RB; exact R|lia|rewrite CB; lia|].
    split; [exact (same_axes_trans _ _ _ A' A)|]. split.
    + intros [|k] K.
      * rewrite G2 by lia. rewrite V, Z.add_0_r, !Z.eqb_refl. reflexivity.
      * cbn [length] in K. replace (c + Z.of_nat (S k))%Z with (c + 1 + Z.of_nat k)%Z by lia. cbn [nth]. apply G1. lia.
    + intros x y X. cbn [length] in X. rewrite G2 by lia. rewrite V.
      destruct (Z.eqb_spec x r), (Z.eqb_spec y c); cbn [andb]; try reflexivity. lia.
Qed.
Lemma set_rows_at flip m ls : forall r h, Forall (fun l => length l = m) ls -> (0 <= r)%Z ->
  (r + Z.of_nat (length ls) <= rbins flip h + 2)%Z -> (1 + Z.of_nat m <= cbins flip h + 2)%Z ->
  let h' := set_rows flip r ls h in
  same_axes h' h /\
  (forall i j, i < length ls -> j < m -> rc_at flip h' (r + Z.of_nat i) (1 + Z.of_nat j) = nth j (nth i ls []) 0%Qc) /\
  (forall x y, (x < r)%Z \/ (r + Z.of_nat (length ls) <= x)%Z \/ (y < 1)%Z \/ (1 + Z.of_nat m <= y)%Z -> rc_at flip h' x y = rc_at flip h x y).
Proof.
  induction ls as [|l ls IH]; intros r h F R L M; cbn [set_rows].
  - split; [repeat split|]. split; [intros i j I; cbn in I; lia|reflexivity].
  - inversion F as [|? ? F1 F2]; subst. cbn [length] in L. set (h1 := set_row flip r 1 l h).
    destruct (set_row_at flip r l 1 h) as (A & V1 & V2); [lia|lia|lia|]. fold h1 in A, V1, V2.
    assert (RB : rbins flip h1 = rbins flip h /\ cbins flip h1 = cbins flip h).
    { unfold rbins, cbins. destruct A as (A1 & _ & _ & A2 & _). destruct flip; auto. }
    destruct RB as [RB CB].
    destruct (IH (r + 1)%Z h1 F2) as (A' & G1 & G2); [lia|rewrite RB; lia|rewrite CB; lia|].
    split; [exact (same_axes_trans _ _ _ A' A)|]. split.
    + intros [|i] j I J.
      * rewrite G2 by lia. rewrite Z.add_0_r. cbn [nth]. apply V1. exact J.
      * cbn [length] in I. replace (r + Z.of_nat (S i))%Z with (r + 1 + Z.of_nat i)%Z by lia. cbn [nth]. apply G1; lia.
    + intros x y X. cbn [length] in X. rewrite G2 by lia. apply V2. lia.
Qed.
(** Filling a histogram from a table, in either orientation. *)
Lemma set_rows_shows (flip : bool) (px py : spar) (f : nat -> nat -> Qc) : (0 < sp_bins px)%Z -> (0 < sp_bins py)%Z ->
  let pr := if flip then py else px in
  let pc := if flip then px else py in
  shows2 (set_rows flip 1 (map (fun i => map (fun j => f i j) (seq 0 (Z.to_nat (sp_bins pc)))) (seq 0 (Z.to_nat (sp_bins pr))))
    (new_h2 (sp_bins px) (sp_low px) (sp_high px) (sp_bins py) (sp_low py) (sp_high py)))
    px py (fun i j => if flip then f j i else f i j).
Proof.
  intros PX PY pr pc. set (ls := map _ _). set (h0 := new_h2 _ _ _ _ _ _).
  assert (Pr : (0 < sp_bins pr)%Z) by (unfold pr; destruct flip; assumption).
  assert (Pc : (0 < sp_bins pc)%Z) by (unfold pc; destruct flip; assumption).
  assert (Ll : length ls = Z.to_nat (sp_bins pr)) by (unfold ls; rewrite map_length, seq_length; reflexivity).
  assert (R0 : rbins flip h0 = sp_bins pr) by (unfold rbins, h0, pr; destruct flip; reflexivity).
  assert (C0 : cbins flip h0 = sp_bins pc) by (unfold cbins, h0, pc; destruct flip; reflexivity).
  destruct (set_rows_at flip (Z.to_nat (sp_bins pc)) ls 1 h0) as (A & G1 & G2).
  - apply Forall_forall. intros l I. apply in_map_iff in I as (i & <- & _). rewrite map_length, seq_length. reflexivity.
  - lia.
  - rewrite Ll, R0. lia.
  - rewrite C0. lia.
  - destruct A as (A1 & A2 & A3 & A4 & A5 & A6). unfold h0 in A1, A2, A3, A4, A5, A6. cbn [new_h2 h2_xbins h2_xlow h2_xhigh h2_ybins h2_ylow h2_yhigh] in *.
    fold h0 in A1, A2, A3, A4, A5, A6.
    split; [exact A1|]. split; [exact A2|]. split; [exact A3|]. split; [exact A4|]. split; [exact A5|]. split; [exact A6|].
    set (h' := set_rows flip 1 ls h0) in *. clearbody h'.
    assert (V : forall i j, i < Z.to_nat (sp_bins pr) -> j < Z.to_nat (sp_bins pc) -> rc_at flip h' (1 + Z.of_nat i) (1 + Z.of_nat j) = f i j).
    { intros i j I J. rewrite G1 by (rewrite ?Ll; assumption). unfold ls. rewrite (nth_map_seq _ _ _ _ I). apply (nth_map_seq _ _ _ _ J). }
    assert (O : forall x y, rc_at flip h0 x y = 0%Qc) by (intros x y; unfold rc_at, h0; destruct flip; reflexivity).
    unfold rc_at, pr, pc in *. rewrite Ll in G2.
    clear - V G2 O PX PY. split.
    + intros i j I J. rewrite !(Z.add_comm _ 1). destruct flip; apply V; lia.
    + intros x y H. destruct flip; [rewrite (G2 y x) by lia|rewrite (G2 x y) by lia]; apply O.
Qed.
Lemma root_surface_l s d1 d2 a1 a2 p1 p2 : wf_spectra s -> nth_error (s_cfg s) a1 = Some (d1, p1) ->
  nth_error (s_cfg s) a2 = Some (d2, p2) -> a1 < a2 -> length (s_cfg s) <= 3 ->
  exists h, root_surface s d1 d2 = Ok h /\ shows2 h p1 p2 (counts2 s d1 d2).
Proof.
  intros W N1 N2 L L3. destruct (surface_items s d1 d2 a1 a2 p1 p2 W N1 N2 L L3) as (a & E & _ & I).
  destruct (nth_axis_wf _ _ _ _ W N1) as [_ B1]. destruct (nth_axis_wf _ _ _ _ W N2) as [_ B2].
  pose proof (proj1 (proj1 W)) as ND. unfold root_surface.
  rewrite (nth_get_par _ _ _ _ ND N1). cbn [rbind]. rewrite (nth_get_par _ _ _ _ ND N2). cbn [rbind].
  rewrite E. cbn [rbind]. rewrite I. cbn [rbind]. eexists. split; [reflexivity|].
  exact (set_rows_shows false p1 p2 (counts2 s d1 d2) B1 B2).
Qed.
(** The other way round, with as many bins on both axes: the picture is transposed. *)
Lemma root_surface_swap_l s d1 d2 a1 a2 p1 p2 : wf_spectra s -> nth_error (s_cfg s) a1 = Some (d1, p1) ->
  nth_error (s_cfg s) a2 = Some (d2, p2) -> a2 < a1 -> length (s_cfg s) <= 3 -> sp_bins p1 = sp_bins p2 ->
  exists h, root_surface s d1 d2 = Ok h /\ shows2 h p1 p2 (fun i j => counts2 s d1 d2 j i).
Proof.
  intros W N1 N2 L L3 EB. destruct (surface_items s d2 d1 a2 a1 p2 p1 W N2 N1 L L3) as (a & _ & E & I).
  destruct (nth_axis_wf _ _ _ _ W N1) as [_ B1]. destruct (nth_axis_wf _ _ _ _ W N2) as [_ B2].
  pose proof (proj1 (proj1 W)) as ND. unfold root_surface.
  rewrite (nth_get_par _ _ _ _ ND N1). cbn [rbind]. rewrite (nth_get_par _ _ _ _ ND N2). cbn [rbind].
  rewrite E. cbn [rbind]. rewrite I. cbn [rbind]. eexists. split; [reflexivity|].
  rewrite EB at 1. rewrite <- EB at 1.
  pose proof (set_rows_shows false p1 p2 (fun i j => counts2 s d2 d1 i j) B1 B2) as S. cbn beta iota zeta in S.
  unfold shows2 in S |- *. rewrite <- EB in S |- *. 
  destruct S as (S1 & S2 & S3 & S4 & S5 & S6 & S7 & S8). repeat (split; [assumption|]).
  split; [|exact S8]. intros i j Hi Hj. rewrite (counts2_swap s d1 d2). apply S7; assumption.
Qed.
Lemma mpl_surface_l s d1 d2 p1 p2 : wf_spectra s -> In (d1, p1) (s_cfg s) -> In (d2, p2) (s_cfg s) -> d1 <> d2 -> length (s_cfg s) <= 3 ->
  exists m px py, mpl_surface s d1 d2 = Ok m /\
    (m_xdim m = d1 /\ m_ydim m = d2 \/ m_xdim m = d2 /\ m_ydim m = d1) /\
    In (m_xdim m, px) (s_cfg s) /\ In (m_ydim m, py) (s_cfg s) /\ m_x m = centres px /\ m_y m = centres py /\
    m_rows m = map (fun j => map (fun i => counts2 s (m_xdim m) (m_ydim m) i j) (seq 0 (Z.to_nat (sp_bins px))))
                   (seq 0 (Z.to_nat (sp_bins py))).
Proof.
  intros W I1 I2 NE L3. destruct (In_nth_error _ _ I1) as (a1 & N1). destruct (In_nth_error _ _ I2) as (a2 & N2).
  pose proof (proj1 (proj1 W)) as ND.
  assert (G1 : get_index (s_cfg s) d1 = Ok a1).
  { unfold get_index, get_pars, dkeys. apply index_at; [exact ND|]. rewrite nth_error_map, N1. reflexivity. }
  assert (G2 : get_index (s_cfg s) d2 = Ok a2).
  { unfold get_index, get_pars, dkeys. apply index_at; [exact ND|]. rewrite nth_error_map, N2. reflexivity. }
  assert (NA : a1 <> a2) by (intros ->; congruence).
  unfold mpl_surface. rewrite G1, G2. cbn [rbind]. destruct (Nat.ltb_spec a1 a2) as [L|L].
  - destruct (surface_items s d1 d2 a1 a2 p1 p2 W N1 N2 L L3) as (a & E & _ & I).
    rewrite (produce_axis_l _ _ _ _ W N2). cbn [rbind]. rewrite (produce_axis_l _ _ _ _ W N1). cbn [rbind].
    rewrite E. cbn [rbind]. rewrite I. cbn [rbind]. eexists. exists p2, p1. split; [reflexivity|]. cbn [m_xdim m_ydim m_x m_y m_rows].
    split; [right; auto|]. split; [exact I2|]. split; [exact I1|]. split; [reflexivity|]. split; [reflexivity|].
    apply map_ext. intro j. apply map_ext. intro i. apply counts2_swap.
  - assert (L' : a2 < a1) by lia. destruct (surface_items s d2 d1 a2 a1 p2 p1 W N2 N1 L' L3) as (a & _ & E & I).
    rewrite (produce_axis_l _ _ _ _ W N1). cbn [rbind]. rewrite (produce_axis_l _ _ _ _ W N2). cbn [rbind].
    rewrite E. cbn [rbind]. rewrite I. cbn [rbind]. eexists. exists p1, p2. split; [reflexivity|]. cbn [m_xdim m_ydim m_x m_y m_rows].
    split; [left; auto|]. split; [exact I1|]. split; [exact I2|]. split; [reflexivity|]. split; [reflexivity|].
    apply map_ext. intro j. apply map_ext. intro i. apply counts2_swap.
Qed.
Lemma same_edges p q : wf_axis p -> wf_axis q -> sp_bins p = sp_bins q ->
  map (fun k => edge p (Z.of_nat k)) (seq 0 (S (Z.to_nat (sp_bins p)))) =
  map (fun k => edge q (Z.of_nat k)) (seq 0 (S (Z.to_nat (sp_bins q)))) -> p = q.
Proof.
  intros Wp Wq EB E. rewrite <- EB in E.
  assert (V : forall k, k < S (Z.to_nat (sp_bins p)) -> edge p (Z.of_nat k) = edge q (Z.of_nat k)).
  { intros k K. apply (f_equal (fun l => nth k l 0%Qc)) in E. rewrite !nth_map_seq in E by exact K. exact E. }
  apply spar_eq; [| |exact EB].
  - pose proof (V 0 ltac:(lia)) as H. unfold edge in H. change (Z.of_nat 0) with 0%Z in H. rewrite zq_0, !Qcmult_0_l, !Qcplus_0_r in H. exact H.
  - pose proof (V (Z.to_nat (sp_bins p)) ltac:(lia)) as H. destruct Wp as [Wp1 Wp2]. unfold edge in H.
    rewrite Z2Nat.id in H by lia. rewrite EB in H at 2. rewrite (width_total p (conj Wp1 Wp2)), (width_total q Wq) in H.
    qlra.
Qed.

(** Spectra.fill (C03-C05). *)
From Coq Require Import Lia Permutation.
From Verif Require Import Model.Base Model.PyStr Model.NDArray Model.Param Model.Config Model.Spectra.
From Verif Require Import Spec.AxisSpec Spec.ArraySpec Spec.SpectraSpec.
From Verif Require Import Proofs.QcLemmas Proofs.NDArrayLemmas Proofs.ParamLemmas Proofs.DictLemmas.

Lemma check_unknown_iff pars kws :
  (fill_check_unknown pars kws = Ok tt /\ forall k, In k kws -> In k pars) \/
  (fill_check_unknown pars kws = Err EException /\ exists k, In k kws /\ ~ In k pars).
Proof.
  induction kws as [|k r IH]; cbn; [left; split; [reflexivity|intros _ []]|].
  destruct (str_in k pars) eqn:E.
  - apply str_in_iff in E. destruct IH as [[H1 H2]|[H1 (k' & H2 & H3)]].
    + left; split; [exact H1|]. intros k' [->|H]; auto.
    + right; split; [exact H1|]. exists k'; auto.
  - apply str_in_false in E. right; split; [reflexivity|]. exists k; auto.
Qed.
Lemma check_missing_iff kws pars :
  (fill_check_missing kws pars = Ok tt /\ forall k, In k pars -> In k kws) \/
  (fill_check_missing kws pars = Err EException /\ exists k, In k pars /\ ~ In k kws).
Proof.
  induction pars as [|k r IH]; cbn; [left; split; [reflexivity|intros _ []]|].
  destruct (str_in k kws) eqn:E.
  - apply str_in_iff in E. destruct IH as [[H1 H2]|[H1 (k' & H2 & H3)]].
    + left; split; [exact H1|]. intros k' [->|H]; auto.
    + right; split; [exact H1|]. exists k'; auto.
  - apply str_in_false in E. right; split; [reflexivity|]. exists k; auto.
Qed.
Definition in_range (kw : dict Qc) (vp : string * spar) : Prop :=
  exists x, dget (fst vp) kw = Some x /\ (sp_low (snd vp) <= x)%Qc /\ (x < sp_high (snd vp))%Qc.
Definition out_of_range (kw : dict Qc) (vp : string * spar) : Prop :=
  exists x, dget (fst vp) kw = Some x /\ ((x < sp_low (snd vp))%Qc \/ (sp_high (snd vp) <= x)%Qc).
Lemma check_range_iff kw c :
  (forall k, In k (map fst c) -> In k (dkeys kw)) ->
  (fill_check_range kw c = Ok tt /\ Forall (in_range kw) c) \/
  (fill_check_range kw c = Err EValueError /\ Exists (out_of_range kw) c).
Proof.
  induction c as [|[v p] r IH]; cbn [fill_check_range map fst]; intro K.
  - left; split; [reflexivity|constructor].
  - destruct (key_dget v kw) as (x & Hx); [apply K; left; reflexivity|].
    assert (E : dlookup v kw = Ok x) by (apply dlookup_ok, Hx). rewrite E. cbn [rbind].
    destruct IH as [[H1 H2]|[H1 H2]]; [intros; apply K; right; assumption| |];
      destruct (qleP (sp_low p) x) as [A|A]; destruct (qltP x (sp_high p)) as [B|B]; cbn [andb].
    all: try (right; split; [reflexivity|left; exists x; cbn; split; [exact Hx|]]; qlra).
    + left; split; [exact H1|]. constructor; [|exact H2]. exists x; auto.
    + right; split; [reflexivity|]. left. exists x; cbn. split; [exact Hx|]. right. apply Qcnot_lt_le, B.
    + right; split; [reflexivity|]. left. exists x; cbn. split; [exact Hx|]. left. apply Qcnot_le_lt, A.
    + right; split; [reflexivity|]. left. exists x; cbn. split; [exact Hx|]. left. apply Qcnot_le_lt, A.
    + right; split; [exact H1|]. right. exact H2.
    + right; split; [reflexivity|]. left. exists x; cbn. split; [exact Hx|]. right. apply Qcnot_lt_le, B.
    + right; split; [reflexivity|]. left. exists x; cbn. split; [exact Hx|]. left. apply Qcnot_le_lt, A.
    + right; split; [reflexivity|]. left. exists x; cbn. split; [exact Hx|]. left. apply Qcnot_le_lt, A.
Qed.

(** The fill formula is the bin that contains the value. *)
Lemma fill_bin_ok p x :
  wf_axis p -> (sp_low p <= x)%Qc -> (x < sp_high p)%Qc ->
  exists i, fill_bin p x = Ok (Z.of_nat i) /\ i < Z.to_nat (sp_bins p) /\ in_bin p (Z.of_nat i) x.
Proof.
  intros W L H. pose proof W as [W1 W2].
  set (k := qfloor ((x - sp_low p) / bin_width p)%Qc).
  pose proof (quot_floor_bin p x W) as B. fold k in B.
  pose proof (in_bin_range _ _ _ W B L H) as R.
  assert (N1 : (sp_high p - sp_low p)%Qc <> 0%Qc) by (apply Qc_pos_neq; qlra).
  assert (N2 : zq (sp_bins p) <> 0%Qc) by (apply Qc_pos_neq, zq_pos, W2).
  exists (Z.to_nat k). rewrite Z2Nat.id by lia. split; [|split; [lia|exact B]].
  unfold fill_bin. rewrite qdiv_ok by exact N1. cbn [rbind]. f_equal.
  replace ((x - sp_low p) / (sp_high p - sp_low p) * zq (sp_bins p))%Qc
    with ((x - sp_low p) / bin_width p)%Qc.
  - rewrite qtrunc_nonneg by (apply quot_nonneg; assumption). reflexivity.
  - unfold bin_width. field. split; assumption.
Qed.
Lemma fill_bins_ok kw c :
  Forall (fun kp => wf_axis (snd kp)) c -> Forall (in_range kw) c ->
  exists idx, fill_bins kw c = Ok (map Z.of_nat idx) /\ valid_idx (cfg_shape c) idx /\ point_in_bin c kw idx.
Proof.
  induction c as [|[v p] r IH]; intros W R.
  - exists []. split; [reflexivity|]. split; constructor.
  - inversion W as [|? ? W1 W2]; subst. inversion R as [|? ? R1 R2]; subst.
    destruct (IH W2 R2) as (idx & E & V & B). destruct R1 as (x & Hx & L & H). cbn [fst snd] in *.
    destruct (fill_bin_ok p x W1 L H) as (i & Ei & Hi & Bi).
    exists (i :: idx). cbn [fill_bins]. assert (Ex : dlookup v kw = Ok x) by (apply dlookup_ok, Hx).
    rewrite Ex. cbn [rbind]. rewrite Ei. cbn [rbind]. rewrite E. cbn [rbind]. split; [reflexivity|].
    split; constructor; auto. exists x; auto.
Qed.
Lemma norm_indices_ok sh idx : valid_idx sh idx -> norm_indices (map Z.of_nat idx) sh = Ok idx.
Proof.
  unfold valid_idx. induction 1 as [|i n idx sh Hi H IH]; [reflexivity|].
  cbn [map norm_indices]. unfold norm_index.
  destruct (Z.ltb_spec (Z.of_nat i) 0); [lia|].
  destruct (Z.leb_spec 0 (Z.of_nat i)); [|lia]. destruct (Z.ltb_spec (Z.of_nat i) (Z.of_nat n)); [|lia].
  cbn [andb rbind]. rewrite IH. cbn [rbind]. rewrite Nat2Z.id. reflexivity.
Qed.

Lemma fill_ok_data s kw w :
  wf_spectra s -> valid_point (s_cfg s) kw ->
  exists idx, valid_idx (ashape (s_data s)) idx /\ point_in_bin (s_cfg s) kw idx /\
    fill w kw s = (with_data s (aset (s_data s) idx (aget (s_data s) idx + w)%Qc), None).
Proof.
  intros [[ND W] C] [K R].
  destruct (fill_bins_ok kw (s_cfg s) W R) as (idx & E & V & B).
  assert (M : forall k, In k (map fst (s_cfg s)) -> In k (dkeys kw)).
  { intros k Hk. apply in_map_iff in Hk as (vp & <- & Hv).
    rewrite Forall_forall in R. destruct (R vp Hv) as (x & Hx & _). eapply dget_key, Hx. }
  exists idx. rewrite C. split; [exact V|]. split; [exact B|].
  unfold fill, fill_data.
  destruct (check_unknown_iff (get_pars (s_cfg s)) (dkeys kw)) as [[H1 _]|[_ (k & H1 & H2)]];
    [|exfalso; apply H2, K, H1].
  rewrite H1. cbn [rbind].
  destruct (check_missing_iff (dkeys kw) (get_pars (s_cfg s))) as [[H2 _]|[_ (k & H2 & H3)]];
    [|exfalso; apply H3, M, H2].
  rewrite H2. cbn [rbind].
  destruct (check_range_iff kw (s_cfg s) M) as [[H3 _]|[_ H3]].
  2:{ exfalso. apply Exists_exists in H3 as (vp & Hv & x & Hx & O).
      rewrite Forall_forall in R. destruct (R vp Hv) as (y & Hy & L & H).
      assert (x = y) by congruence. subst. destruct O; qlra. }
  rewrite H3. cbn [rbind]. rewrite E. cbn [rbind]. unfold aadd_at.
  rewrite C, norm_indices_ok by exact V. reflexivity.
Qed.

Lemma point_bin_unique c kw idx idx' :
  Forall (fun kp => wf_axis (snd kp)) c ->
  point_in_bin c kw idx -> point_in_bin c kw idx' -> idx = idx'.
Proof.
  unfold point_in_bin. intros W H. revert idx'. induction H as [|vp i c idx Hi H IH]; intros idx' H'.
  - inversion H'; reflexivity.
  - inversion H' as [|? j ? idx2 Hj H2]; subst. inversion W; subst. f_equal.
    + destruct Hi as (x & Hx & Bx), Hj as (y & Hy & By). assert (x = y) by congruence. subst.
      apply Nat2Z.inj. eapply in_bin_unique; eassumption.
    + apply IH; assumption.
Qed.

Lemma fill_success_l s kw w :
  wf_spectra s -> valid_point (s_cfg s) kw ->
  exists s' idx, fill w kw s = (s', None) /\ same_meta s s' /\
    valid_idx (ashape (s_data s)) idx /\ point_in_bin (s_cfg s) kw idx /\
    (forall j, point_in_bin (s_cfg s) kw j -> j = idx) /\
    aget (s_data s') idx = (aget (s_data s) idx + w)%Qc /\
    (forall j, j <> idx -> aget (s_data s') j = aget (s_data s) j).
Proof.
  intros W V. destruct (fill_ok_data s kw w W V) as (idx & Vi & B & E).
  exists (with_data s (aset (s_data s) idx (aget (s_data s) idx + w)%Qc)), idx.
  split; [exact E|]. split; [repeat split|]. split; [exact Vi|]. split; [exact B|].
  split; [|cbn; split].
  - intros j Hj. eapply point_bin_unique; [apply W|exact Hj|exact B].
  - rewrite idx_eqb_refl. reflexivity.
  - intros j N. rewrite idx_eqb_neq by exact N. reflexivity.
Qed.

(** Rejections. *)
Lemma fill_unknown_l s kw w k :
  In k (map fst kw) -> ~ In k (map fst (s_cfg s)) -> fill w kw s = (s, Some EException).
Proof.
  intros H1 H2. unfold fill, fill_data.
  destruct (check_unknown_iff (get_pars (s_cfg s)) (dkeys kw)) as [[_ H]|[H _]].
  - exfalso. apply H2. apply H, H1.
  - rewrite H. reflexivity.
Qed.
Lemma fill_missing_l s kw w k :
  In k (map fst (s_cfg s)) -> ~ In k (map fst kw) -> fill w kw s = (s, Some EException).
Proof.
  intros H1 H2. unfold fill, fill_data.
  destruct (check_unknown_iff (get_pars (s_cfg s)) (dkeys kw)) as [[H _]|[H _]]; rewrite H; [|reflexivity].
  cbn [rbind].
  destruct (check_missing_iff (dkeys kw) (get_pars (s_cfg s))) as [[_ H']|[H' _]].
  - exfalso. apply H2. apply H', H1.
  - rewrite H'. reflexivity.
Qed.
Lemma fill_range_l s kw w :
  (forall k, In k (map fst kw) <-> In k (map fst (s_cfg s))) ->
  (exists v p x, In (v, p) (s_cfg s) /\ dget v kw = Some x /\ ((x < sp_low p)%Qc \/ (sp_high p <= x)%Qc)) ->
  fill w kw s = (s, Some EValueError).
Proof.
  intros K (v & p & x & Hv & Hx & O). unfold fill, fill_data.
  destruct (check_unknown_iff (get_pars (s_cfg s)) (dkeys kw)) as [[H _]|[_ (k & H1 & H2)]];
    [rewrite H|exfalso; apply H2, K, H1].
  cbn [rbind].
  destruct (check_missing_iff (dkeys kw) (get_pars (s_cfg s))) as [[H' _]|[_ (k & H1 & H2)]];
    [rewrite H'|exfalso; apply H2, K, H1].
  cbn [rbind].
  destruct (check_range_iff kw (s_cfg s)) as [[_ R]|[R _]]; [intros k; apply K| |rewrite R; reflexivity].
  exfalso. rewrite Forall_forall in R. destruct (R _ Hv) as (y & Hy & L & U). cbn in *.
  assert (x = y) by congruence. subst. destruct O; qlra.
Qed.
(** Every call on a well-formed spectrum either succeeds on a valid point or is rejected
    without effect. *)
Lemma fill_decide s kw w :
  wf_spectra s ->
  (valid_point (s_cfg s) kw /\ snd (fill w kw s) = None) \/
  (~ valid_point (s_cfg s) kw /\ fst (fill w kw s) = s /\
   (snd (fill w kw s) = Some EException \/ snd (fill w kw s) = Some EValueError)).
Proof.
  intro W.
  destruct (check_unknown_iff (get_pars (s_cfg s)) (dkeys kw)) as [[H1 K1]|[_ (k & H1 & H2)]].
  2:{ right. split; [intros [K _]; apply H2, K, H1|]. rewrite (fill_unknown_l s kw w k H1 H2). auto. }
  destruct (check_missing_iff (dkeys kw) (get_pars (s_cfg s))) as [[H2 K2]|[_ (k & H2 & H3)]].
  2:{ right. rewrite (fill_missing_l s kw w k H2 H3). split; [|auto].
      intros [_ R]. apply H3. apply in_map_iff in H2 as (vp & <- & Hv).
      rewrite Forall_forall in R. destruct (R vp Hv) as (x & Hx & _). eapply dget_key, Hx. }
  destruct (check_range_iff kw (s_cfg s)) as [[H3 R]|[H3 R]]; [exact K2| |].
  - left. assert (V : valid_point (s_cfg s) kw) by (split; [exact K1|exact R]).
    split; [exact V|]. destruct (fill_ok_data s kw w W V) as (idx & _ & _ & E). rewrite E. reflexivity.
  - right. rewrite (fill_range_l s kw w); [|intro k; split; [apply K1|apply K2]|].
    + split; [|auto]. intros [_ R']. apply Exists_exists in R as (vp & Hv & x & Hx & O).
      rewrite Forall_forall in R'. destruct (R' vp Hv) as (y & Hy & L & U).
      assert (x = y) by congruence. subst. destruct O; qlra.
    + apply Exists_exists in R as (vp & Hv & x & Hx & O). exists (fst vp), (snd vp), x.
      rewrite <- surjective_pairing. auto.
Qed.
Lemma fill_rejected_l s kw w :
  wf_spectra s -> ~ valid_point (s_cfg s) kw ->
  fst (fill w kw s) = s /\ (snd (fill w kw s) = Some EException \/ snd (fill w kw s) = Some EValueError).
Proof. intros W N. destruct (fill_decide s kw w W) as [[V _]|[_ H]]; [contradiction|exact H]. Qed.

(** ** Histories *)
Lemma accepted_iff c kw : accepted c kw = true <-> valid_point c kw.
Proof.
  unfold accepted, valid_point. rewrite andb_true_iff, !forallb_forall, Forall_forall. split.
  - intros [H1 H2]. split.
    + intros k Hk. apply H1 in Hk. apply str_in_iff, Hk.
    + intros vp Hv. specialize (H2 vp Hv). destruct (dget (fst vp) kw) as [x|]; [|discriminate].
      apply andb_true_iff in H2 as [A B]. apply qle_iff in A. apply qlt_iff in B. exists x; auto.
  - intros [H1 H2]. split.
    + intros k Hk. apply (proj2 (str_in_iff k (map fst c))). auto.
    + intros vp Hv. destruct (H2 vp Hv) as (x & -> & A & B).
      apply andb_true_iff. split; [apply qle_iff, A|apply qlt_iff, B].
Qed.
Lemma inside_iff c kw idx : inside c kw idx = true <-> point_in_bin c kw idx.
Proof.
  unfold point_in_bin. revert idx. induction c as [|[v p] c IH]; intros [|i idx]; cbn [inside].
  - split; [constructor|reflexivity].
  - split; [discriminate|intro H; inversion H].
  - split; [discriminate|intro H; inversion H].
  - rewrite andb_true_iff, IH. split.
    + intros [H1 H2]. constructor; [|exact H2]. cbn. destruct (dget v kw) as [x|]; [|discriminate].
      apply andb_true_iff in H1 as [A B]. exists x. split; [reflexivity|].
      split; [apply qle_iff, A|apply qlt_iff, B].
    + intro H. inversion H as [|? ? ? ? H1 H2]; subst. cbn in H1. destruct H1 as (x & -> & A & B).
      split; [|exact H2]. apply andb_true_iff. split; [apply qle_iff, A|apply qlt_iff, B].
Qed.

Lemma fill_meta w kw s : same_meta s (fst (fill w kw s)).
Proof.
  unfold fill. destruct (fill_data w kw s) as [d|e] eqn:E; [|repeat split].
  unfold fill_data in E.
  repeat match type of E with rbind ?r _ = _ => destruct r; cbn [rbind] in E; [|discriminate] end.
  unfold aadd_at in E. destruct (norm_indices _ _); cbn in E; [|discriminate].
  injection E as <-. repeat split.
Qed.
Lemma same_meta_trans a b c : same_meta a b -> same_meta b c -> same_meta a c.
Proof. unfold same_meta. intuition congruence. Qed.
Lemma same_meta_refl a : same_meta a a. Proof. repeat split. Qed.
Lemma wf_meta s s' : same_meta s s' -> wf_spectra s -> wf_spectra s'.
Proof.
  intros (_ & _ & E & _ & _ & _ & _ & Sh) [W C]. unfold wf_spectra, consistent in *.
  rewrite <- E, <- Sh. auto.
Qed.

(** One call, seen from one existing bin. *)
Lemma fill_content w kw s idx :
  wf_spectra s -> valid_idx (ashape (s_data s)) idx ->
  aget (s_data (fst (fill w kw s))) idx =
  (aget (s_data s) idx + (if accepted (s_cfg s) kw && inside (s_cfg s) kw idx then w else 0))%Qc.
Proof.
  intros W V. destruct (accepted (s_cfg s) kw) eqn:A; cbn [andb].
  - apply accepted_iff in A. destruct (fill_ok_data s kw w W A) as (k & Vk & B & E).
    rewrite E. cbn. destruct (inside (s_cfg s) kw idx) eqn:I.
    + apply inside_iff in I. assert (idx = k) by (eapply point_bin_unique; [apply W|exact I|exact B]).
      subst. rewrite idx_eqb_refl. reflexivity.
    + rewrite idx_eqb_neq; [ring|]. intros ->. apply inside_iff in B. congruence.
  - destruct (fill_decide s kw w W) as [[H _]|[_ [-> _]]]; [apply accepted_iff in H; congruence|ring].
Qed.
Lemma fill_sum w kw s :
  wf_spectra s ->
  s_sum (fst (fill w kw s)) = (s_sum s + (if accepted (s_cfg s) kw then w else 0))%Qc.
Proof.
  intros W. unfold s_sum, asum. destruct (fill_meta w kw s) as (_ & _ & _ & _ & _ & _ & _ & Sh).
  rewrite <- Sh. destruct (accepted (s_cfg s) kw) eqn:A.
  - apply accepted_iff in A. destruct (fill_ok_data s kw w W A) as (k & Vk & B & E).
    rewrite E. cbn.
    rewrite (@sum_over_ext _ _ (fun i => aget (s_data s) i + (if idx_eqb i k then w else 0))%Qc).
    + rewrite sum_over_add. f_equal. rewrite (@sum_over_single _ _ k); [rewrite idx_eqb_refl; reflexivity|exact Vk|].
      intros i _ N. rewrite idx_eqb_neq by exact N. reflexivity.
    + intros i _. destruct (idx_eqb i k) eqn:I; [apply idx_eqb_eq in I; subst; ring|ring].
  - destruct (fill_decide s kw w W) as [[H _]|[_ [-> _]]]; [apply accepted_iff in H; congruence|ring].
Qed.
Lemma weight_cons P w kw h :
  weight_of P ((w, kw) :: h) = ((if P kw then w else 0) + weight_of P h)%Qc.
Proof. unfold weight_of. cbn. destruct (P kw); cbn; [reflexivity|unfold qsum; ring]. Qed.

Lemma fills_history h s :
  wf_spectra s ->
  same_meta s (run fill1 h s) /\
  (forall idx, valid_idx (ashape (s_data s)) idx ->
     aget (s_data (run fill1 h s)) idx =
     (aget (s_data s) idx + weight_of (fun kw => accepted (s_cfg s) kw && inside (s_cfg s) kw idx) h)%Qc) /\
  s_sum (run fill1 h s) = (s_sum s + weight_of (accepted (s_cfg s)) h)%Qc.
Proof.
  revert s. induction h as [|[w kw] h IH]; intros s W.
  - split; [apply same_meta_refl|]. cbn. unfold weight_of; cbn. split; [intros|]; ring.
  - pose proof (fill_meta w kw s) as M. pose proof (wf_meta _ _ M W) as W'.
    destruct (IH _ W') as (M' & H & T).
    change (run fill1 ((w, kw) :: h) s) with (run fill1 h (fst (fill w kw s))).
    assert (E : s_cfg (fst (fill w kw s)) = s_cfg s) by (destruct M as (_ & _ & E & _); congruence).
    split; [eapply same_meta_trans; eassumption|]. split.
    + intros idx V. rewrite H by (destruct M as (_ & _ & _ & _ & _ & _ & _ & Sh); rewrite <- Sh; exact V).
      rewrite E, weight_cons, fill_content by assumption. ring.
    + rewrite T, E, weight_cons, fill_sum by assumption. ring.
Qed.
Lemma accepted_of_inside c kw idx :
  wf_cfg c -> valid_idx (cfg_shape c) idx -> (forall k, In k (map fst kw) -> In k (map fst c)) ->
  point_in_bin c kw idx -> valid_point c kw.
Proof.
  intros [_ W] V K B. split; [exact K|]. clear K. unfold cfg_shape, valid_idx in V.
  revert V. induction B as [|[v p] i c idx (x & Hx & Bx) B IH]; intro V; constructor.
  - inversion V; subst. inversion W; subst. exists x. cbn in *. split; [exact Hx|].
    assert (W2 : wf_axis p) by assumption.
    assert (edge p 0 <= edge p (Z.of_nat i))%Qc by (apply edge_mono; [assumption|lia]).
    assert (edge p (Z.of_nat i + 1) <= edge p (sp_bins p))%Qc by (apply edge_mono; [assumption|lia]).
    rewrite edge_0 in H. rewrite edge_bins in H0 by assumption. destruct Bx. split; qlra.
  - inversion V; subst. inversion W; subst. apply IH; assumption.
Qed.
Lemma filter_perm {A} (P : A -> bool) l l' : Permutation l l' -> Permutation (filter P l) (filter P l').
Proof.
  induction 1 as [|a l l' _ IH|a b l|l m n _ IH1 _ IH2]; cbn.
  - constructor.
  - destruct (P a); auto.
  - destruct (P a), (P b); auto. constructor.
  - etransitivity; eassumption.
Qed.
Lemma weight_perm P h h' : Permutation h h' -> weight_of P h = weight_of P h'.
Proof. intro H. unfold weight_of. apply qsum_perm, Permutation_map, filter_perm, H. Qed.
Lemma same_meta_sym a b : same_meta a b -> same_meta b a.
Proof. unfold same_meta. intuition congruence. Qed.

Lemma fills_order_l h h' s :
  wf_spectra s -> Permutation h h' -> same_spectra (run fill1 h s) (run fill1 h' s).
Proof.
  intros W P. destruct (fills_history h s W) as (M & H & _). destruct (fills_history h' s W) as (M' & H' & _).
  split.
  - eapply same_meta_trans; [apply same_meta_sym, M|exact M'].
  - intros idx V. assert (V' : valid_idx (ashape (s_data s)) idx).
    { destruct M as (_ & _ & _ & _ & _ & _ & _ & Sh). rewrite Sh. exact V. }
    rewrite H, H' by exact V'. rewrite (weight_perm _ _ _ P). reflexivity.
Qed.
Lemma new_spectra_ok name n c bg :
  wf_cfg c -> exists s, new_spectra name n c bg = Ok s /\ wf_spectra s /\ s_cfg s = c /\
    s_decays s = n /\ s_raw s = 0%Z /\ (forall idx, aget (s_data s) idx = 0%Qc) /\ s_name s = name /\ s_bg s = bg.
Proof.
  intro W. unfold new_spectra.
  assert (E : forallb (fun b => (0 <=? b)%Z) (get_shape c) = true).
  { apply forallb_forall. intros b Hb. unfold get_shape in Hb. apply in_map_iff in Hb as (kp & <- & Hk).
    destruct W as [_ W]. rewrite Forall_forall in W. destruct (W kp Hk) as [_ H]. apply Z.leb_le. lia. }
  rewrite E. eexists. split; [reflexivity|].
  split; [split; [exact W|]|repeat split].
  unfold consistent. cbn. unfold get_shape, cfg_shape. rewrite map_map. reflexivity.
Qed.
Lemma fills_from_empty_l name n c bg s h :
  wf_cfg c -> new_spectra name n c bg = Ok s ->
  (forall idx, valid_idx (cfg_shape c) idx ->
     aget (s_data (run fill1 h s)) idx = weight_of (fun kw => accepted c kw && inside c kw idx) h) /\
  s_sum (run fill1 h s) = weight_of (accepted c) h.
Proof.
  intros W E. destruct (new_spectra_ok name n c bg W) as (s' & E' & W' & Ec & _ & _ & Z & _).
  assert (s' = s) by congruence. subst s'. destruct (fills_history h s W') as (_ & H & T).
  rewrite Ec in *. split.
  - intros idx V. rewrite H, Z by (destruct W' as [_ C]; unfold consistent in C; rewrite C, Ec; exact V). ring.
  - rewrite T. unfold s_sum, asum. rewrite (@sum_over_ext _ _ (fun _ => 0%Qc)) by (intros; apply Z).
    rewrite sum_over_zero. ring.
Qed.

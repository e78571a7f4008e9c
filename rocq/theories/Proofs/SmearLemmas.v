From Verif Require Import Model.Base Model.PyStr Model.NDArray Model.Param Model.Config Model.Spectra Model.Smear.
From Verif Require Import Spec.AxisSpec Spec.ArraySpec Spec.SpectraSpec Spec.SmearSpec.
From Verif Require Import Proofs.QcLemmas Proofs.NDArrayLemmas Proofs.ParamLemmas Proofs.DictLemmas Proofs.FillLemmas Proofs.ProjectLemmas.
From Coq Require Import Lia.

Lemma product_all_idx l : product l = all_idx l.
Proof. induction l as [|n r IH]; cbn; [reflexivity|rewrite IH; reflexivity]. Qed.

Lemma rmapM_ok {A B} (f : A -> res B) (g : A -> B) l :
  (forall a, In a l -> f a = Ok (g a)) -> rmapM f l = Ok (map g l).
Proof.
  induction l as [|a l IH]; intro H; [reflexivity|]. cbn [rmapM map].
  rewrite (H a) by (left; reflexivity). cbn [rbind]. rewrite IH by (intros; apply H; right; assumption).
  reflexivity.
Qed.

(** bin means *)
Definition means (c : sconfig) (bin : list nat) : dict Qc :=
  zip_with (fun vp b => (fst vp, middle (snd vp) b)) c bin.

Lemma mean_middle p b : wf_axis p -> get_bin_mean (sp_low p) b (bin_width p) = middle p b.
Proof.
  intro W. unfold get_bin_mean, middle, edge. rewrite nq_zq. ring.
Qed.
Lemma bin_means_ok c bin :
  Forall (fun kp => wf_axis (snd kp)) c -> length bin = length c -> bin_means c bin = Ok (means c bin).
Proof.
  intro W. revert bin. induction W as [|[v p] c Wp W IH]; intros [|b bin] L; try discriminate; [reflexivity|].
  cbn [bin_means]. cbn [snd] in Wp. rewrite get_width_ok by exact Wp. cbn [rbind].
  rewrite IH by (cbn in L; lia). cbn [rbind]. rewrite mean_middle by exact Wp. reflexivity.
Qed.
Lemma means_keys c bin : length bin = length c -> dkeys (means c bin) = map fst c.
Proof.
  unfold means, dkeys. revert bin. induction c as [|[v p] c IH]; intros [|b bin] L; try discriminate; [reflexivity|].
  cbn. f_equal. apply IH. cbn in L. lia.
Qed.
Lemma means_get c bin k v p :
  NoDup (map fst c) -> length bin = length c -> nth_error c k = Some (v, p) ->
  dget v (means c bin) = Some (middle p (nth k bin 0)).
Proof.
  intros ND L E. apply In_dget.
  - rewrite means_keys by exact L. exact ND.
  - clear ND. unfold means. revert bin k L E. induction c as [|[v' p'] c IH]; intros [|b bin] [|k] L E; try discriminate.
    + injection E as <- <-. left. reflexivity.
    + right. apply (IH bin k); [cbn in L; lia|exact E].
Qed.

(** windows *)
Lemma qround_bounds x : (x - qq 1 2 <= zq (qround x))%Qc /\ (zq (qround x) <= x + qq 1 2)%Qc.
Proof.
  unfold qround. destruct (qleP 0 x).
  - pose proof (qfloor_le (x + qq 1 2)). pose proof (qfloor_lt (x + qq 1 2)). split; [|assumption].
    assert (qq 1 2 + qq 1 2 = 1)%Qc by (apply Qc_is_canon; vm_compute; reflexivity). qlra.
  - pose proof (qceil_ge (x - qq 1 2)). pose proof (qceil_lt (x - qq 1 2)). split; [assumption|].
    assert (qq 1 2 + qq 1 2 = 1)%Qc by (apply Qc_is_canon; vm_compute; reflexivity). qlra.
Qed.
Lemma half2 : (qq 1 2 + qq 1 2 = 1)%Qc. Proof. apply Qc_is_canon; vm_compute; reflexivity. Qed.
Lemma half3 : (qq 1 2 + qq 1 2 + qq 1 2 = qq 3 2)%Qc. Proof. apply Qc_is_canon; vm_compute; reflexivity. Qed.

Lemma sp_round_ok p x : wf_axis p ->
  exists y, sp_round p x = Ok y /\ (x - bin_width p * qq 1 2 <= y)%Qc /\ (y <= x + bin_width p * qq 1 2)%Qc.
Proof.
  intro W. unfold sp_round. rewrite get_width_ok by exact W. cbn [rbind].
  rewrite qdiv_ok by (apply width_neq; exact W). cbn [rbind]. eexists. split; [reflexivity|].
  pose proof (width_pos _ W) as P. destruct (qround_bounds (x / bin_width p)) as [B1 B2].
  set (r := zq (qround (x / bin_width p))) in *.
  assert (X : (x / bin_width p * bin_width p = x)%Qc) by (apply Qcdiv_mul_id; apply width_neq; exact W).
  split.
  - assert (0 <= (r - (x / bin_width p - qq 1 2)) * bin_width p)%Qc by (apply Qcmul_nonneg; qlra).
    assert (((r - (x / bin_width p - qq 1 2)) * bin_width p = r * bin_width p - x / bin_width p * bin_width p + bin_width p * qq 1 2)%Qc) by ring.
    rewrite X in *. qlra.
  - assert (0 <= (x / bin_width p + qq 1 2 - r) * bin_width p)%Qc by (apply Qcmul_nonneg; qlra).
    assert (((x / bin_width p + qq 1 2 - r) * bin_width p = x / bin_width p * bin_width p + bin_width p * qq 1 2 - r * bin_width p)%Qc) by ring.
    rewrite X in *. qlra.
Qed.

Lemma arange_ok a b w : (0 < w)%Qc ->
  exists es, arange a b w = Ok es /\ (forall e, In e es -> (a <= e)%Qc /\ (e < b)%Qc) /\ ((a < b)%Qc -> es <> []).
Proof.
  intro P. unfold arange. rewrite qdiv_ok by (apply Qc_pos_neq; exact P). cbn [rbind].
  eexists. split; [reflexivity|]. split.
  - intros e H. apply in_map_iff in H. destruct H as (k & <- & K). apply in_seq in K.
    assert (L : (Z.of_nat k < qceil ((b - a) / w))%Z) by lia.
    assert (N : (0 <= nq k * w)%Qc) by (apply Qcmul_nonneg; [apply nq_nonneg|qlra]).
    split; [qlra|].
    assert (nq k < (b - a) / w)%Qc.
    { rewrite nq_zq. apply Qcnot_le_lt. intro C. apply qceil_le_z in C. lia. }
    rewrite Qclt_div_iff in H by exact P. qlra.
  - intros H C. apply (f_equal (@length Qc)) in C. rewrite map_length, seq_length in C. cbn in C.
    assert (0 < (b - a) / w)%Qc by (apply Qcdiv_pos; qlra).
    rewrite <- zq_0 in H0. apply qceil_gt_z in H0. lia.
Qed.

Lemma window_ok nsig sigma p i :
  wf_axis p -> (Z.of_nat i < sp_bins p)%Z ->
  exists es, smear_window nsig sigma p (middle p i) = Ok es /\
    (forall e, In e es -> (sp_low p <= e)%Qc /\ (e < sp_high p)%Qc /\
       (middle p i - nsig * sigma (middle p i) - bin_width p * qq 1 2 <= e)%Qc /\
       (e < middle p i + nsig * sigma (middle p i) + bin_width p * qq 3 2)%Qc) /\
    ((0 < nsig * sigma (middle p i))%Qc ->
     (Z.of_nat i + 1 < sp_bins p)%Z \/
     ((2 <= sp_bins p)%Z /\ (bin_width p * qq 1 2 < nsig * sigma (middle p i))%Qc) -> es <> []).
Proof.
  intros W Hi. unfold smear_window, get_bounds. rewrite get_width_ok by exact W. cbn [rbind].
  set (w := bin_width p). set (m := middle p i). set (r := (nsig * sigma m)%Qc).
  pose proof (width_pos _ W) as Pw. fold w in Pw.
  destruct (sp_round_ok p (m - r - qq 1 2 * w)%Qc W) as (l & El & L1 & L2). rewrite El. cbn [rbind].
  destruct (sp_round_ok p (m + r + qq 1 2 * w)%Qc W) as (h & Eh & H1 & H2). rewrite Eh. cbn [rbind].
  fold w in L1, L2, H1, H2.
  set (low := if qlt (l + qq 1 2 * w) (sp_low p) then _ else _).
  set (high := if qlt (sp_high p) (h + qq 1 2 * w) then _ else _).
  destruct (arange_ok low high w Pw) as (es & E & B & NE). exists es. split; [exact E|].
  assert (M : m = (sp_low p + zq (Z.of_nat i) * w + w * qq 1 2)%Qc) by (unfold m, middle, edge; fold w; ring).
  assert (T : (zq (sp_bins p) * w = sp_high p - sp_low p)%Qc) by (apply width_total; exact W).
  clearbody r m w.
  assert (h3 : (w * qq 3 2 = w * qq 1 2 + w * qq 1 2 + w * qq 1 2)%Qc) by (rewrite <- half3; ring).
  assert (h2 : (w * qq 1 2 + w * qq 1 2 = w)%Qc) by (rewrite <- (Qcmult_1_r w) at 3; rewrite <- half2; ring).
  assert (Pw2 : (0 < w * qq 1 2)%Qc) by (apply Qcmul_pos; [exact Pw|vm_compute; reflexivity]).
  assert (Elow : (sp_low p <= low)%Qc /\ (m - r - w * qq 1 2 <= low)%Qc /\
                 ((low <= m - r + w * qq 1 2)%Qc \/ low = (sp_low p + w * qq 1 2)%Qc)).
  { unfold low. destruct (qltP (l + qq 1 2 * w) (sp_low p)) as [Q|Q].
    - split; [qlra|]. split; [qlra|right; ring].
    - apply Qcnot_lt_le in Q. split; [exact Q|]. split; [qlra|left; qlra]. }
  assert (Ehigh : (high <= sp_high p)%Qc /\ (high <= m + r + w * qq 3 2)%Qc /\
                 ((m + r + w * qq 1 2 <= high)%Qc \/ high = (sp_high p - w * qq 1 2)%Qc)).
  { unfold high. destruct (qltP (sp_high p) (h + qq 1 2 * w)) as [Q|Q].
    - split; [qlra|]. split; [qlra|right; ring].
    - apply Qcnot_lt_le in Q. split; [exact Q|]. split; [qlra|left; qlra]. }
  destruct Elow as (A1 & A2 & A3). destruct Ehigh as (B1 & B2 & B3).
  split.
  - intros e He. destruct (B e He) as [X Y]. repeat split; qlra.
  - intros Hr Hs. apply NE.
    assert (I0 : (0 <= zq (Z.of_nat i) * w)%Qc) by (apply Qcmul_nonneg; [apply nq_nonneg|qlra]).
    assert (D : ((zq (Z.of_nat i) * w + w <= zq (sp_bins p) * w))%Qc).
    { assert (zq (Z.of_nat i + 1) <= zq (sp_bins p))%Qc by (apply (proj1 (zq_le _ _)); lia).
      rewrite zq_add, zq_1 in H.
      assert (0 <= (zq (sp_bins p) - (zq (Z.of_nat i) + 1)) * w)%Qc by (apply Qcmul_nonneg; qlra).
      assert ((zq (sp_bins p) - (zq (Z.of_nat i) + 1)) * w = zq (sp_bins p) * w - zq (Z.of_nat i) * w - w)%Qc by ring. qlra. }
    destruct Hs as [Hs|[Hn Hs]].
    + assert (D2 : ((zq (Z.of_nat i) * w + w + w <= zq (sp_bins p) * w))%Qc).
      { assert (zq (Z.of_nat i + 2) <= zq (sp_bins p))%Qc by (apply (proj1 (zq_le _ _)); lia).
        rewrite zq_add in H. assert (E2 : zq 2 = (1 + 1)%Qc) by (apply Qc_is_canon; reflexivity). rewrite E2 in H.
        assert (0 <= (zq (sp_bins p) - (zq (Z.of_nat i) + (1 + 1))) * w)%Qc by (apply Qcmul_nonneg; qlra).
        assert ((zq (sp_bins p) - (zq (Z.of_nat i) + (1 + 1))) * w = zq (sp_bins p) * w - zq (Z.of_nat i) * w - w - w)%Qc by ring. qlra. }
      destruct A3 as [A3|A3]; destruct B3 as [B3|B3]; qlra.
    + assert (D2 : (w + w <= zq (sp_bins p) * w)%Qc).
      { assert (zq 2 <= zq (sp_bins p))%Qc by (apply (proj1 (zq_le _ _)); lia).
        assert (E2 : zq 2 = (1 + 1)%Qc) by (apply Qc_is_canon; reflexivity). rewrite E2 in H.
        assert (0 <= (zq (sp_bins p) - (1 + 1)) * w)%Qc by (apply Qcmul_nonneg; qlra).
        assert ((zq (sp_bins p) - (1 + 1)) * w = zq (sp_bins p) * w - w - w)%Qc by ring. qlra. }
      destruct A3 as [A3|A3]; destruct B3 as [B3|B3]; qlra.
Qed.

(** fills *)
Lemma fill_list_run l s :
  wf_spectra s -> (forall wk, In wk l -> valid_point (s_cfg s) (snd wk)) ->
  fill_list l s = Ok (run fill1 l s).
Proof.
  revert s. induction l as [|[w kw] l IH]; intros s W H; [reflexivity|]. cbn [fill_list].
  destruct (fill_decide s kw w W) as [[_ E]|[N _]].
  - unfold run. cbn [fold_left]. unfold fill1 at 2. cbn [fst snd].
    pose proof (fill_meta w kw s) as M.
    destruct (fill w kw s) as [s' o] eqn:F. cbn [snd fst] in *. subst o.
    apply IH; [eapply wf_meta; eassumption|].
    intros wk K. destruct M as (_ & _ & <- & _). apply H. right. exact K.
  - destruct N. apply (H (w, kw)). left. reflexivity.
Qed.
Lemma run_app {A} (step : A -> spectra -> spectra * out) l m s : run step (l ++ m) s = run step m (run step l s).
Proof. unfold run. apply fold_left_app. Qed.
Lemma run_meta l s : same_meta s (run fill1 l s).
Proof.
  revert s. induction l as [|[w kw] l IH]; intro s; [apply same_meta_refl|].
  unfold run. cbn [fold_left]. eapply same_meta_trans; [apply fill_meta|apply IH].
Qed.
Lemma smear_bins_run f g bins s :
  wf_spectra s ->
  (forall b, In b bins -> f b = Ok (g b) /\ forall wk, In wk (g b) -> valid_point (s_cfg s) (snd wk)) ->
  smear_bins f bins s = Ok (run fill1 (flat_map g bins) s).
Proof.
  revert s. induction bins as [|b r IH]; intros s W H; [reflexivity|]. cbn [smear_bins flat_map].
  destruct (H b) as [E V]; [left; reflexivity|]. rewrite E. cbn [rbind].
  rewrite fill_list_run by assumption. cbn [rbind]. rewrite run_app.
  pose proof (run_meta (g b) s) as M. apply IH; [eapply wf_meta; eassumption|].
  intros b' B. destruct (H b') as [E' V']; [right; exact B|]. split; [exact E'|].
  destruct M as (_ & _ & <- & _). exact V'.
Qed.

Lemma weight_app P h h' : weight_of P (h ++ h') = (weight_of P h + weight_of P h')%Qc.
Proof. unfold weight_of. rewrite filter_app, map_app. apply qsum_app. Qed.
Lemma weight_flat_map {A} P (g : A -> list (Qc * dict Qc)) l :
  weight_of P (flat_map g l) = qsum (map (fun a => weight_of P (g a)) l).
Proof.
  induction l as [|a l IH]; [reflexivity|]. cbn [flat_map map]. rewrite weight_app, IH. reflexivity.
Qed.
Lemma weight_map {A} P (w : A -> Qc) (k : A -> dict Qc) l :
  weight_of P (map (fun a => (w a, k a)) l) = qsum (map (fun a => if P (k a) then w a else 0%Qc) l).
Proof.
  induction l as [|a l IH]; [reflexivity|]. cbn [map]. rewrite weight_cons, IH. reflexivity.
Qed.

(** the point (src with its k-th coordinate replaced by the value e) *)
Lemma dset_keys_in {A} k (v : A) d : In k (dkeys d) -> dkeys (dset k v d) = dkeys d.
Proof.
  intro H. induction d as [|[k' v'] d IH]; [destruct H|]. cbn [dset]. destruct (String.eqb_spec k k') as [->|N].
  - reflexivity.
  - cbn. f_equal. apply IH. destruct H as [H|H]; [cbn in H; congruence|exact H].
Qed.
Section Point.
Variables (c : sconfig) (k : nat) (par : string) (p : spar) (src : list nat) (e : Qc).
Hypothesis (Wc : wf_cfg c) (Hk : nth_error c k = Some (par, p)) (Vs : valid_idx (cfg_shape c) src).
Let kw := dset par e (means c src).
Lemma src_len : length src = length c.
Proof. pose proof (valid_length _ _ Vs) as L. unfold cfg_shape in L. rewrite map_length in L. exact L. Qed.
Lemma kw_keys : map fst kw = map fst c.
Proof.
  unfold kw. change (dkeys (dset par e (means c src)) = map fst c). rewrite dset_keys_in.
  - apply means_keys, src_len.
  - rewrite means_keys by apply src_len. apply nth_error_In in Hk. apply (in_map fst) in Hk. exact Hk.
Qed.
Lemma kw_par : dget par kw = Some e. Proof. apply dget_dset_same. Qed.
Lemma kw_other i v q : i <> k -> nth_error c i = Some (v, q) -> dget v kw = Some (middle q (nth i src 0)).
Proof.
  intros N E. unfold kw. rewrite dget_dset_other.
  - destruct Wc as [ND _]. apply means_get with (1 := ND) (3 := E). apply src_len.
  - intros ->. apply N. destruct Wc as [ND _]. eapply NoDup_nth_error with (l := map fst c); [exact ND| |].
    + rewrite map_length. apply nth_error_Some. congruence.
    + rewrite !nth_error_map, E, Hk. reflexivity.
Qed.
Lemma src_lt i v q : nth_error c i = Some (v, q) -> nth i src 0 < Z.to_nat (sp_bins q).
Proof.
  intro E. unfold valid_idx, cfg_shape in Vs.
  assert (G : forall c' s', Forall2 (fun i n => i < n) s' (map (fun kp : string * spar => Z.to_nat (sp_bins (snd kp))) c') ->
     forall i, nth_error c' i = Some (v, q) -> nth i s' 0 < Z.to_nat (sp_bins q)).
  { induction c' as [|vp c' IH]; intros s' F j; [destruct j; discriminate|].
    cbn [map] in F. inversion F as [|x y s'' m Hx Fr]; subst. intro Ej. destruct j as [|j]; cbn in *.
    - injection Ej as ->. exact Hx.
    - apply IH; assumption. }
  apply G with (1 := Vs) (2 := E).
Qed.
Lemma axis_wf i v q : nth_error c i = Some (v, q) -> wf_axis q.
Proof. intro E. apply nth_error_In in E. destruct Wc as [_ W]. rewrite Forall_forall in W. apply (W _ E). Qed.
Lemma middle_range q i : wf_axis q -> i < Z.to_nat (sp_bins q) -> (sp_low q <= middle q i)%Qc /\ (middle q i < sp_high q)%Qc.
Proof.
  intros W L. destruct (centre_in_bin q (Z.of_nat i) W) as [A B]. unfold middle.
  rewrite <- (edge_0 q). rewrite <- (edge_bins q W). split.
  - eapply Qcle_trans; [|exact A]. apply edge_mono; [exact W|lia].
  - eapply Qclt_le_trans; [exact B|]. apply edge_mono; [exact W|lia].
Qed.
Lemma point_valid_iff : valid_point c kw <-> (sp_low p <= e)%Qc /\ (e < sp_high p)%Qc.
Proof.
  split.
  - intros [_ F]. rewrite Forall_forall in F. destruct (F _ (nth_error_In _ _ Hk)) as (x & Ex & R).
    cbn [fst snd] in *. rewrite kw_par in Ex. injection Ex as <-. exact R.
  - intro R. split; [intros v H; rewrite kw_keys in H; exact H|].
    apply Forall_forall. intros [v q] H. cbn [fst snd]. apply In_nth_error in H. destruct H as [i Ei].
    destruct (Nat.eq_dec i k) as [->|N].
    + rewrite Hk in Ei. injection Ei as <- <-. exists e. split; [apply kw_par|exact R].
    + exists (middle q (nth i src 0)). split; [eapply kw_other; eassumption|].
      apply middle_range; [eapply axis_wf; eassumption|eapply src_lt; eassumption].
Qed.
Lemma point_in_iff tgt : valid_idx (cfg_shape c) tgt ->
  point_in_bin c kw tgt <-> same_line k src tgt /\ in_bin p (Z.of_nat (coord k tgt)) e.
Proof.
  intro Vt. assert (Lt : length tgt = length c).
  { pose proof (valid_length _ _ Vt) as L. unfold cfg_shape in L. rewrite map_length in L. exact L. }
  assert (G : point_in_bin c kw tgt <->
     forall i v q, nth_error c i = Some (v, q) -> exists x, dget v kw = Some x /\ in_bin q (Z.of_nat (nth i tgt 0)) x).
  { clearbody kw. clear Wc Hk Vs Vt. unfold point_in_bin. revert tgt Lt. induction c as [|[v0 q0] c' IH]; intros [|t tgt] Lt; try discriminate.
    - split; [intros _ [|i] v q E; discriminate|intros _; constructor].
    - split.
      + intros F i v q E. inversion F as [|? ? ? ? Hx Fr]; subst. destruct i as [|i].
        * injection E as <- <-. exact Hx.
        * apply (proj1 (IH tgt ltac:(cbn in Lt; lia)) Fr i v q E).
      + intro H. constructor.
        * apply (H 0 v0 q0). reflexivity.
        * apply IH; [cbn in Lt; lia|]. intros i v q E. apply (H (S i) v q E). }
  rewrite G. split.
  - intro H. split.
    + split; [rewrite Lt; apply src_len|]. intros i N. unfold coord.
      destruct (nth_error c i) as [[v q]|] eqn:E.
      * destruct (H i v q E) as (x & Ex & B). rewrite (kw_other i v q N E) in Ex. injection Ex as <-.
        pose proof (axis_wf _ _ _ E) as Wq.
        pose proof (centre_in_bin q (Z.of_nat (nth i src 0)) Wq) as B'.
        assert (Z.of_nat (nth i src 0) = Z.of_nat (nth i tgt 0)) by (eapply in_bin_unique; eassumption). lia.
      * apply nth_error_None in E. rewrite !nth_overflow; [reflexivity|lia|rewrite src_len; lia].
    + destruct (H k par p Hk) as (x & Ex & B). rewrite kw_par in Ex. injection Ex as <-. exact B.
  - intros [[_ SL] B] i v q E. destruct (Nat.eq_dec i k) as [->|N].
    + rewrite Hk in E. injection E as <- <-. exists e. split; [apply kw_par|exact B].
    + exists (middle q (nth i src 0)). split; [apply kw_other; assumption|].
      specialize (SL i N). unfold coord in SL. rewrite <- SL. apply centre_in_bin. eapply axis_wf, E.
Qed.
End Point.

Lemma point_bin_exists c kw : wf_cfg c -> valid_point c kw -> exists idx, valid_idx (cfg_shape c) idx /\ point_in_bin c kw idx.
Proof.
  intros [_ W] [_ V]. unfold valid_idx, cfg_shape, point_in_bin.
  destruct (fill_bins_ok kw c W V) as (idx & _ & A & B). exists idx. split; assumption.
Qed.

Lemma sum_inside c kw x : wf_cfg c -> valid_point c kw ->
  sum_over (cfg_shape c) (fun tgt => if inside c kw tgt then x else 0%Qc) = x.
Proof.
  intros W V. destruct (point_bin_exists c kw W V) as (idx & A & B).
  rewrite sum_over_single with (k := idx).
  - rewrite (proj2 (inside_iff c kw idx) B). reflexivity.
  - exact A.
  - intros j Hj N. destruct (inside c kw j) eqn:E; [|reflexivity].
    apply inside_iff in E. destruct N. eapply point_bin_unique; [apply W|exact E|exact B].
Qed.

(** The kernel. *)
Definition window_of nsig sigma p i : list Qc :=
  match smear_window nsig sigma p (middle p i) with Ok es => es | Err _ => [] end.
Definition share nsig sigma (W : Qc -> Qc -> Qc) c k par p (src tgt : list nat) : Qc :=
  let m := middle p (coord k src) in
  let es := window_of nsig sigma p (coord k src) in
  let T := qsum (map (fun e => W e m) es) in
  qsum (map (fun e => if inside c (dset par e (means c src)) tgt then W e m / T else 0)%Qc es).

Lemma qsum_map_scale {A} (l : list A) f x : qsum (map (fun a => f a * x)%Qc l) = (qsum (map f l) * x)%Qc.
Proof. induction l as [|a l IH]; cbn; [ring|]. unfold qsum in IH. rewrite IH. ring. Qed.
Lemma qsum_pos {A} (l : list A) f : l <> [] -> (forall a, In a l -> 0 < f a)%Qc -> (0 < qsum (map f l))%Qc.
Proof.
  intros N H. destruct l as [|a l]; [congruence|]. cbn [map]. change (0 < f a + qsum (map f l))%Qc.
  assert (0 < f a)%Qc by (apply H; left; reflexivity).
  assert (0 <= qsum (map f l))%Qc. { apply qsum_nonneg. intros x X. apply in_map_iff in X. destruct X as (b & <- & B). apply Qclt_le_weak, H. right. exact B. }
  qlra.
Qed.
Lemma sum_over_qsum {A} sh (l : list A) f :
  sum_over sh (fun idx => qsum (map (fun a => f a idx) l)) = qsum (map (fun a => sum_over sh (f a)) l).
Proof.
  induction l as [|a l IH]; cbn [map]; [apply sum_over_zero|].
  change (sum_over sh (fun idx => f a idx + qsum (map (fun a => f a idx) l))%Qc = (sum_over sh (f a) + qsum (map (fun a0 => sum_over sh (f a0)) l))%Qc).
  rewrite sum_over_add, IH. reflexivity.
Qed.
Lemma total_sum_over sh f : total sh f = sum_over sh f.
Proof. rewrite sum_over_all. unfold total, sum_where. rewrite filter_true. reflexivity. Qed.

Lemma coord_lt c k par p src : nth_error c k = Some (par, p) -> valid_idx (cfg_shape c) src ->
  (Z.of_nat (coord k src) < sp_bins p)%Z.
Proof. intros E V. pose proof (src_lt c src V k par p E). unfold coord. lia. Qed.

Lemma share_total nsig sigma W c k par p src :
  wf_cfg c -> nth_error c k = Some (par, p) -> (forall e m, 0 < W e m)%Qc -> valid_idx (cfg_shape c) src ->
  total (cfg_shape c) (share nsig sigma W c k par p src) =
  match window_of nsig sigma p (coord k src) with [] => 0%Qc | _ => 1%Qc end.
Proof.
  intros Wc Hk HW Vs. pose proof (axis_wf c Wc k par p Hk) as Wp.
  pose proof (coord_lt c k par p src Hk Vs) as Li.
  destruct (window_ok nsig sigma p (coord k src) Wp Li) as (es & E & B & _).
  assert (Ew : window_of nsig sigma p (coord k src) = es) by (unfold window_of; rewrite E; reflexivity).
  rewrite total_sum_over. unfold share. rewrite Ew.
  set (m := middle p (coord k src)) in *. set (T := qsum (map (fun e => W e m) es)).
  rewrite sum_over_qsum with (f := fun e tgt => (if inside c (dset par e (means c src)) tgt then W e m / T else 0)%Qc).
  rewrite qsum_map_ext with (g := fun e => (W e m * / T)%Qc).
  - rewrite qsum_map_scale. fold T. destruct es as [|e0 es']; [cbn in T; unfold T; ring|].
    apply Qcmult_inv_r, Qc_pos_neq. unfold T. apply qsum_pos; [discriminate|]. intros. apply HW.
  - intros e He. rewrite sum_inside; [reflexivity|exact Wc|].
    apply (point_valid_iff c k par p src e Wc Hk Vs). destruct (B e He) as (X & Y & _). split; assumption.
Qed.

Lemma share_is_smearing nsig sigma W c k par p :
  wf_cfg c -> nth_error c k = Some (par, p) -> (forall e m, 0 < W e m)%Qc ->
  is_smearing c k p (fun m => nsig * sigma m)%Qc (share nsig sigma W c k par p).
Proof.
  intros Wc Hk HW. pose proof (axis_wf c Wc k par p Hk) as Wp.
  assert (T0 : forall m es, es <> [] -> (0 < qsum (map (fun e => W e m) es))%Qc).
  { intros m es N. apply qsum_pos; [exact N|]. intros. apply HW. }
  split; [|split; [|split]].
  - intros src tgt Vs Vt. unfold share. apply qsum_nonneg. intros x X. apply in_map_iff in X. destruct X as (e & <- & He).
    destruct (inside _ _ _); [|qlra]. apply Qcdiv_nonneg; [apply Qclt_le_weak, HW|]. apply T0. intros Z. rewrite Z in He. destruct He.
  - intros src tgt Vs Vt NZ.
    destruct (window_ok nsig sigma p (coord k src) Wp (coord_lt c k par p src Hk Vs)) as (es & E & B & _).
    unfold share, window_of in NZ. rewrite E in NZ.
    assert (Ex : Exists (fun e => inside c (dset par e (means c src)) tgt = true) es).
    { destruct (Exists_dec (fun e => inside c (dset par e (means c src)) tgt = true) es) as [X|X].
      - intro e. apply bool_dec.
      - exact X.
      - destruct NZ. rewrite qsum_map_ext with (g := fun _ => (0 * 0)%Qc).
        + rewrite qsum_map_scale. ring.
        + intros e He. destruct (inside c (dset par e (means c src)) tgt) eqn:I; [|ring].
          destruct X. apply Exists_exists. exists e. split; assumption. }
    apply Exists_exists in Ex. destruct Ex as (e & He & I).
    apply inside_iff in I. apply (point_in_iff c k par p src e Wc Hk Vs tgt Vt) in I. destruct I as [SL IB].
    split; [exact SL|]. exists e. split; [exact IB|]. destruct (B e He) as (_ & _ & X & Y). split; assumption.
  - intros src Vs. rewrite share_total by assumption. destruct (window_of _ _ _ _); [right|left]; reflexivity.
  - intros src Vs Hr Hs. rewrite share_total by assumption.
    destruct (window_ok nsig sigma p (coord k src) Wp (coord_lt c k par p src Hk Vs)) as (es & E & _ & NE).
    unfold window_of. rewrite E. specialize (NE Hr Hs). destruct es; [congruence|reflexivity].
Qed.

Lemma get_par_nth c k par p : NoDup (map fst c) -> nth_error c k = Some (par, p) -> get_par c par = Ok p.
Proof. intros ND E. apply dlookup_ok. apply In_dget; [exact ND|]. eapply nth_error_In, E. Qed.
Lemma get_pars_in c k par p : nth_error c k = Some (par, p) -> str_in par (get_pars c) = true.
Proof. intro E. apply str_in_iff. apply (in_map fst) with (x := (par, p)). eapply nth_error_In, E. Qed.
Lemma widths_ok c : Forall (fun kp => wf_axis (snd kp)) c ->
  rmapM (fun vp : string * spar => get_width (snd vp)) c = Ok (map (fun vp => bin_width (snd vp)) c).
Proof.
  intro W. apply rmapM_ok. intros vp H. apply get_width_ok. rewrite Forall_forall in W. apply W, H.
Qed.
Lemma smear_target_wf suffix s : wf_spectra s -> wf_spectra (smear_target suffix s).
Proof. intros [A B]. split; [exact A|exact B]. Qed.

Lemma smear_l nsig sigma W c k par p suffix s :
  wf_cfg c -> nth_error c k = Some (par, p) -> (forall e m, 0 < W e m)%Qc ->
  wf_spectra s -> s_cfg s = c ->
  exists s', weighted_smear suffix nsig sigma W par s = Ok s' /\ s_name s' = (s_name s ++ suffix)%string /\
    smeared_by (share nsig sigma W c k par p) s s'.
Proof.
  intros Wc Hk HW Ws Ec. pose proof (axis_wf c Wc k par p Hk) as Wp. pose proof Wc as [ND WA].
  pose proof Ws as [_ Cs]. unfold consistent in Cs. rewrite Ec in Cs.
  unfold weighted_smear. rewrite Ec, (get_pars_in c k par p Hk). cbn [negb].
  rewrite (get_par_nth c k par p ND Hk). cbn [rbind]. rewrite widths_ok by exact WA. cbn [rbind].
  fold (cfg_shape c). rewrite product_all_idx.
  set (g := fun src => if qeq (aget (s_data s) src) 0 then [] else
     let m := middle p (coord k src) in
     let es := window_of nsig sigma p (coord k src) in
     map (fun e => ((aget (s_data s) src * W e m) / qsum (map (fun e => W e m) es), dset par e (means c src))%Qc) es).
  rewrite smear_bins_run with (g := g).
  - eexists. split; [reflexivity|].
    destruct (fills_history (flat_map g (all_idx (cfg_shape c))) (smear_target suffix s) (smear_target_wf suffix s Ws)) as (M & H & _).
    cbn [smear_target s_data s_cfg ashape azeros aget] in H.
    destruct M as (M1 & M2 & M3 & M4 & M5 & M6 & M7 & M8). cbn [smear_target s_name s_bg s_cfg s_decays s_raw s_bipo s_rois s_data ashape azeros] in *.
    split; [symmetry; exact M1|].
    repeat (split; [symmetry; assumption|]).
    intros tgt Vt. rewrite H by exact Vt. rewrite Qcplus_0_l. rewrite weight_flat_map.
    rewrite total_sum_over, sum_over_all, Cs. apply qsum_map_ext. intros src Hs. apply all_idx_valid in Hs.
    unfold g, share. rewrite Ec. destruct (qeqP (aget (s_data s) src) 0) as [Z|NZ].
    + rewrite Z. cbn. ring.
    + cbn zeta. set (m := middle p (coord k src)). set (es := window_of nsig sigma p (coord k src)).
      set (T := qsum (map (fun e => W e m) es)).
      rewrite weight_map. rewrite Qcmult_comm, <- qsum_map_scale. apply qsum_map_ext. intros e He.
      assert (A : accepted c (dset par e (means c src)) = true).
      { apply accepted_iff. apply (point_valid_iff c k par p src e Wc Hk Hs).
        destruct (window_ok nsig sigma p (coord k src) Wp (coord_lt c k par p src Hk Hs)) as (es' & E & B & _).
        unfold es, window_of in He. rewrite E in He. destruct (B e He) as (X & Y & _). split; assumption. }
      rewrite A. cbn [andb]. destruct (inside _ _ _); [unfold Qcdiv; ring|ring].
  - apply smear_target_wf, Ws.
  - intros src Hs. apply all_idx_valid in Hs. cbn [smear_target s_cfg].
    rewrite Cs. rewrite (proj2 (in_shape_valid _ _) Hs). unfold bin_fills, g.
    destruct (qeq (aget (s_data s) src) 0); [split; [reflexivity|intros wk []]|].
    rewrite bin_means_ok by (try exact WA; eapply src_len, Hs). cbn [rbind].
    assert (G : dlookup par (means c src) = Ok (middle p (coord k src))).
    { apply dlookup_ok. apply means_get; [exact ND|eapply src_len, Hs|exact Hk]. }
    rewrite G. cbn [rbind]. cbn zeta.
    destruct (window_ok nsig sigma p (coord k src) Wp (coord_lt c k par p src Hk Hs)) as (es & E & B & _).
    unfold window_of. rewrite E. cbn [rbind].
    set (m := middle p (coord k src)) in *. set (T := qsum (map (fun e => W e m) es)).
    split.
    + apply rmapM_ok. intros e He. rewrite qdiv_ok; [reflexivity|].
      apply Qc_pos_neq. unfold T. apply qsum_pos; [intro Z; rewrite Z in He; destruct He|]. intros. apply HW.
    + intros wk H. apply in_map_iff in H. destruct H as (e & <- & He). cbn [snd].
      rewrite Ec. apply (point_valid_iff c k par p src e Wc Hk Hs).
      destruct (B e He) as (X & Y & _). split; assumption.
Qed.

(** random smearing *)
Lemma fill_list_try_run l s :
  wf_spectra s -> (forall wk, In wk l -> forall k, In k (map fst (snd wk)) <-> In k (map fst (s_cfg s))) ->
  fill_list_try l s = Ok (run fill1 l s).
Proof.
  revert s. induction l as [|[w kw] l IH]; intros s W H; [reflexivity|]. cbn [fill_list_try].
  unfold run. cbn [fold_left]. unfold fill1 at 2. cbn [fst snd].
  assert (R : forall s', same_meta s s' -> fill_list_try l s' = Ok (run fill1 l s')).
  { intros s' M. apply IH; [eapply wf_meta; eassumption|].
    intros wk K. destruct M as (_ & _ & <- & _). apply H. right. exact K. }
  destruct (fill_decide s kw w W) as [[_ E]|[N [E1 E2]]].
  - pose proof (fill_meta w kw s) as M.
    destruct (fill w kw s) as [s' o] eqn:F. cbn [snd fst] in *. subst o. apply R, M.
  - assert (E3 : snd (fill w kw s) = Some EValueError).
    { destruct E2 as [E2|E2]; [|exact E2]. exfalso. apply N.
      specialize (H (w, kw) (or_introl eq_refl)). cbn [snd] in H. clear IH R.
      unfold fill, fill_data in E2.
      destruct (check_unknown_iff (get_pars (s_cfg s)) (dkeys kw)) as [[U _]|[_ (x & X & Y)]].
      2:{ destruct Y. apply H. exact X. }
      rewrite U in E2. cbn [rbind] in E2.
      destruct (check_missing_iff (dkeys kw) (get_pars (s_cfg s))) as [[U2 _]|[_ (x & X & Y)]].
      2:{ destruct Y. apply H. exact X. }
      rewrite U2 in E2. cbn [rbind] in E2.
      destruct (check_range_iff kw (s_cfg s)) as [[U3 V]|[U3 _]].
      - intros x X. apply H, X.
      - split; [intros x X; apply H, X|exact V].
      - rewrite U3 in E2. cbn in E2. discriminate. }
    destruct (fill w kw s) as [s' o]. cbn [fst snd] in *. subst s' o. apply R, same_meta_refl.
Qed.
Lemma random_bins_run f g bins s :
  wf_spectra s ->
  (forall b, In b bins -> f b = Ok (g b) /\ forall wk, In wk (g b) -> forall k, In k (map fst (snd wk)) <-> In k (map fst (s_cfg s))) ->
  random_bins f bins s = Ok (run fill1 (flat_map g bins) s).
Proof.
  revert s. induction bins as [|b r IH]; intros s W H; [reflexivity|]. cbn [random_bins flat_map].
  destruct (H b) as [E V]; [left; reflexivity|]. rewrite E. cbn [rbind].
  rewrite fill_list_try_run by assumption. cbn [rbind]. rewrite run_app.
  pose proof (run_meta (g b) s) as M. apply IH; [eapply wf_meta; eassumption|].
  intros b' B. destruct (H b') as [E' V']; [right; exact B|]. split; [exact E'|].
  destruct M as (_ & _ & <- & _). exact V'.
Qed.

Lemma remove_at_line k a b : length a = length b -> k < length a -> (remove_at k a = remove_at k b <-> same_line k a b).
Proof.
  revert a b. induction k as [|k IH]; intros [|x a] [|y b] L Lk; try discriminate; try (cbn in Lk; lia).
  - cbn [remove_at]. split.
    + intros ->. split; [reflexivity|]. intros [|i] N; [congruence|reflexivity].
    + intros [_ H]. apply nth_ext with (d := 0) (d' := 0); [cbn in L; lia|].
      intros n _. apply (H (S n)). discriminate.
  - cbn [remove_at]. split.
    + intro E. injection E as -> E. apply IH in E; [|cbn in L; lia|cbn in Lk; lia]. destruct E as [_ E].
      split; [exact L|]. intros [|i] N; [reflexivity|]. apply (E i). congruence.
    + intros [_ H]. f_equal; [apply (H 0); discriminate|].
      apply IH; [cbn in L; lia|cbn in Lk; lia|]. split; [cbn in L; lia|]. intros i N. apply (H (S i)). congruence.
Qed.

Lemma draw_in_inside c k par p src x tgt :
  wf_cfg c -> nth_error c k = Some (par, p) -> valid_idx (cfg_shape c) src -> valid_idx (cfg_shape c) tgt ->
  accepted c (dset par x (means c src)) && inside c (dset par x (means c src)) tgt = draw_in c k p tgt (src, x).
Proof.
  intros Wc Hk Vs Vt. apply eq_true_iff_eq. rewrite andb_true_iff.
  assert (Lk : k < length c) by (apply nth_error_Some; congruence).
  assert (Ls : length src = length c) by (eapply src_len, Vs).
  assert (Lt : length tgt = length c) by (eapply src_len, Vt).
  assert (A : inside c (dset par x (means c src)) tgt = true -> accepted c (dset par x (means c src)) = true).
  { intro I. apply accepted_iff. apply inside_iff in I. apply (point_valid_iff c k par p src x Wc Hk Vs).
    apply (point_in_iff c k par p src x Wc Hk Vs tgt Vt) in I. destruct I as [_ I].
    assert (Wp : wf_axis p) by (eapply axis_wf; eassumption).
    pose proof (coord_lt c k par p tgt Hk Vt) as Lc. destruct I as [I1 I2].
    rewrite <- (edge_0 p), <- (edge_bins p Wp). split.
    - eapply Qcle_trans; [|exact I1]. apply edge_mono; [exact Wp|lia].
    - eapply Qclt_le_trans; [exact I2|]. apply edge_mono; [exact Wp|lia]. }
  unfold draw_in. cbn [fst snd]. rewrite !andb_true_iff, qle_iff, qlt_iff.
  destruct (list_eq_dec Nat.eq_dec (remove_at k src) (remove_at k tgt)) as [E|E].
  - apply remove_at_line in E; [|congruence|lia]. split.
    + intros [_ I]. apply inside_iff in I. apply (point_in_iff c k par p src x Wc Hk Vs tgt Vt) in I. destruct I as [_ [I1 I2]]. auto.
    + intros [[_ I1] I2].
      assert (I : inside c (dset par x (means c src)) tgt = true).
      { apply inside_iff. apply (point_in_iff c k par p src x Wc Hk Vs tgt Vt). split; [exact E|split; assumption]. }
      auto.
  - split; [|intros [[H _] _]; discriminate].
    intros [_ I]. apply inside_iff in I. apply (point_in_iff c k par p src x Wc Hk Vs tgt Vt) in I. destruct I as [I _].
    apply remove_at_line in I; [|congruence|lia]. contradiction.
Qed.

Lemma weight_ones {A} P (k : A -> dict Qc) l :
  weight_of P (map (fun a => (1%Qc, k a)) l) = nq (length (filter (fun a => P (k a)) l)).
Proof.
  induction l as [|a l IH]; [apply Qc_is_canon; reflexivity|]. cbn [map filter]. rewrite weight_cons, IH.
  destruct (P (k a)); cbn [length]; [rewrite nq_S; ring|ring].
Qed.

Lemma random_l draw c k par p suffix s :
  wf_cfg c -> nth_error c k = Some (par, p) -> wf_spectra s -> s_cfg s = c ->
  exists s', random_smear suffix draw par s = Ok s' /\ s_name s' = (s_name s ++ suffix)%string /\
    s_bg s' = s_bg s /\ s_cfg s' = s_cfg s /\ s_decays s' = s_decays s /\ s_raw s' = s_raw s /\
    s_bipo s' = s_bipo s /\ s_rois s' = s_rois s /\ ashape (s_data s') = ashape (s_data s) /\
    (forall tgt, valid_idx (ashape (s_data s)) tgt ->
       aget (s_data s') tgt = nq (length (filter (draw_in c k p tgt) (all_draws s draw)))) /\
    s_sum s' = nq (length (filter (fun d => qle (sp_low p) (snd d) && qlt (snd d) (sp_high p)) (all_draws s draw))).
Proof.
  intros Wc Hk Ws Ec. pose proof Wc as [ND WA]. pose proof Ws as [_ Cs]. unfold consistent in Cs. rewrite Ec in Cs.
  unfold random_smear. rewrite Ec, (get_pars_in c k par p Hk). cbn [negb].
  rewrite widths_ok by exact WA. cbn [rbind]. fold (cfg_shape c). rewrite product_all_idx.
  set (kw := fun d : list nat * Qc => dset par (snd d) (means c (fst d))).
  set (g := fun src => map (fun d => (1%Qc, kw d)) (map (fun i => (src, draw src i)) (seq 0 (n_draws s src)))).
  assert (G : flat_map g (all_idx (cfg_shape c)) = map (fun d => (1%Qc, kw d)) (all_draws s draw)).
  { unfold all_draws, g. rewrite Cs. generalize (all_idx (cfg_shape c)). induction l as [|a l IH]; [reflexivity|].
    cbn [flat_map]. rewrite map_app, IH. reflexivity. }
  assert (V : forall d, In d (all_draws s draw) -> valid_idx (cfg_shape c) (fst d)).
  { intros d H. unfold all_draws in H. rewrite Cs in H. apply in_flat_map in H. destruct H as (src & Hs & H).
    apply all_idx_valid in Hs. apply in_map_iff in H. destruct H as (i & <- & _). exact Hs. }
  rewrite random_bins_run with (g := g).
  - eexists. split; [reflexivity|].
    destruct (fills_history (flat_map g (all_idx (cfg_shape c))) (smear_target suffix s) (smear_target_wf suffix s Ws)) as (M & H & T).
    cbn [smear_target s_data s_cfg ashape azeros aget] in H.
    destruct M as (M1 & M2 & M3 & M4 & M5 & M6 & M7 & M8). cbn [smear_target s_name s_bg s_cfg s_decays s_raw s_bipo s_rois s_data ashape azeros] in *.
    rewrite Ec in *.
    split; [symmetry; exact M1|]. repeat (split; [symmetry; assumption|]).
    split.
    + intros tgt Vt. rewrite H by exact Vt. rewrite G, Qcplus_0_l, weight_ones. f_equal. f_equal.
      apply filter_ext_in. intros [src x] Hd. unfold kw. cbn [fst snd]. apply draw_in_inside with (par := par); auto.
      * apply (V _ Hd).
      * rewrite <- Cs. exact Vt.
    + etransitivity; [exact T|]. rewrite G. unfold s_sum, asum. cbn [smear_target s_data ashape azeros aget]. rewrite sum_over_zero, Qcplus_0_l, weight_ones.
      f_equal. f_equal. apply filter_ext_in. intros [src x] Hd. unfold kw. cbn [fst snd].
      apply eq_true_iff_eq. rewrite accepted_iff, andb_true_iff, qle_iff, qlt_iff.
      apply (point_valid_iff c k par p src x Wc Hk). apply (V _ Hd).
  - apply smear_target_wf, Ws.
  - intros src Hs. apply all_idx_valid in Hs. cbn [smear_target s_cfg].
    rewrite Cs. rewrite (proj2 (in_shape_valid _ _) Hs). unfold random_fills, g, n_draws.
    split.
    + destruct (Z.eqb_spec (qtrunc (aget (s_data s) src)) 0) as [->|N]; [reflexivity|].
      rewrite bin_means_ok by (try exact WA; eapply src_len, Hs). cbn [rbind]. rewrite map_map. reflexivity.
    + intros wk H x. rewrite map_map in H. apply in_map_iff in H. destruct H as (i & <- & _). cbn [snd]. unfold kw. cbn [fst snd].
      rewrite (kw_keys c k par p src _ Hk Hs), Ec. tauto.
Qed.

Lemma radial_l c k par p suffix s :
  wf_cfg c -> nth_error c k = Some (par, p) -> wf_spectra s -> s_cfg s = c ->
  (exists src, valid_idx (ashape (s_data s)) src /\ aget (s_data s) src <> 0%Qc) ->
  radial_random_smear suffix par s = Err ETypeError.
Proof.
  intros Wc Hk Ws Ec (src0 & V0 & N0). pose proof Wc as [ND WA]. pose proof Ws as [_ Cs]. unfold consistent in Cs. rewrite Ec in Cs.
  unfold radial_random_smear. rewrite Ec, (get_pars_in c k par p Hk). cbn [negb].
  rewrite widths_ok by exact WA. cbn [rbind]. fold (cfg_shape c). rewrite product_all_idx.
  rewrite Cs in *. apply all_idx_valid in V0.
  assert (Va : forall b, In b (all_idx (cfg_shape c)) -> valid_idx (cfg_shape c) b) by (intro; apply all_idx_valid).
  revert V0 Va. generalize (smear_target suffix s). generalize (all_idx (cfg_shape c)).
  induction l as [|b l IH]; intros t I Va; [destruct I|]. cbn [random_bins].
  rewrite (proj2 (in_shape_valid _ _) (Va b (or_introl eq_refl))). unfold radial_fills at 1.
  destruct (qeqP (aget (s_data s) b) 0) as [Z|Z].
  - cbn [rbind fill_list_try]. apply IH.
    + destruct I as [->|I]; [contradiction|exact I].
    + intros. apply Va. right. assumption.
  - rewrite bin_means_ok; [reflexivity|exact WA|]. eapply src_len, Va. left. reflexivity.
Qed.

(** consequences of a smearing kernel *)
Lemma smear_kernel_l c k par p nsig sigma W :
  wf_cfg c -> nth_error c k = Some (par, p) -> (forall e m, 0 < W e m)%Qc ->
  exists K, is_smearing c k p (fun m => nsig * sigma m)%Qc K /\
    forall suffix s, wf_spectra s -> s_cfg s = c ->
      exists s', weighted_smear suffix nsig sigma W par s = Ok s' /\
        s_name s' = (s_name s ++ suffix)%string /\ smeared_by K s s'.
Proof.
  intros Wc Hk HW. exists (share nsig sigma W c k par p). split; [apply share_is_smearing; assumption|].
  intros. apply smear_l; assumption.
Qed.
Lemma sum_over_swap sh sh' (f : list nat -> list nat -> Qc) :
  sum_over sh (fun a => sum_over sh' (fun b => f a b)) = sum_over sh' (fun b => sum_over sh (fun a => f a b)).
Proof.
  rewrite (sum_over_all sh'). rewrite <- sum_over_qsum with (f := fun b a => f a b).
  apply sum_over_ext. intros. apply sum_over_all.
Qed.
Lemma smeared_sum K s s' : smeared_by K s s' ->
  s_sum s' = total (ashape (s_data s)) (fun src => aget (s_data s) src * total (ashape (s_data s)) (K src))%Qc.
Proof.
  intros (_ & _ & _ & _ & _ & _ & Sh & H). unfold s_sum, asum. rewrite Sh, total_sum_over.
  rewrite sum_over_ext with (g := fun tgt => sum_over (ashape (s_data s)) (fun src => aget (s_data s) src * K src tgt)%Qc).
  - rewrite sum_over_swap. apply sum_over_ext. intros src _. rewrite total_sum_over.
    rewrite Qcmult_comm, <- sum_over_scale. apply sum_over_ext. intros. ring.
  - intros tgt Vt. rewrite H by exact Vt. apply total_sum_over.
Qed.
Lemma smear_nonneg_l c k par p nsig sigma W suffix s s' :
  wf_spectra s -> s_cfg s = c -> nth_error c k = Some (par, p) -> (forall e m, 0 < W e m)%Qc ->
  nonneg s -> weighted_smear suffix nsig sigma W par s = Ok s' ->
  nonneg s' /\ (0 <= s_sum s')%Qc /\ (s_sum s' <= s_sum s)%Qc.
Proof.
  intros Ws Ec Hk HW N E. pose proof Ws as [Wc Cs]. unfold consistent in Cs. rewrite Ec in Wc, Cs.
  destruct (smear_kernel_l c k par p nsig sigma W Wc Hk HW) as (K & (K1 & _ & K3 & _) & H).
  destruct (H suffix s Ws Ec) as (s1 & E1 & _ & S). rewrite E in E1. injection E1 as <-.
  pose proof (smeared_sum _ _ _ S) as T. pose proof S as (_ & _ & _ & _ & _ & _ & Sh & C).
  assert (N' : nonneg s').
  { intros tgt Vt. rewrite Sh in Vt. rewrite C by exact Vt. rewrite total_sum_over. apply sum_over_nonneg.
    intros src Vs. apply Qcmul_nonneg; [apply N, Vs|]. rewrite Cs in *. apply K1; assumption. }
  split; [exact N'|]. split; [apply sum_over_nonneg; exact N'|].
  rewrite T, total_sum_over. unfold s_sum, asum. apply sum_over_le. intros src Vs.
  assert (0 <= aget (s_data s) src)%Qc by (apply N, Vs). rewrite Cs in *.
  destruct (K3 src Vs) as [->| ->]; [|]; qlra.
Qed.
Lemma smear_conserved_l c k par p nsig sigma W suffix s s' :
  wf_spectra s -> s_cfg s = c -> nth_error c k = Some (par, p) -> (forall e m, 0 < W e m)%Qc ->
  (forall src, valid_idx (ashape (s_data s)) src -> aget (s_data s) src <> 0%Qc ->
     (0 < nsig * sigma (middle p (coord k src)))%Qc /\
     ((Z.of_nat (coord k src) + 1 < sp_bins p)%Z \/
      ((2 <= sp_bins p)%Z /\ (bin_width p * qq 1 2 < nsig * sigma (middle p (coord k src)))%Qc))) ->
  weighted_smear suffix nsig sigma W par s = Ok s' -> s_sum s' = s_sum s.
Proof.
  intros Ws Ec Hk HW R E. pose proof Ws as [Wc Cs]. unfold consistent in Cs. rewrite Ec in Wc, Cs.
  destruct (smear_kernel_l c k par p nsig sigma W Wc Hk HW) as (K & (K1 & _ & K3 & K4) & H).
  destruct (H suffix s Ws Ec) as (s1 & E1 & _ & S). rewrite E in E1. injection E1 as <-.
  rewrite (smeared_sum _ _ _ S), total_sum_over. unfold s_sum, asum. apply sum_over_ext. intros src Vs.
  destruct (qeqP (aget (s_data s) src) 0) as [Z|NZ]; [rewrite Z; ring|].
  destruct (R src Vs NZ) as [R1 R2]. rewrite Cs in *. rewrite K4 by assumption. ring.
Qed.
Lemma smear_unknown_l suffix nsig sigma W par s :
  ~ In par (map fst (s_cfg s)) -> weighted_smear suffix nsig sigma W par s = Err EIndexError.
Proof.
  intro N. unfold weighted_smear. apply str_in_false in N. unfold get_pars, dkeys. rewrite N. reflexivity.
Qed.
Lemma random_le_l draw c k par p suffix s s' :
  nth_error c k = Some (par, p) -> wf_spectra s -> s_cfg s = c ->
  random_smear suffix draw par s = Ok s' -> (s_sum s' <= nq (length (all_draws s draw)))%Qc.
Proof.
  intros Hk Ws Ec E. pose proof Ws as [Wc _]. rewrite Ec in Wc.
  destruct (random_l draw c k par p suffix s Wc Hk Ws Ec) as (s1 & E1 & _ & _ & _ & _ & _ & _ & _ & _ & _ & T).
  rewrite E in E1. injection E1 as <-. rewrite T. apply nq_le.
  generalize (all_draws s draw). induction l as [|a l IH]; [reflexivity|]. cbn [filter length].
  destruct (_ && _); cbn [length]; lia.
Qed.

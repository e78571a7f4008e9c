(** C12-C16: shrink, cut, shrink_to_roi. *)
From Coq Require Import Lia.
From Verif Require Import Model.Base Model.PyStr Model.NDArray Model.Param Model.Config Model.Spectra.
From Verif Require Import Spec.AxisSpec Spec.ArraySpec Spec.SpectraSpec Spec.ShrinkSpec Spec.ShrinkAnySpec Spec.FitRunSpec.
From Verif Require Import Proofs.QcLemmas Proofs.ParamLemmas Proofs.ShrinkProps Proofs.ShrinkAny.
Local Open Scope string_scope.

(** C12: on axes whose lower bound is a multiple of the bin width, shrink keeps exactly the
    bins that overlap the requested range by at least a hundredth of a bin; with bounds on
    bin edges these are exactly the overlapping bins.  Missing for the full statement:
    other axes (refuted below), and the bins overlapped by less than a hundredth. *)
Theorem C12_shrink_partial : forall s kw,
  wf_spectra s -> s_cfg s <> [] -> Forall (fun vp => aligned (snd vp)) (s_cfg s) ->
  good_keywords (s_cfg s) kw -> some_bin (req_substantial kw) (s_cfg s) ->
  exists s' starts, shrink kw s = (s', None) /\ wf_spectra s' /\
    restricted (req_substantial kw) (s_cfg s) (s_cfg s') starts /\ block_of s s' starts.
Proof. exact shrink_aligned_l. Qed.
Theorem C12_shrink_edges_partial : forall s kw,
  wf_spectra s -> s_cfg s <> [] -> Forall (fun vp => aligned (snd vp)) (s_cfg s) ->
  good_keywords (s_cfg s) kw ->
  (forall v p, In (v, p) (s_cfg s) -> on_edge p (req_low kw v p) /\ on_edge p (req_high kw v p) /\
                                     (req_low kw v p < req_high kw v p)%Qc) ->
  exists s' starts, shrink kw s = (s', None) /\ wf_spectra s' /\
    restricted (req_overlap kw) (s_cfg s) (s_cfg s') starts /\ block_of s s' starts.
Proof. exact shrink_edges_l. Qed.
(** On every usable axis, aligned or not: which bins are kept, and the new bounds. *)
Theorem C12_shrink_any : forall s kw,
  wf_spectra s -> s_cfg s <> [] -> good_keywords (s_cfg s) kw -> some_bin (req_shared kw) (s_cfg s) ->
  exists s' starts, shrink kw s = (s', None) /\ wf_spectra s' /\
    near_restricted (req_shared kw) kw (s_cfg s) (s_cfg s') starts /\ block_of s s' starts.
Proof. exact shrink_any_l. Qed.
(** A bin overlapped by less than a hundredth is dropped, even on an aligned axis. *)
Theorem C12_sliver_refuted :
  exists s kw v p p' i, wf_spectra s /\ Forall (fun vp => aligned (snd vp)) (s_cfg s) /\ good_keywords (s_cfg s) kw /\
    snd (shrink kw s) = None /\ dget v (s_cfg s) = Some p /\ dget v (s_cfg (fst (shrink kw s))) = Some p' /\
    (0 <= i < sp_bins p)%Z /\ req_overlap kw v p i /\ sp_low p' = edge p (i + 1).
Proof. exact sliver_refuted_l. Qed.
(** On another axis a bin of which two fifths were asked for is dropped, and the bin width changes. *)
Theorem C12_width_refuted :
  exists s kw v p p' i, wf_spectra s /\ good_keywords (s_cfg s) kw /\
    snd (shrink kw s) = None /\ dget v (s_cfg s) = Some p /\ dget v (s_cfg (fst (shrink kw s))) = Some p' /\
    (0 <= i < sp_bins p)%Z /\ (req_low kw v p + bin_width p * qq 2 5 <= edge p (i + 1))%Qc /\
    sp_low p' = edge p (i + 1) /\ bin_width p' <> bin_width p.
Proof. exact width_refuted_l. Qed.
(** An upper bound that differs from the current one by rounding only is accepted, and the
    configuration then has one bin more than the data. *)
Theorem C12_close_refuted :
  exists s v p x, wf_spectra s /\ dget v (s_cfg s) = Some p /\
    x = (sp_high p + qq 1 1000000)%Qc /\
    snd (shrink [((v ++ "_high")%string, x)] s) = None /\ ~ consistent (fst (shrink [((v ++ "_high")%string, x)] s)).
Proof. exact close_refuted_l. Qed.
(** The new bounds need not even be edges of the old axis. *)
Theorem C12_shrink_refuted :
  exists s s' v p p', wf_spectra s /\ shrink [((v ++ "_low")%string, sp_low p)] s = (s', None) /\
    dget v (s_cfg s) = Some p /\ dget v (s_cfg s') = Some p' /\ ~ (exists k, sp_low p' = edge p k).
Proof. exact shrink_exact_refuted_l. Qed.

(** C13.  Missing for the full statement: axes that are not aligned, where it is false. *)
Theorem C13_shrink_identity_partial : forall s kw,
  wf_spectra s -> s_cfg s <> [] -> Forall (fun vp => aligned (snd vp)) (s_cfg s) ->
  current_bounds (s_cfg s) kw ->
  exists s', shrink kw s = (s', None) /\ same_spectra s' s.
Proof. exact shrink_identity_l. Qed.
(** On every usable axis the contents and the numbers of bins are unchanged; only the bounds may
    move, to the nearest multiples of the bin width. *)
Theorem C13_shrink_current : forall s kw,
  wf_spectra s -> s_cfg s <> [] -> current_bounds (s_cfg s) kw ->
  exists s', shrink kw s = (s', None) /\ bounds_rounded (s_cfg s) (s_cfg s') /\
    same_array (s_data s') (s_data s) /\ s_name s' = s_name s /\ s_bg s' = s_bg s /\ s_decays s' = s_decays s /\
    s_raw s' = s_raw s /\ s_bipo s' = s_bipo s /\ s_rois s' = s_rois s.
Proof. exact shrink_current_l. Qed.
Theorem C13_shrink_identity_refuted :
  exists s s', wf_spectra s /\ shrink [] s = (s', None) /\ s_cfg s' <> s_cfg s.
Proof. exact shrink_identity_refuted_l. Qed.

(** C14: whenever shrink raises, nothing has changed; which requests are rejected. *)
Theorem C14_shrink_rejected : forall s kw e s',
  wf_spectra s -> s_cfg s <> [] -> shrink kw s = (s', Some e) -> s' = s /\ (e = EIndexError \/ e = EValueError).
Proof. exact shrink_raise_l. Qed.
Theorem C14_shrink_unknown : forall s kw k x,
  ~ In "" (map fst (s_cfg s)) -> In (k, x) kw ->
  (forall v, In v (map fst (s_cfg s)) -> k <> (v ++ "_low")%string /\ k <> (v ++ "_high")%string) ->
  exists e, shrink kw s = (s, Some e) /\ (e = EIndexError \/ e = EValueError).
Proof. exact shrink_unknown_l. Qed.
Theorem C14_shrink_unknown_index : forall s kw k x,
  NoDup (map fst (s_cfg s)) -> ~ In "" (map fst (s_cfg s)) -> In (k, x) kw ->
  (forall v, In v (map fst (s_cfg s)) -> k <> (v ++ "_low")%string /\ k <> (v ++ "_high")%string) ->
  (forall k' x', In (k', x') kw -> k' <> k -> good_keywords (s_cfg s) [(k', x')]) ->
  shrink kw s = (s, Some EIndexError).
Proof. exact shrink_unknown_index_l. Qed.
Theorem C14_shrink_outside : forall s kw k x v p,
  In (k, x) kw -> dget v (s_cfg s) = Some p ->
  (k = (v ++ "_low")%string /\ (x < sp_low p)%Qc /\ isclose x (sp_low p) = false) \/
  (k = (v ++ "_high")%string /\ (sp_high p < x)%Qc /\ isclose x (sp_high p) = false) ->
  exists e, shrink kw s = (s, Some e) /\ (e = EIndexError \/ e = EValueError) /\ (length kw = 1 -> e = EValueError).
Proof. exact shrink_outside_l. Qed.

(** C15 *)
Theorem C15_cut : forall s kw s',
  cut kw s = (s', None) ->
  exists s1, shrink kw s = (s1, None) /\ s_cfg s' = s_cfg s1 /\ s_data s' = s_data s1 /\
    s_name s' = s_name s /\ s_raw s' = s_raw s /\ s_rois s' = s_rois s /\ s_sum s <> 0%Qc /\
    s_decays s' = (s_decays s * (s_sum s' / s_sum s))%Qc.
Proof. exact cut_l. Qed.
Theorem C15_cut_ratio : forall s kw s',
  cut kw s = (s', None) -> s_decays s <> 0%Qc -> s_sum s' <> 0%Qc ->
  s_decays s' <> 0%Qc /\ (s_sum s' / s_decays s' = s_sum s / s_decays s)%Qc /\
  forall n, exists s2, scale n s' = (s2, None) /\ s_sum s2 = (n * (s_sum s / s_decays s))%Qc.
Proof. exact cut_ratio_l. Qed.
(** On an empty spectrum cut raises after the spectrum has been shrunk. *)
Theorem C15_cut_empty : forall s kw s1,
  s_sum s = 0%Qc -> shrink kw s = (s1, None) -> cut kw s = (s1, Some EZeroDivisionError).
Proof. exact cut_empty_l. Qed.

(** C16 *)
Theorem C16_shrink_to_roi : forall s lo hi d s',
  nonneg s -> shrink_to_roi lo hi d s = (s', None) ->
  exists s1 p, shrink [((d ++ "_low")%string, lo); ((d ++ "_high")%string, hi)] s = (s1, None) /\
    s_cfg s' = s_cfg s1 /\ s_data s' = s_data s1 /\ s_decays s' = s_decays s /\
    dget d (s_cfg s') = Some p /\
    get_roi d s' = Ok (ROI (sp_low p) (sp_high p) (s_sum s' / s_sum s)%Qc) /\
    (0 < s_sum s)%Qc /\ (0 <= s_sum s' / s_sum s)%Qc /\ (s_sum s' / s_sum s <= 1)%Qc /\
    (forall d', d' <> d -> dget d' (s_rois s') = dget d' (s_rois s)).
Proof. exact roi_l. Qed.

(** A 10 x 4 spectrum shrunk to energy [2, 9/2), radius unchanged. *)
Definition ex104 : spectra :=
  Spec "x" None [("energy_mc", SPar (zq 0) (zq 10) 10); ("radial_mc", SPar (zq 2) (zq 4) 4)]
    (ND [10; 4] (fun idx => match idx with [i; j] => nq (4 * i + j) | _ => 0%Qc end)) 1 0 0 [].
Definition kw104 : dict Qc := [("energy_mc_low", zq 2); ("energy_mc_high", qq 9 2)].
Lemma ex104_wf : wf_spectra ex104.
Proof. split; [split; [repeat constructor; cbn; intuition congruence|repeat constructor; vm_compute; reflexivity]|reflexivity]. Qed.
Example C12_ex : wf_spectra ex104 /\ Forall (fun vp => aligned (snd vp)) (s_cfg ex104) /\
  good_keywords (s_cfg ex104) kw104 /\ some_bin (req_substantial kw104) (s_cfg ex104) /\
  get_shape (s_cfg (fst (shrink kw104 ex104))) = [3; 4]%Z /\
  this (aget (s_data (fst (shrink kw104 ex104))) [2; 1]) = this (nq 17).
Proof.
  split; [exact ex104_wf|]. split.
  { constructor; [exists 0%Z; apply Qc_is_canon; vm_compute; reflexivity|].
    constructor; [exists 4%Z; apply Qc_is_canon; vm_compute; reflexivity|constructor]. }
  split; [|split; [|split; vm_compute; reflexivity]].
  - intros k x [H|[H|[]]]; injection H as <- <-; exists "energy_mc"; eexists; (split; [reflexivity|]).
    + left. split; [reflexivity|]. vm_compute. discriminate.
    + right. split; [reflexivity|]. vm_compute. discriminate.
  - intros v p [H|[H|[]]]; injection H as <- <-.
    + exists 3%Z. split; vm_compute; discriminate.
    + exists 0%Z. split; vm_compute; discriminate.
Qed.
Example C12_edges_ex : forall v p, In (v, p) (s_cfg ex104) -> let kw := [("energy_mc_low", zq 2)] in
  on_edge p (req_low kw v p) /\ on_edge p (req_high kw v p) /\ (req_low kw v p < req_high kw v p)%Qc.
Proof.
  intros v p [H|[H|[]]]; injection H as <- <-; cbv zeta; (split; [|split]).
  - exists 2%Z. apply Qc_is_canon. vm_compute. reflexivity.
  - exists 10%Z. apply Qc_is_canon. vm_compute. reflexivity.
  - vm_compute. reflexivity.
  - exists 0%Z. apply Qc_is_canon. vm_compute. reflexivity.
  - exists 4%Z. apply Qc_is_canon. vm_compute. reflexivity.
  - vm_compute. reflexivity.
Qed.
(** Bins of width 1 from 2/5 to 52/5, asked for [2, ...): the bins from 12/5 on are kept. *)
Example C12_any_ex : wf_spectra width_sp /\ good_keywords (s_cfg width_sp) width_kw /\
  some_bin (req_shared width_kw) (s_cfg width_sp) /\ ~ (exists vp, In vp (s_cfg width_sp) /\ aligned (snd vp)) /\
  get_shape (s_cfg (fst (shrink width_kw width_sp))) = [8]%Z.
Proof.
  split; [exact width_sp_wf|]. split; [|split; [|split; [|vm_compute; reflexivity]]].
  - intros k x [H|[]]. injection H as <- <-. exists "energy_mc", (SPar (qq 2 5) (qq 52 5) 10). split; [reflexivity|].
    left. split; [reflexivity|]. vm_compute. discriminate.
  - intros v p [H|[]]. injection H as <- <-. exists 5%Z. split; [split; vm_compute; reflexivity|].
    exists (zq 5), (zq 6). repeat split; try (vm_compute; (reflexivity || discriminate)).
    + exists 5%Z. apply Qc_is_canon. vm_compute. reflexivity.
    + exists 6%Z. apply Qc_is_canon. vm_compute. reflexivity.
  - intros ([v p] & [H|[]] & m & A). injection H as <- <-. cbn [snd] in A.
    replace (bin_width (SPar (qq 2 5) (qq 52 5) 10)) with 1%Qc in A by (apply Qc_is_canon; vm_compute; reflexivity).
    cbn [sp_low] in A. apply (f_equal (fun x => (x * zq 5)%Qc)) in A.
    assert (B : (zq 2 = zq (m * 5))%Qc).
    { rewrite zq_mul. etransitivity; [|etransitivity; [exact A|ring]]. apply Qc_is_canon. vm_compute. reflexivity. }
    apply zq_inj in B. lia.
Qed.
Example C13_current_ex : wf_spectra width_sp /\ current_bounds (s_cfg width_sp) [] /\
  map (fun vp => this (sp_low (snd vp))) (s_cfg (fst (shrink [] width_sp))) = [this (zq 0)].
Proof. split; [exact width_sp_wf|]. split; [intros k x []|vm_compute; reflexivity]. Qed.
Example C13_ex : current_bounds (s_cfg ex104) [("radial_mc_high", zq 4)].
Proof. intros k x [H|[]]. injection H as <- <-. exists "radial_mc". eexists. split; [reflexivity|]. right. split; reflexivity. Qed.
Example C14_ex : snd (shrink [("energy_mid", zq 2)] ex104) = Some EIndexError /\
  snd (shrink [("energy_mc_low", zq (-1))] ex104) = Some EValueError /\
  isclose (zq (-1)) (zq 0) = false.
Proof. repeat split; vm_compute; reflexivity. Qed.
Example C15_ex : snd (cut kw104 ex104) = None /\ this (s_sum (fst (cut kw104 ex104))) = this (nq 162) /\
  this (s_decays (fst (cut kw104 ex104))) = this (nq 162 / nq 780)%Qc.
Proof. repeat split; vm_compute; reflexivity. Qed.
Example C16_ex : snd (shrink_to_roi (zq 2) (zq 5) "energy_mc" ex104) = None /\
  (exists s1, shrink kw104 ex104 = (s1, None)).
Proof.
  split; [vm_compute; reflexivity|]. exists (fst (shrink kw104 ex104)).
  assert (E : snd (shrink kw104 ex104) = None) by (vm_compute; reflexivity).
  rewrite <- E. apply surjective_pairing.
Qed.

Print Assumptions C12_shrink_partial.
Print Assumptions C12_shrink_edges_partial.
Print Assumptions C12_shrink_refuted.
Print Assumptions C12_shrink_any.
Print Assumptions C12_sliver_refuted.
Print Assumptions C12_width_refuted.
Print Assumptions C12_close_refuted.
Print Assumptions C13_shrink_current.
Print Assumptions C13_shrink_identity_partial.
Print Assumptions C13_shrink_identity_refuted.
Print Assumptions C14_shrink_rejected.
Print Assumptions C14_shrink_unknown.
Print Assumptions C14_shrink_unknown_index.
Print Assumptions C14_shrink_outside.
Print Assumptions C15_cut.
Print Assumptions C15_cut_ratio.
Print Assumptions C15_cut_empty.
Print Assumptions C16_shrink_to_roi.

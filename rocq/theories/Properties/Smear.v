(** C22-C24: smearing. *)
From Verif Require Import Model.Base Model.PyStr Model.NDArray Model.Param Model.Config Model.Spectra Model.Smear.
From Verif Require Import Spec.AxisSpec Spec.ArraySpec Spec.SpectraSpec Spec.SmearSpec Proofs.QcLemmas Proofs.SmearLemmas.
Local Open Scope string_scope.

(** C22: for every configuration, axis, resolution function, number of sigma and positive
    weight function, weighted_smear redistributes every spectrum by one fixed kernel. *)
Theorem C22_smear_kernel : forall c k par p nsig sigma W,
  wf_cfg c -> nth_error c k = Some (par, p) -> (forall e m, 0 < W e m)%Qc ->
  exists K, is_smearing c k p (fun m => nsig * sigma m)%Qc K /\
    forall suffix s, wf_spectra s -> s_cfg s = c ->
      exists s', weighted_smear suffix nsig sigma W par s = Ok s' /\
        s_name s' = s_name s ++ suffix /\ smeared_by K s s'.
Proof. exact smear_kernel_l. Qed.
(** C22: no negative content, no events created. *)
Theorem C22_smear_total : forall c k par p nsig sigma W suffix s s',
  wf_spectra s -> s_cfg s = c -> nth_error c k = Some (par, p) -> (forall e m, 0 < W e m)%Qc ->
  nonneg s -> weighted_smear suffix nsig sigma W par s = Ok s' ->
  nonneg s' /\ (0 <= s_sum s')%Qc /\ (s_sum s' <= s_sum s)%Qc.
Proof. exact smear_nonneg_l. Qed.
(** C22: nothing is lost when the content is not in the last bin of the smeared axis, or
    the half-width of the window exceeds half a bin. *)
Theorem C22_smear_conserved : forall c k par p nsig sigma W suffix s s',
  wf_spectra s -> s_cfg s = c -> nth_error c k = Some (par, p) -> (forall e m, 0 < W e m)%Qc ->
  (forall src, valid_idx (ashape (s_data s)) src -> aget (s_data s) src <> 0%Qc ->
     (0 < nsig * sigma (middle p (coord k src)))%Qc /\
     ((Z.of_nat (coord k src) + 1 < sp_bins p)%Z \/
      ((2 <= sp_bins p)%Z /\ (bin_width p * qq 1 2 < nsig * sigma (middle p (coord k src)))%Qc))) ->
  weighted_smear suffix nsig sigma W par s = Ok s' -> s_sum s' = s_sum s.
Proof. exact smear_conserved_l. Qed.
(** C22: smearing a parameter the spectrum does not have. *)
Theorem C22_smear_unknown : forall suffix nsig sigma W par s,
  ~ In par (map fst (s_cfg s)) -> weighted_smear suffix nsig sigma W par s = Err EIndexError.
Proof. exact smear_unknown_l. Qed.

(** C22: the half width of the window in sigmas is any positive number; the window then lies symmetrically
    around the mean. *)
Theorem C22_num_sigma : forall n, ((0 < n)%Qc -> set_num_sigma n = Ok n) /\ (~ (0 < n)%Qc -> set_num_sigma n = Err EValueError).
Proof.
  intro n. unfold set_num_sigma. split; intro H.
  - apply qlt_iff in H. now rewrite H.
  - destruct (qlt 0 n) eqn:E; [|reflexivity]. now apply qlt_iff in E.
Qed.
Theorem C22_window : forall n mean sg, (0 < n)%Qc -> (0 < sg)%Qc -> let '(low, high) := get_bounds n mean sg in
  (low < mean < high)%Qc /\ (high - mean = n * sg)%Qc /\ (mean - low = n * sg)%Qc.
Proof.
  intros n mean sg N S. cbn. assert (P : (0 < n * sg)%Qc) by qnra. repeat split; try qlra; ring.
Qed.
Example C22_window_sat : (0 < zq 5)%Qc /\ (0 < qq 1 10)%Qc. Proof. split; reflexivity. Qed.

Definition one_bin (i : nat) : spectra :=
  Spec "b_mc" None [("energy_mc", SPar (zq 0) (zq 10) 10)]
       (ND [10] (fun idx => if idx_eqb idx [i] then zq 4 else 0%Qc)) (zq 4) 4 0 [].
Definition flat_weight (e m : Qc) : Qc := 1%Qc.
(** C22, what is false: content in the last bin disappears when the resolution is finer
    than the binning, although the value stays inside the axis; *)
Theorem C22_last_bin_lost_refuted :
  ~ (forall s s', wf_spectra s -> nonneg s ->
       weighted_smear "_ly200" (zq 5) (fun _ => qq 1 20) flat_weight "energy_mc" s = Ok s' ->
       s_sum s' = s_sum s).
Proof.
  intro H. specialize (H (one_bin 9)).
  destruct (weighted_smear "_ly200" (zq 5) (fun _ => qq 1 20) flat_weight "energy_mc" (one_bin 9)) as [s'|e] eqn:E; [|vm_compute in E; discriminate].
  specialize (H s').
  assert (X : s_sum s' = s_sum (one_bin 9)).
  { apply H; [| |reflexivity].
    - split; [split; [repeat constructor; cbn; intuition congruence|]|reflexivity].
      repeat constructor; vm_compute; reflexivity.
    - intros idx _. unfold one_bin. cbn. destruct (idx_eqb idx [9]); vm_compute; discriminate. }
  vm_compute in E. injection E as <-. vm_compute in X. discriminate.
Qed.
(** ... and a window that reaches the upper end of the axis never fills the last bin. *)
Theorem C22_last_bin_never_filled_refuted :
  ~ (forall s s', wf_spectra s -> nonneg s ->
       weighted_smear "_ly200" (zq 1) (fun _ => zq 3) flat_weight "energy_mc" s = Ok s' ->
       (0 < aget (s_data s) [8])%Qc -> (0 < aget (s_data s') [9])%Qc).
Proof.
  intro H. specialize (H (one_bin 8)).
  destruct (weighted_smear "_ly200" (zq 1) (fun _ => zq 3) flat_weight "energy_mc" (one_bin 8)) as [s'|e] eqn:E; [|vm_compute in E; discriminate].
  specialize (H s').
  assert (X : (0 < aget (s_data s') [9])%Qc).
  { apply H; [| |reflexivity|vm_compute; reflexivity].
    - split; [split; [repeat constructor; cbn; intuition congruence|]|reflexivity].
      repeat constructor; vm_compute; reflexivity.
    - intros idx _. unfold one_bin. cbn. destruct (idx_eqb idx [8]); vm_compute; discriminate. }
  vm_compute in E. injection E as <-. vm_compute in X. discriminate.
Qed.

(** C23: random smearing is the histogram of the draws that are in range, whatever the
    generator returns; *)
Theorem C23_random_histogram : forall draw c k par p suffix s,
  wf_cfg c -> nth_error c k = Some (par, p) -> wf_spectra s -> s_cfg s = c ->
  exists s', random_smear suffix draw par s = Ok s' /\ s_name s' = s_name s ++ suffix /\
    s_bg s' = s_bg s /\ s_cfg s' = s_cfg s /\ s_decays s' = s_decays s /\ s_raw s' = s_raw s /\
    s_bipo s' = s_bipo s /\ s_rois s' = s_rois s /\ ashape (s_data s') = ashape (s_data s) /\
    (forall tgt, valid_idx (ashape (s_data s)) tgt ->
       aget (s_data s') tgt = nq (length (filter (draw_in c k p tgt) (all_draws s draw)))) /\
    s_sum s' = nq (length (filter (fun d => qle (sp_low p) (snd d) && qlt (snd d) (sp_high p)) (all_draws s draw))).
Proof. exact random_l. Qed.
(** ... in particular it never holds more than the number of draws. *)
Theorem C23_random_bound : forall draw c k par p suffix s s',
  nth_error c k = Some (par, p) -> wf_spectra s -> s_cfg s = c ->
  random_smear suffix draw par s = Ok s' -> (s_sum s' <= nq (length (all_draws s draw)))%Qc.
Proof. exact random_le_l. Qed.
(** C23, what is false: RadialSmear.random_smear never works on a non-empty spectrum. *)
Theorem C23_radial_refuted : forall c k par p suffix s,
  wf_cfg c -> nth_error c k = Some (par, p) -> wf_spectra s -> s_cfg s = c ->
  (exists src, valid_idx (ashape (s_data s)) src /\ aget (s_data s) src <> 0%Qc) ->
  radial_random_smear suffix par s = Err ETypeError.
Proof. exact radial_l. Qed.
(** C23: smearing a parameter the spectrum does not have. *)
Theorem C23_unknown : forall suffix draw par s, ~ In par (map fst (s_cfg s)) ->
  random_smear suffix draw par s = Err EIndexError /\ radial_random_smear suffix par s = Err EIndexError.
Proof.
  intros suffix draw par s N. unfold random_smear, radial_random_smear.
  assert (E : str_in par (get_pars (s_cfg s)) = false).
  { destruct (str_in par (get_pars (s_cfg s))) eqn:E; [|reflexivity]. exfalso. apply N. unfold str_in in E. apply existsb_exists in E as (x & I & X). apply String.eqb_eq in X. now subst x. }
  now rewrite E.
Qed.
Example C23_unknown_sat : ~ In "radial_mc" (map fst (s_cfg (one_bin 1))). Proof. cbn. intuition discriminate. Qed.

(** Examples: two-dimensional spectrum, smeared along its second axis. *)
Definition ex_smear : spectra :=
  Spec "b_mc" None [("radial_mc", SPar (zq 0) (zq 2) 2); ("energy_mc", SPar (zq 0) (zq 5) 5)]
       (ND [2; 5] (fun idx => if idx_eqb idx [1; 2] then zq 6 else 0%Qc)) (zq 6) 6 0 [].
Example C22_ex : wf_spectra ex_smear /\ nonneg ex_smear /\
  nth_error (s_cfg ex_smear) 1 = Some ("energy_mc", SPar (zq 0) (zq 5) 5) /\
  match weighted_smear "_ly200" (zq 1) (fun _ => 1%Qc) flat_weight "energy_mc" ex_smear with
  | Ok s' => map (fun i => this (aget (s_data s') [1; i])) [0; 1; 2; 3; 4] = map this [zq 0; zq 2; zq 2; zq 2; zq 0]
  | Err _ => False
  end.
Proof.
  split; [split; [split; [repeat constructor; cbn; intuition congruence|]|reflexivity]; repeat constructor; vm_compute; reflexivity|].
  split; [intros idx _; unfold ex_smear; cbn; destruct (idx_eqb idx [1; 2]); vm_compute; discriminate|].
  split; [reflexivity|vm_compute; reflexivity].
Qed.
Example C23_ex :
  match random_smear "_ly200" (fun _ i => nq i) "energy_mc" ex_smear with
  | Ok s' => this (s_sum s') = this (zq 5) /\ this (aget (s_data s') [1; 4]) = this (zq 1)
  | Err _ => False
  end /\ length (all_draws ex_smear (fun _ i => nq i)) = 6.
Proof. vm_compute. repeat split. Qed.

Print Assumptions C22_smear_kernel.
Print Assumptions C22_smear_total.
Print Assumptions C22_smear_conserved.
Print Assumptions C23_random_histogram.
Print Assumptions C23_random_bound.
Print Assumptions C23_radial_refuted.

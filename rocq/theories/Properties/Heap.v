(** C21: spectra are independent of each other.  The full statement is false of the code
    (the refutations at the end): spectra that share a configuration object, an array or
    a dictionary of ROIs see each other's changes.  Proved: independence whenever nothing
    that a call changes is shared, two classes of whole programs for which this is always
    so, and exactly what is seen through a shared object. *)
From Verif Require Import Model.Base Model.PyStr Model.NDArray Model.Param Model.Config Model.Spectra
  Model.Smear Model.Shift Model.Heap.
From Verif Require Import Spec.AxisSpec Spec.ArraySpec Spec.SpectraSpec Spec.HeapSpec.
From Verif Require Import Proofs.HeapLemmas.
Local Open Scope string_scope.

(** A call leaves every other spectrum exactly as it was, if they share nothing that the
    call changes. *)
Theorem C21_frame_partial : forall (a : call) (h : heap) (r' : nat) (o' : hspec) (s : spectra),
  wf_heap h -> target a <> Some r' -> nth_error (h_objs h) r' = Some o' ->
  (forall r o, target a = Some r -> nth_error (h_objs h) r = Some o -> unshared a o o') ->
  abs h r' = Some s -> abs (fst (h_step a h)) r' = Some s.
Proof. exact step_frame. Qed.

(** A history of calls in which no call changes something shared has the effect and the
    outcomes it would have on independent values. *)
Theorem C21_history_partial : forall (l : list call) (h : heap) (w : list spectra),
  wf_heap h -> agrees h w -> all_exclusive l h ->
  agrees (fst (h_run l h)) (fst (w_run l w)) /\ snd (h_run l h) = snd (w_run l w).
Proof. exact run_refines. Qed.

(** Programs in which each spectrum has a configuration of its own and no spectrum is
    copied, smeared or shifted: any interleaving of fills, additions, scalings, rebinnings,
    shrinkings and cuts, accepted or not. *)
Theorem C21_own_config_partial : forall l : list call, forallb own_config l = true ->
  agrees (fst (h_run l empty_heap)) (fst (w_run l [])) /\ snd (h_run l empty_heap) = snd (w_run l []).
Proof. exact own_config_l. Qed.

(** Programs that may share configurations and may smear, shift and scale spectra, but do
    not change bounds or binning and do not copy spectra themselves. *)
Theorem C21_no_resize_partial : forall l : list call, forallb no_resize l = true ->
  agrees (fst (h_run l empty_heap)) (fst (w_run l [])) /\ snd (h_run l empty_heap) = snd (w_run l []).
Proof. exact no_resize_l. Qed.

(** Every heap a program can reach is well formed. *)
Theorem C21_reachable : forall (l : list call) (h : heap), wf_heap h -> wf_heap (fst (h_run l h)).
Proof. exact run_wf. Qed.

(** Exactly what another spectrum shows of a call on [r]: the configuration if it is the
    same object, the ROIs if they are the same dictionary, the entries added in place if
    it is the same array; nothing else. *)
Theorem C21_shared : forall (a : call) (h : heap) (r r' : nat) (o o' : hspec) (t : spectra),
  wf_heap h -> target a = Some r -> r' <> r ->
  nth_error (h_objs h) r = Some o -> nth_error (h_objs h) r' = Some o' -> abs h r' = Some t ->
  exists s1 t1, abs (fst (h_step a h)) r = Some s1 /\ abs (fst (h_step a h)) r' = Some t1 /\
    s_name t1 = s_name t /\ s_bg t1 = s_bg t /\ s_decays t1 = s_decays t /\ s_raw t1 = s_raw t /\ s_bipo t1 = s_bipo t /\
    s_cfg t1 = (if (o_cfg o' =? o_cfg o)%nat then s_cfg s1 else s_cfg t) /\
    s_rois t1 = (if (o_rois o' =? o_rois o)%nat then s_rois s1 else s_rois t) /\
    (adds_entries a = false \/ o_buf o' <> o_buf o -> s_data t1 = s_data t) /\
    (adds_entries a = true -> o_buf o' = o_buf o -> o_view o' = o_view o -> s_data t1 = s_data s1).
Proof. exact step_shared. Qed.

(** ** Examples and refutations *)
Definition ex_axis : sconfig := [("energy_mc", SPar 0%Qc (zq 10) 10)].
Definition ex_at (n : Z) : dict Qc := [("energy_mc", qq (2 * n + 1) 2)].
Definition seen (h : heap) (r : nat) (f : spectra -> Q) : option Q :=
  match abs h r with Some s => Some (f s) | None => None end.
Definition entry (n : nat) (s : spectra) : Q := this (aget (s_data s) [n]).
Definition nbins (s : spectra) : Q :=
  match s_cfg s with (_, p) :: _ => inject_Z (sp_bins p) | [] => 0%Q end.
Definition nrois (s : spectra) : Q := inject_Z (Z.of_nat (length (s_rois s))).
Definition shape0 (s : spectra) : Q := inject_Z (Z.of_nat (nth 0 (ashape (s_data s)) 0)).

(** Two spectra with their own configurations, interleaved. *)
Definition ex_own : list call :=
  [CNew "a" (zq 10) ex_axis None; CNew "b" (zq 20) ex_axis None; CFill (zq 3) (ex_at 4) 0; CFill (zq 5) (ex_at 6) 1;
   CShrink [("energy_mc_low", zq 2); ("energy_mc_high", zq 6)] 0; CFill 1%Qc (ex_at 9) 0; CFill 1%Qc (ex_at 9) 1; CScale (zq 40) 1; CRebin [5%Z] 1].
Example C21_own_ex : forallb own_config ex_own = true /\
  snd (h_run ex_own empty_heap) = [None; None; None; None; None; Some EValueError; None; None; None] /\
  (let h := fst (h_run ex_own empty_heap) in
   (seen h 0 nbins, seen h 0 (entry 2), seen h 1 nbins, seen h 1 (entry 3), seen h 1 (entry 4))
   = (Some 4, Some 3, Some 5, Some 10, Some 2)%Q).
Proof. vm_compute. repeat split; reflexivity. Qed.

(** A spectrum and its shifted version, then fills, scalings and an addition. *)
Definition ex_shift : derivation := DShift "_shift2" (zq 2) (fun x => x) "energy_mc".
Definition ex_no_resize : list call :=
  [CNew "a" (zq 10) ex_axis None; CFill (zq 3) (ex_at 4) 0; CDerive ex_shift 0; CNewOn "c" 1%Qc 0 None;
   CFill (zq 7) (ex_at 1) 1; CScale (zq 20) 1; CAdd 1 2; CFill (zq 2) (ex_at 1) 2].
Example C21_no_resize_ex : forallb no_resize ex_no_resize = true /\
  snd (h_run ex_no_resize empty_heap) = [None; None; None; None; None; None; None; None] /\
  (let h := fst (h_run ex_no_resize empty_heap) in
   (seen h 0 (entry 4), seen h 0 (entry 6), seen h 1 (entry 6), seen h 1 (entry 1), seen h 2 (entry 1), seen h 2 (entry 6))
   = (Some 3, Some 0, Some 6, Some 14, Some 16, Some 6)%Q).
Proof. vm_compute. repeat split; reflexivity. Qed.

(** copy.copy is safe once the copy has been scaled: scale binds a new array, so that the
    fill on the copy changes nothing shared. *)
Definition ex_copy_scale : list call :=
  [CNew "a" (zq 10) ex_axis None; CFill (zq 3) (ex_at 4) 0; CCopy 0; CScale (zq 20) 1; CFill 1%Qc (ex_at 0) 1].
Example C21_history_ex : all_exclusive ex_copy_scale empty_heap /\
  (let h := fst (h_run ex_copy_scale empty_heap) in
   (seen h 0 (entry 4), seen h 0 (entry 0), seen h 1 (entry 4), seen h 1 (entry 0)) = (Some 3, Some 0, Some 6, Some 1)%Q).
Proof.
  split; [|vm_compute; reflexivity].
  cbn [all_exclusive ex_copy_scale]. repeat match goal with |- _ /\ _ => split end; try exact I;
    intros r r' o o' T N H H'; try discriminate T; (split; [|split]); try (intro X; discriminate X); intros _ E; injection T as <-.
  - destruct r' as [|[|r']]; [now apply N|discriminate H'|discriminate H'].
  - destruct r' as [|[|[|r']]]; [|now apply N|discriminate H'|discriminate H'].
    assert (B : option_map o_buf (Some o) = Some 1) by (rewrite <- H; reflexivity).
    assert (B' : option_map o_buf (Some o') = Some 0) by (rewrite <- H'; reflexivity).
    cbn in B, B'. congruence.
Qed.

(** A fill on a copy is a fill on the original. *)
Definition ex_copy_fill : list call := [CNew "a" (zq 10) ex_axis None; CCopy 0; CFill (zq 3) (ex_at 4) 1].
Theorem C21_copy_fill_refuted : exists l s s',
  nth_error (fst (w_run l [])) 0 = Some s /\ abs (fst (h_run l empty_heap)) 0 = Some s' /\
  aget (s_data s) [4] <> aget (s_data s') [4].
Proof.
  exists ex_copy_fill. eexists. eexists. split; [reflexivity|]. split; [reflexivity|].
  intro H. apply (f_equal this) in H. vm_compute in H. discriminate H.
Qed.

(** Shrinking a smeared, shifted or otherwise derived version changes the bounds and the
    number of bins of the original but not its data: it is no longer consistent. *)
Definition ex_derived_shrink : list call :=
  [CNew "a" (zq 10) ex_axis None; CFill (zq 3) (ex_at 4) 0; CDerive ex_shift 0;
   CShrink [("energy_mc_low", zq 2); ("energy_mc_high", zq 7)] 1].
Theorem C21_derived_shrink_refuted : exists l s s',
  nth_error (fst (w_run l [])) 0 = Some s /\ abs (fst (h_run l empty_heap)) 0 = Some s' /\
  wf_spectra s /\ ~ consistent s'.
Proof.
  exists ex_derived_shrink. eexists. eexists. split; [reflexivity|]. split; [reflexivity|]. split.
  - split; [split|reflexivity]; [|repeat constructor].
    constructor; [intros []|constructor].
  - intro H. unfold consistent in H. vm_compute in H. discriminate H.
Qed.

(** Likewise two spectra made with one configuration object, and rebinning. *)
Definition ex_shared_rebin : list call :=
  [CNew "a" (zq 10) ex_axis None; CNewOn "b" (zq 10) 0 None; CRebin [5%Z] 1].
Theorem C21_shared_rebin_refuted : exists l s s',
  nth_error (fst (w_run l [])) 0 = Some s /\ abs (fst (h_run l empty_heap)) 0 = Some s' /\
  wf_spectra s /\ ~ consistent s'.
Proof.
  exists ex_shared_rebin. eexists. eexists. split; [reflexivity|]. split; [reflexivity|]. split.
  - split; [split|reflexivity]; [|repeat constructor].
    constructor; [intros []|constructor].
  - intro H. unfold consistent in H. vm_compute in H. discriminate H.
Qed.

(** An ROI recorded on the derived spectrum appears on the original. *)
Definition ex_roi : list call :=
  [CNew "a" (zq 10) ex_axis None; CFill (zq 3) (ex_at 4) 0; CDerive ex_shift 0; CRoi (zq 2) (zq 7) "energy_mc" 1].
Theorem C21_roi_refuted : exists l s s',
  nth_error (fst (w_run l [])) 0 = Some s /\ abs (fst (h_run l empty_heap)) 0 = Some s' /\
  length (s_rois s) = 0%nat /\ length (s_rois s') = 1%nat.
Proof.
  exists ex_roi. eexists. eexists. split; [reflexivity|]. split; [reflexivity|]. split; vm_compute; reflexivity.
Qed.

Print Assumptions C21_frame_partial.
Print Assumptions C21_history_partial.
Print Assumptions C21_own_config_partial.
Print Assumptions C21_no_resize_partial.
Print Assumptions C21_reachable.
Print Assumptions C21_shared.
Print Assumptions C21_copy_fill_refuted.
Print Assumptions C21_derived_shrink_refuted.
Print Assumptions C21_shared_rebin_refuted.
Print Assumptions C21_roi_refuted.

(** C86 with one statistic per bin. *)
From Verif Require Import Model.Base Model.PyStr Model.NDArray Model.Param Model.Config Model.Spectra
  Model.Smear Model.Shift Model.FitParam Model.Heap Model.Minimise Model.Fit Model.FitPrepare Model.Limit Model.FitLimit Model.Statistics.
From Verif Require Import Spec.AxisSpec Spec.ArraySpec Spec.SpectraSpec Spec.ShrinkSpec Spec.HeapSpec Spec.SearchSpec Spec.FitRunSpec Spec.LimitSpec Spec.LimitBinsSpec
  Spec.FitLimitSpec Spec.FitLimitBinsSpec Spec.StatisticsSpec Spec.StatisticsBinsSpec.
From Verif Require Import Proofs.StatisticsBins Properties.Fit Properties.Scan Properties.ScanBins.
Local Open Scope string_scope.

(** After any history the fits give, for each scaling, the statistics of the bins and the
    penalty of the best fit to the spectra; but numpy makes no array of numbers of them (the
    statistics have the shape [sh], the penalty is a single number), whatever the number of
    bins. *)
Theorem C86_per_bin : forall su u ft p V s0 g ls sh history (before : list question) scales,
  limit_ready su u ft p s0 -> distinct_printing ft V -> (length (global_pars ft) <= 1)%nat ->
  searches_bins su u g ls sh -> Forall (good_args ft V) (combinations ls) -> Forall (fun y => fp_sigma y <> None) (gs_pars g) ->
  Forall (event_ok ft V s0) history -> Forall (question_gives_bins sh (value_with su ft (z_heap (u_set u)) p) s0 ls) before ->
  scales <> [] -> scales_give_bins sh (value_with su ft (z_heap (u_set u)) p) s0 ls scales ->
  let u' := ask_all su (pt_ref p) (gs_pars g) before (u_run su (pt_ref p) history u) in
  exists xs, snd (all_returned su (pt_ref p) scales u') = Ok xs /\ pairs_of_best sh (value_with su ft (z_heap (u_set u)) p) s0 (combinations ls) scales xs /\
    snd (get_statistics su (pt_ref p) scales u') = Ok None.
Proof. exact statistics_bins_l. Qed.
(** Any number of global parameters; only the last of them is applied to the signal (C66). *)
Theorem C86_per_bin_last : forall su u ft p V s0 g ls sh history (before : list question) scales,
  limit_ready su u ft p s0 -> distinct_printing ft V ->
  searches_bins su u g ls sh -> Forall (good_args ft V) (combinations ls) -> Forall (fun y => fp_sigma y <> None) (gs_pars g) ->
  Forall (event_ok ft V s0) history -> Forall (question_gives_bins sh (value_last_with su ft (z_heap (u_set u)) p) s0 ls) before ->
  scales <> [] -> scales_give_bins sh (value_last_with su ft (z_heap (u_set u)) p) s0 ls scales ->
  let u' := ask_all su (pt_ref p) (gs_pars g) before (u_run su (pt_ref p) history u) in
  exists xs, snd (all_returned su (pt_ref p) scales u') = Ok xs /\ pairs_of_best sh (value_last_with su ft (z_heap (u_set u)) p) s0 (combinations ls) scales xs /\
    snd (get_statistics su (pt_ref p) scales u') = Ok None.
Proof. exact statistics_bins_last. Qed.

(** The fit of C67_per_bin_ex (which shows the other hypotheses). *)
Definition bin_scales : list Qc := [0%Qc; 1%Qc; zq 6].
Definition bin_table (x : res (list returned)) : res (list (list Q * Q)) :=
  rmap (map (fun r => match r with Pair s q => (map (fun i => this (aget s i)) (c_order (ashape s)), this (aget q [])) | _ => ([], 0%Q) end)) x.
Lemma bin_scales_give : scales_give_bins [4] (value_with b_setup s_fit (z_heap (u_set b_start)) s_part) s_signal g_values bin_scales.
Proof.
  split. { constructor; [left; vm_compute; reflexivity|]. repeat (constructor; [right; positive|]). constructor. }
  intros k v Hk. revert v. apply fours_all. revert k Hk. apply forallb_forall. vm_compute. reflexivity.
Qed.
Example C86_per_bin_ex :
  Forall (question_gives_bins [4] (value_with b_setup s_fit (z_heap (u_set b_start)) s_part) s_signal g_values) [AskLimit (as_call b_call); AskStatistics bin_scales] /\
  scales_give_bins [4] (value_with b_setup s_fit (z_heap (u_set b_start)) s_part) s_signal g_values bin_scales.
Proof. split; [constructor; [exact b_call_ok|constructor; [exact bin_scales_give|constructor]]|exact bin_scales_give]. Qed.
Example C86_per_bin_value :
  bin_table (snd (all_returned b_setup 4 bin_scales b_start)) =
    Ok [([4; 1; 4; 0], 2); ([4; 1; 4; 1], 2); ([49 # 4; 9 # 4; 1; 0], 2)]%Q.
Proof. vm_compute. reflexivity. Qed.

Print Assumptions C86_per_bin.
Print Assumptions C86_per_bin_last.

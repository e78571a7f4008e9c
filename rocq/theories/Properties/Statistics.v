(** C86: get_statistics of a Limit returns the statistics of the best fits for every scaling of
    the signal, whatever was asked before; get_array_limit reads a limit off them. *)
From Verif Require Import Model.Base Model.PyStr Model.NDArray Model.Param Model.Config Model.Spectra
  Model.Smear Model.Shift Model.FitParam Model.Heap Model.Minimise Model.Fit Model.FitPrepare Model.Limit Model.FitLimit Model.Statistics.
From Verif Require Import Spec.AxisSpec Spec.ArraySpec Spec.SpectraSpec Spec.ShrinkSpec Spec.HeapSpec Spec.SearchSpec Spec.FitRunSpec Spec.LimitSpec Spec.FitLimitSpec Spec.FitMethodSpec Spec.StatisticsSpec.
From Verif Require Import Proofs.QcLemmas Proofs.HeapLemmas Proofs.StatisticsLemmas.
From Verif Require Import Properties.Fit Properties.Scan.
Local Open Scope string_scope.

(** With floating backgrounds the answer has one row for each scaling, which holds statistic and
    penalty of the best fit to the spectra the fit was given, with the signal at that scaling;
    after any history of evaluations and scalings and after any calls of get_limit and
    get_statistics.  Partial: at most one global parameter, statistics are not kept per bin. *)
Theorem C86_rows_partial : forall su u ft p V s0 g ls history (before : list question) scales,
  limit_ready su u ft p s0 -> distinct_printing ft V -> (length (global_pars ft) <= 1)%nat ->
  searches su u g ls -> Forall (good_args ft V) (combinations ls) ->
  Forall (event_ok ft V s0) history -> Forall (question_gives (value_with su ft (z_heap (u_set u)) p) s0 ls) before ->
  scales <> [] -> scales_give (value_with su ft (z_heap (u_set u)) p) s0 ls scales ->
  exists a, snd (get_statistics su (pt_ref p) scales (ask_all su (pt_ref p) (gs_pars g) before (u_run su (pt_ref p) history u))) = Ok (Some a) /\
    rows_of_best (value_with su ft (z_heap (u_set u)) p) s0 (combinations ls) scales a.
Proof. exact statistics_l. Qed.
(** Any number of global parameters; only the last of them is applied to the signal (C66). *)
Theorem C86_rows_last : forall su u ft p V s0 g ls history (before : list question) scales,
  limit_ready su u ft p s0 -> distinct_printing ft V ->
  searches su u g ls -> Forall (good_args ft V) (combinations ls) ->
  Forall (event_ok ft V s0) history -> Forall (question_gives (value_last_with su ft (z_heap (u_set u)) p) s0 ls) before ->
  scales <> [] -> scales_give (value_last_with su ft (z_heap (u_set u)) p) s0 ls scales ->
  exists a, snd (get_statistics su (pt_ref p) scales (ask_all su (pt_ref p) (gs_pars g) before (u_run su (pt_ref p) history u))) = Ok (Some a) /\
    rows_of_best (value_last_with su ft (z_heap (u_set u)) p) s0 (combinations ls) scales a.
Proof. exact statistics_last_l. Qed.

(** Read by get_array_limit, these rows give the first scaling with a best fit whose statistic and
    penalty exceed the threshold together.  (Unlike get_limit it subtracts no minimum.) *)
Theorem C86_array_limit : forall value s0 points scales a lim, scales <> [] -> rows_of_best value s0 points scales a ->
  match get_array_limit scales a lim with
  | Ok x => exists j t q, nth_error scales j = Some x /\ best_point (value (at_scale s0 x)) points t q /\ (lim < t + q)%Qc /\
      forall j' x' t' q', (j' < j)%nat -> nth_error scales j' = Some x' -> best_point (value (at_scale s0 x')) points t' q' -> (t' + q' <= lim)%Qc
  | Err er => er = ELimitError /\ forall j x t q, nth_error scales j = Some x -> best_point (value (at_scale s0 x)) points t q -> (t + q <= lim)%Qc
  end.
Proof. exact array_limit_rows. Qed.

(** Without floating backgrounds the answer has one number for each scaling: the statistic of
    the data and of the fixed background plus the signal at that scaling; an exception of the
    first fit that raises comes out. *)
Theorem C86_fixed : forall su u r sp s0 o e fps (before : list (list Qc)) scales, fixed_ready su u r sp s0 o e ->
  let answer := snd (get_statistics su r scales (ask_all su r fps (map AskStatistics before) u)) in
  (forall ts, rmapM (fun k => fixed_value su o e sp (at_scale s0 k)) scales = Ok (map RNum ts) ->
     exists a, answer = Ok (Some a) /\ ashape a = [length scales] /\ forall j t, nth_error ts j = Some t -> aget a [j] = t) /\
  (forall x, rmapM (fun k => fixed_value su o e sp (at_scale s0 k)) scales = Err x -> answer = Err x).
Proof. exact fixed_statistics_l. Qed.

(** ** Examples: the fit of C67_ex *)
Definition st_scales : list Qc := [0%Qc; 1%Qc; zq 3; zq 6; zq 9].
Definition st_before : list question := [AskLimit s_call; AskStatistics [zq 20; 0%Qc]].
Definition table (x : res (option ndarray)) : res (option (list nat * list Q)) :=
  rmap (option_map (fun a => (ashape a, map (fun i => this (aget a i)) (c_order (ashape a))))) x.
Lemma st_gives : scales_give (value_with s_setup s_fit (z_heap (u_set s_start)) s_part) s_signal g_values st_scales.
Proof.
  split.
  - unfold st_scales. constructor; [left; vm_compute; reflexivity|]. repeat (constructor; [right; positive|]). constructor.
  - intros k v Hk Hv. revert v Hv. apply numbers_all. revert k Hk. apply forallb_forall. vm_compute. reflexivity.
Qed.
Lemma st_before_gives : Forall (question_gives (value_with s_setup s_fit (z_heap (u_set s_start)) s_part) s_signal g_values) st_before.
Proof.
  constructor; [exact s_call_ok|]. constructor; [|constructor]. split.
  - constructor; [right; positive|]. constructor; [left; vm_compute; reflexivity|constructor].
  - intros k v Hk Hv. revert v Hv. apply numbers_all. revert k Hk. apply forallb_forall. vm_compute. reflexivity.
Qed.
Example C86_ex :
  limit_ready s_setup s_start s_fit s_part s_signal /\ searches s_setup s_start s_search g_values /\ Forall (event_ok s_fit ex_V s_signal) s_history /\
  scales_give (value_with s_setup s_fit (z_heap (u_set s_start)) s_part) s_signal g_values st_scales /\
  Forall (question_gives (value_with s_setup s_fit (z_heap (u_set s_start)) s_part) s_signal g_values) st_before /\
  table (snd (get_statistics s_setup 4 st_scales (ask_all s_setup 4 s_pars st_before (u_run s_setup 4 s_history s_start)))) =
    Ok (Some ([5; 2]%nat, [9; 2; 10; 2; 18; 2; 31 # 2; 2; 61 # 2; 2]%Q)) /\
  this_res (match snd (get_statistics s_setup 4 st_scales s_start) with Ok (Some a) => get_array_limit st_scales a (zq 15) | _ => Err EException end) = Ok 3%Q.
Proof.
  split; [exact s_ready|]. split; [exact s_searches|]. split; [exact s_events|]. split; [exact st_gives|]. split; [exact st_before_gives|].
  split; vm_compute; reflexivity.
Qed.
(** The same spectra without floating backgrounds. *)
Definition fx_set : fitset := FitSet ex_heap (Some [("energy", (0%Qc, zq 4))]) (Some (0, ["energy_mc"])) (Some (1, ["energy_mc"])) None None.
Definition fx_start : fitter := Fitter fx_set [] [None; None; None] (Some s_search) true.
Definition projected (s : spectra) : ndarray := match nd_project ["energy_mc"] s with Ok a => a | Err _ => as_array (RNum 0) end.
Example C86_fixed_ex :
  fixed_ready s_setup fx_start 4 ["energy_mc"] s_signal (projected (shows ex_heap 0)) (projected (shows ex_heap 1)) /\
  table (snd (get_statistics s_setup 4 st_scales (ask_all s_setup 4 s_pars (map AskStatistics [[zq 20]; [0%Qc]]) fx_start))) = Ok (Some ([5]%nat, [45; 36; 24; 21; 36]%Q)).
Proof.
  split.
  - constructor.
    + reflexivity.
    + reflexivity.
    + exact ex_wf.
    + split; [apply ex_abs; ex_lt|]. intro E. apply (f_equal this) in E. vm_compute in E. discriminate.
    + unfold s_signal. rewrite ex_cfg by ex_lt. reflexivity.
    + exists 0%nat, ["energy_mc"], (shows ex_heap 0). split; [reflexivity|]. split; [discriminate|]. split; [apply ex_abs; ex_lt|]. vm_compute; reflexivity.
    + exists 1%nat, ["energy_mc"], (shows ex_heap 1). split; [reflexivity|]. split; [discriminate|]. split; [apply ex_abs; ex_lt|]. vm_compute; reflexivity.
  - vm_compute. reflexivity.
Qed.

Print Assumptions C86_rows_partial.
Print Assumptions C86_rows_last.
Print Assumptions C86_array_limit.
Print Assumptions C86_fixed.

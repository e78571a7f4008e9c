(** C67 with one statistic per bin. *)
From Verif Require Import Model.Base Model.PyStr Model.NDArray Model.Param Model.Config Model.Spectra
  Model.Smear Model.Shift Model.FitParam Model.Heap Model.Minimise Model.Fit Model.FitPrepare Model.Limit Model.FitLimit.
From Verif Require Import Spec.AxisSpec Spec.ArraySpec Spec.SpectraSpec Spec.ShrinkSpec Spec.HeapSpec Spec.SearchSpec Spec.FitRunSpec Spec.LimitSpec Spec.LimitBinsSpec
  Spec.FitLimitSpec Spec.FitLimitBinsSpec.
From Verif Require Import Proofs.QcLemmas Proofs.HeapLemmas Proofs.FitLemmas Proofs.FitRun Proofs.FitKinds Proofs.HomogLemmas Proofs.LimitScan Proofs.LimitFits Proofs.LimitFitsBins.
From Verif Require Import Properties.Fit Properties.Scan.
Local Open Scope string_scope.

(** C67 for a fit whose statistic, search and limit keep one value per bin (of the shape [sh]):
    after any history, and after other calls of get_limit, the answer is determined by the
    best fits to the spectra the fit was given, a fit being best when the total of its bins
    plus the penalty is smallest. *)
Theorem C67_per_bin : forall su u ft p V s0 g ls sh history (before : list bcall) (c : bcall),
  limit_ready su u ft p s0 -> distinct_printing ft V -> (length (global_pars ft) <= 1)%nat ->
  searches_bins su u g ls sh -> Forall (good_args ft V) (combinations ls) -> Forall (fun y => fp_sigma y <> None) (gs_pars g) ->
  Forall (event_ok ft V s0) history -> Forall (call_gives_bins sh (value_with su ft (z_heap (u_set u)) p) s0 ls) before ->
  call_gives_bins sh (value_with su ft (z_heap (u_set u)) p) s0 ls c ->
  limit_right_bins sh (value_with su ft (z_heap (u_set u)) p) s0 (combinations ls) c
    (snd (run_call su (pt_ref p) (gs_pars g) (as_call c) (after_calls su (pt_ref p) (gs_pars g) (map as_call before) (u_run su (pt_ref p) history u)))).
Proof. exact limit_bins_l. Qed.
(** With any number of global parameters: the same with only the last applied to the signal. *)
Theorem C67_per_bin_last : forall su u ft p V s0 g ls sh history (before : list bcall) (c : bcall),
  limit_ready su u ft p s0 -> distinct_printing ft V ->
  searches_bins su u g ls sh -> Forall (good_args ft V) (combinations ls) -> Forall (fun y => fp_sigma y <> None) (gs_pars g) ->
  Forall (event_ok ft V s0) history -> Forall (call_gives_bins sh (value_last_with su ft (z_heap (u_set u)) p) s0 ls) before ->
  call_gives_bins sh (value_last_with su ft (z_heap (u_set u)) p) s0 ls c ->
  limit_right_bins sh (value_last_with su ft (z_heap (u_set u)) p) s0 (combinations ls) c
    (snd (run_call su (pt_ref p) (gs_pars g) (as_call c) (after_calls su (pt_ref p) (gs_pars g) (map as_call before) (u_run su (pt_ref p) history u)))).
Proof. exact limit_bins_last_l. Qed.
(** The fits determine the answer ... *)
Theorem C67_per_bin_one_answer : forall sh value s0 points c a a',
  limit_right_bins sh value s0 points c a -> limit_right_bins sh value s0 points c a' -> a = a'.
Proof. exact right_bins_unique. Qed.
(** ... so it does not depend on what was done before. *)
Theorem C67_per_bin_repeat : forall su u ft p V s0 g ls sh history history' (before before' : list bcall) (c : bcall),
  limit_ready su u ft p s0 -> distinct_printing ft V ->
  searches_bins su u g ls sh -> Forall (good_args ft V) (combinations ls) -> Forall (fun y => fp_sigma y <> None) (gs_pars g) ->
  Forall (event_ok ft V s0) history -> Forall (call_gives_bins sh (value_last_with su ft (z_heap (u_set u)) p) s0 ls) before ->
  Forall (event_ok ft V s0) history' -> Forall (call_gives_bins sh (value_last_with su ft (z_heap (u_set u)) p) s0 ls) before' ->
  call_gives_bins sh (value_last_with su ft (z_heap (u_set u)) p) s0 ls c ->
  snd (run_call su (pt_ref p) (gs_pars g) (as_call c) (after_calls su (pt_ref p) (gs_pars g) (map as_call before) (u_run su (pt_ref p) history u))) =
  snd (run_call su (pt_ref p) (gs_pars g) (as_call c) (after_calls su (pt_ref p) (gs_pars g) (map as_call before') (u_run su (pt_ref p) history' u))).
Proof. intros. eapply right_bins_unique; eapply limit_bins_last_l; eassumption. Qed.

(** The fit of C67_ex with the statistic of every bin. *)
Definition chi2_bins (o e : list Qc) : res sres :=
  let l := zip_with (fun x y => (x - y) * (x - y))%Qc o e in Ok (RArr (ND [length l] (fun i => nth (hd 0%nat i) l 0%Qc))).
Definition b_setup : setup := Setup ex_str (ft_pars s_fit) [[1]; [2]] 2 chi2_bins quad true false true no_log (fun _ => None).
Definition b_search : gsearch := new_search s_pars [4] (Some "fit") true true.
Definition b_start : fitter := Fitter s_set [] [None; None; None] (Some b_search) false.
Definition b_call : bcall := ([0%Qc; 1%Qc; zq 3; zq 6; zq 9], zq 10).
Lemma b_ready : limit_ready b_setup b_start s_fit s_part s_signal.
Proof.
  constructor.
  - exists 0%nat, ["energy_mc"]. split; reflexivity.
  - exact s_prepared.
  - reflexivity.
  - apply ex_abs. ex_lt.
  - unfold s_signal. rewrite ex_cfg by ex_lt. reflexivity.
  - split; [discriminate|]. intros r pars H. injection H as <- _. discriminate.
  - intros i q Hi H. cbn in Hi. destruct Hi as [<-|[]]. injection H as <-. apply commutes_shift. intros x y c v _. unfold zero_spline. ring.
  - split; reflexivity.
Qed.
Lemma b_searches : searches_bins b_setup b_start b_search g_values [4].
Proof.
  constructor.
  - reflexivity.
  - exact s_grid.
  - split; reflexivity.
  - repeat (split; [first [reflexivity|discriminate]|]). repeat constructor.
  - split; [repeat (constructor; [discriminate|]); constructor|now left].
  - repeat (constructor; [split; reflexivity|]). constructor.
  - right. vm_compute. reflexivity.
Qed.
Definition is_four (x : res (sres * Qc)) : bool := match x with Ok (RArr a, _) => idx_eqb (ashape a) [4] | _ => false end.
Lemma idx_eqb_four l : idx_eqb l [4] = true -> l = [4].
Proof.
  destruct l as [|x [|y l]]; cbn; try discriminate; intro H; [|destruct (x =? 4)%nat; discriminate].
  rewrite Bool.andb_true_r in H. apply Nat.eqb_eq in H. now subst.
Qed.
Lemma fours_all f (l : list (list Qc)) : forallb (fun v => is_four (f v)) l = true -> forall v, In v l -> exists a q, f v = Ok (RArr a, q) /\ ashape a = [4].
Proof.
  intros H v I. apply (proj1 (forallb_forall _ _) H) in I. unfold is_four in I. destruct (f v) as [[[t|a] q]|]; try discriminate.
  exists a, q. split; [reflexivity|now apply idx_eqb_four].
Qed.
Lemma b_call_ok : call_gives_bins [4] (value_with b_setup s_fit (z_heap (u_set b_start)) s_part) s_signal g_values b_call.
Proof.
  unfold call_gives_bins, b_call. cbn [fst]. split; [discriminate|]. split.
  - constructor; [left; vm_compute; reflexivity|]. repeat (constructor; [right; positive|]). constructor.
  - intros sig v Hs Hv. revert v Hv. apply fours_all. revert sig Hs. apply forallb_forall. vm_compute. reflexivity.
Qed.
Example C67_per_bin_ex :
  limit_ready b_setup b_start s_fit s_part s_signal /\ searches_bins b_setup b_start b_search g_values [4] /\ Forall (good_args s_fit ex_V) (combinations g_values) /\
  Forall (fun y => fp_sigma y <> None) (gs_pars b_search) /\
  call_gives_bins [4] (value_with b_setup s_fit (z_heap (u_set b_start)) s_part) s_signal g_values b_call.
Proof.
  split; [exact b_ready|]. split; [exact b_searches|]. split. { unfold g_values. cbn [combinations flat_map map app]. repeat (constructor; [ex_args|]). constructor. }
  split; [repeat (constructor; [discriminate|]); constructor|exact b_call_ok].
Qed.
(** The totals exclude 3 decays (of the five scalings) and 9 (of the nine) at the threshold 10.  The scan over bins starts at the
    place of the smallest difference of a single bin, counted in bins: beyond the five
    scalings here, and at the seventh of the nine below. *)
Definition b_nine : list Qc := [zq 3; zq 6; zq 9; zq 12; zq 15; zq 18; zq 21; zq 24; zq 27].
Example C67_per_bin_value :
  this_res (snd (run_call s_setup 4 s_pars (as_call b_call) s_start)) = Ok 3%Q /\
  this_res (snd (run_call b_setup 4 s_pars (as_call b_call) b_start)) = Err EValueError /\
  this_res (snd (run_call s_setup 4 s_pars (as_call (b_nine, zq 10)) s_start)) = Ok 9%Q /\
  this_res (snd (run_call b_setup 4 s_pars (as_call (b_nine, zq 10)) b_start)) = Ok 21%Q /\
  this_res (snd (run_call b_setup 4 s_pars (as_call (b_nine, zq 10)) (after_calls b_setup 4 s_pars [as_call b_call] (u_run b_setup 4 s_history b_start)))) = Ok 21%Q.
Proof. repeat (split; [vm_compute; reflexivity|]). vm_compute. reflexivity. Qed.

Print Assumptions C67_per_bin.
Print Assumptions C67_per_bin_last.
Print Assumptions C67_per_bin_one_answer.
Print Assumptions C67_per_bin_repeat.

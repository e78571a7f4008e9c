(** C66, C67: evaluations, fits and limits while the signal of a fit is scaled, removed and put
    back depend on the spectra the fit was given only. *)
From Verif Require Import Model.Base Model.PyStr Model.NDArray Model.Param Model.Config Model.Spectra
  Model.Smear Model.Shift Model.FitParam Model.Heap Model.Minimise Model.Fit Model.FitPrepare Model.Limit Model.FitLimit.
From Verif Require Import Spec.AxisSpec Spec.ArraySpec Spec.SpectraSpec Spec.ShrinkSpec Spec.HeapSpec Spec.SearchSpec Spec.FitRunSpec Spec.LimitSpec Spec.FitLimitSpec.
From Verif Require Import Proofs.QcLemmas Proofs.HeapLemmas Proofs.FitLemmas Proofs.FitRun Proofs.FitKinds Proofs.HomogLemmas Proofs.LimitScan Proofs.LimitFits.
From Verif Require Import Properties.Fit.
Local Open Scope string_scope.

(** C66: after any history of evaluations and of scalings, removals and returns of the signal,
    the observed and expected spectra at [args] are the ones computed from the spectra the
    fit was given, with the original signal at the last scaling asked for.  Partial: with two
    or more global parameters it is false, as C52; C66_signal_last is what holds then. *)
Theorem C66_history_partial : forall su u ft p V s0 (history : list event) (args : list Qc),
  limit_ready su u ft p s0 -> distinct_printing ft V -> Forall (event_ok ft V s0) history -> good_args ft V args ->
  (length (global_pars ft) <= 1)%nat ->
  same_res same_pair (snd (u_eval su args (u_run su (pt_ref p) history u)))
    (fitted_with ft (z_heap (u_set u)) p args (signal_after s0 history)).
Proof. exact history_l. Qed.
(** C66: any number of global parameters; the signal has only the last of them applied. *)
Theorem C66_signal_last : forall su u ft p V s0 (history : list event) (args : list Qc),
  limit_ready su u ft p s0 -> distinct_printing ft V -> Forall (event_ok ft V s0) history -> good_args ft V args ->
  same_res same_pair (snd (u_eval su args (u_run su (pt_ref p) history u)))
    (fitted_last_with ft (z_heap (u_set u)) p args (signal_after s0 history)).
Proof. exact history_last_l. Qed.

(** C67: get_limit, run on a fit with its stored convolutions, its grid search and a signal
    that is scaled, removed and put back, after any such history and after other calls of
    get_limit, answers the limit determined by the best fits to the spectra the fit was
    given.  Partial: at most one global parameter, every parameter has a prior width (as in
    C45), statistics are not kept per bin. *)
Theorem C67_limit_partial : forall su u ft p V s0 g ls history (before : list lcall) (c : lcall),
  limit_ready su u ft p s0 -> distinct_printing ft V -> (length (global_pars ft) <= 1)%nat ->
  searches su u g ls -> Forall (good_args ft V) (combinations ls) -> Forall (fun y => fp_sigma y <> None) (gs_pars g) ->
  Forall (event_ok ft V s0) history -> Forall (call_ok su ft (z_heap (u_set u)) p s0 ls) before ->
  call_ok su ft (z_heap (u_set u)) p s0 ls c ->
  limit_right (value_with su ft (z_heap (u_set u)) p) s0 (combinations ls) c
    (snd (run_call su (pt_ref p) (gs_pars g) c (after_calls su (pt_ref p) (gs_pars g) before (u_run su (pt_ref p) history u)))).
Proof. exact limit_l. Qed.
(** C67: the fits determine the answer. *)
Theorem C67_one_answer : forall value s0 points c a a',
  limit_right value s0 points c a -> limit_right value s0 points c a' -> a = a'.
Proof. exact right_unique. Qed.
(** C67: so the answer is the same whatever was evaluated, scaled or calculated before. *)
Theorem C67_repeat_partial : forall su u ft p V s0 g ls history history' (before before' : list lcall) (c : lcall),
  limit_ready su u ft p s0 -> distinct_printing ft V -> (length (global_pars ft) <= 1)%nat ->
  searches su u g ls -> Forall (good_args ft V) (combinations ls) -> Forall (fun y => fp_sigma y <> None) (gs_pars g) ->
  Forall (event_ok ft V s0) history -> Forall (call_ok su ft (z_heap (u_set u)) p s0 ls) before ->
  Forall (event_ok ft V s0) history' -> Forall (call_ok su ft (z_heap (u_set u)) p s0 ls) before' ->
  call_ok su ft (z_heap (u_set u)) p s0 ls c ->
  snd (run_call su (pt_ref p) (gs_pars g) c (after_calls su (pt_ref p) (gs_pars g) before (u_run su (pt_ref p) history u))) =
  snd (run_call su (pt_ref p) (gs_pars g) c (after_calls su (pt_ref p) (gs_pars g) before' (u_run su (pt_ref p) history' u))).
Proof.
  intros. eapply right_unique; eapply limit_l; eassumption.
Qed.

(** C67: any number of global parameters.  The answer is the limit determined by the best fits
    with only the last of them applied to the signal ... *)
Theorem C67_limit_last : forall su u ft p V s0 g ls history (before : list lcall) (c : lcall),
  limit_ready su u ft p s0 -> distinct_printing ft V ->
  searches su u g ls -> Forall (good_args ft V) (combinations ls) -> Forall (fun y => fp_sigma y <> None) (gs_pars g) ->
  Forall (event_ok ft V s0) history -> Forall (call_gives (value_last_with su ft (z_heap (u_set u)) p) s0 ls) before ->
  call_gives (value_last_with su ft (z_heap (u_set u)) p) s0 ls c ->
  limit_right (value_last_with su ft (z_heap (u_set u)) p) s0 (combinations ls) c
    (snd (run_call su (pt_ref p) (gs_pars g) c (after_calls su (pt_ref p) (gs_pars g) before (u_run su (pt_ref p) history u)))).
Proof. intros su u ft p V s0 g ls history before c LR DP SE PTS SG EV B C. exact (proj1 (limit_last_l su u ft p V s0 g ls history before c LR DP SE PTS EV B C) SG). Qed.
(** ... so it still does not depend on what was done before. *)
Theorem C67_repeat_last : forall su u ft p V s0 g ls history history' (before before' : list lcall) (c : lcall),
  limit_ready su u ft p s0 -> distinct_printing ft V ->
  searches su u g ls -> Forall (good_args ft V) (combinations ls) ->
  Forall (event_ok ft V s0) history -> Forall (call_gives (value_last_with su ft (z_heap (u_set u)) p) s0 ls) before ->
  Forall (event_ok ft V s0) history' -> Forall (call_gives (value_last_with su ft (z_heap (u_set u)) p) s0 ls) before' ->
  call_gives (value_last_with su ft (z_heap (u_set u)) p) s0 ls c ->
  snd (run_call su (pt_ref p) (gs_pars g) c (after_calls su (pt_ref p) (gs_pars g) before (u_run su (pt_ref p) history u))) =
  snd (run_call su (pt_ref p) (gs_pars g) c (after_calls su (pt_ref p) (gs_pars g) before' (u_run su (pt_ref p) history' u))).
Proof.
  intros su u ft p V s0 g ls history history' before before' c LR DP SE PTS EV B EV' B' C.
  destruct (limit_last_l su u ft p V s0 g ls history before c LR DP SE PTS EV B C) as (A1 & A2).
  destruct (limit_last_l su u ft p V s0 g ls history' before' c LR DP SE PTS EV' B' C) as (A1' & A2').
  assert (D : Forall (fun y => fp_sigma y <> None) (gs_pars g) \/ Exists (fun y => fp_sigma y = None) (gs_pars g)).
  { clear. induction (gs_pars g) as [|y l [IH|IH]]; [left; constructor|..|right; now constructor 2].
    destruct (fp_sigma y) eqn:E; [left; constructor; [congruence|exact IH]|right; now constructor]. }
  destruct D as [D|D]; [exact (right_unique _ _ _ _ _ _ (A1 D) (A1' D))|now rewrite (A2 D), (A2' D)].
Qed.
(** C67: a parameter without a prior width makes every call raise TypeError, after any history. *)
Theorem C67_no_width : forall su u ft p V s0 g ls history (before : list lcall) (c : lcall),
  limit_ready su u ft p s0 -> distinct_printing ft V ->
  searches su u g ls -> Forall (good_args ft V) (combinations ls) -> Exists (fun y => fp_sigma y = None) (gs_pars g) ->
  Forall (event_ok ft V s0) history -> Forall (call_gives (value_last_with su ft (z_heap (u_set u)) p) s0 ls) before ->
  call_gives (value_last_with su ft (z_heap (u_set u)) p) s0 ls c ->
  snd (run_call su (pt_ref p) (gs_pars g) c (after_calls su (pt_ref p) (gs_pars g) before (u_run su (pt_ref p) history u))) = Err ETypeError.
Proof. intros su u ft p V s0 g ls history before c LR DP SE PTS SG EV B C. exact (proj2 (limit_last_l su u ft p V s0 g ls history before c LR DP SE PTS EV B C) SG). Qed.

(** ** Example: the spectra of C52_ex *)
Definition s_rate (name : string) : fitpar := FitPar name false KRate (zq 4) (Some (zq 2)).
Definition s_fit : fit := Fit ex_str [p_shift; s_rate "rate_2n2b"; s_rate "rate_b8"] 0 ["energy_mc"] (Some (1, ["energy_mc"]))
  [Part 2 [1] ["energy_mc"]; Part 3 [2] ["energy_mc"]] (Some (Part 4 [] ["energy_mc"])).
Definition s_part : part := Part 4 [] ["energy_mc"].
Definition s_setup : setup := Setup ex_str (ft_pars s_fit) [[1]; [2]] 2 chi2 quad false false false no_log (fun _ => None).
Definition s_set : fitset := FitSet ex_heap (Some [("energy", (0%Qc, zq 4))]) (Some (0, ["energy_mc"])) (Some (1, ["energy_mc"]))
  (Some ([2; 3], [["energy_mc"]; ["energy_mc"]])) (Some (4, ["energy_mc"])).
Definition s_pars : list fpar :=
  [FPar "energy_shift" 0 (Some 1%Qc) 0 1 2 None None None None None None None None;
   FPar "rate_2n2b" (zq 4) (Some (zq 2)) (zq 2) (zq 4) 2 None None None None None None None None;
   FPar "rate_b8" (zq 4) (Some (zq 2)) 1 (zq 2) 2 None None None None None None None None].
Definition s_search : gsearch := new_search s_pars [4] (Some "fit") false true.
Definition s_start : fitter := Fitter s_set [] [None; None; None] (Some s_search) false.
Definition s_signal : spectra := shows ex_heap 4.
Definition s_history : list event :=
  [Eval [0%Qc; zq 4; zq 2]; Select None; Eval [1%Qc; zq 8; zq 4]; Select (Some (zq 2)); Eval [1%Qc; zq 4; zq 8]; Eval [0%Qc; zq 1; zq 1]; Select (Some (zq 10))].
Definition s_call : lcall := ([0%Qc; 1%Qc; zq 3; zq 6; zq 9], zq 10, None).

Lemma s_prepared : prepared s_fit ex_heap.
Proof.
  constructor.
  - exact ex_wf.
  - discriminate.
  - exists (shows ex_heap 0). split; [apply ex_abs; ex_lt|]. split.
    { split; [rewrite ex_cfg by ex_lt; exact ax_wf|]. unfold consistent. rewrite ex_shape, ex_cfg by ex_lt. reflexivity. }
    intros p Hp. assert (R : (pt_ref p < 5)%nat).
    { destruct Hp as [Hp|[_ Hp]]; [cbn in Hp; destruct Hp as [<-|[<-|[]]]; ex_lt|injection Hp as <-; ex_lt]. }
    exists (shows ex_heap (pt_ref p)). split; [now apply ex_abs|]. apply ex_fit_ready; [exact R|ex_lt].
  - intros r pars H. injection H as <- _. exists (shows ex_heap 1). apply ex_abs. ex_lt.
  - intros p H. injection H as <-. exists (shows ex_heap 4). split; [apply ex_abs; ex_lt|]. intros _ E.
    apply (f_equal this) in E. vm_compute in E. discriminate.
  - repeat constructor; cbn; intros H; repeat (destruct H as [H|H]; [discriminate|]); exact H.
  - cbn. intros H; repeat (destruct H as [H|H]; [discriminate|]); exact H.
  - intros r pars H. injection H as <- _. cbn. intros H; repeat (destruct H as [H|H]; [discriminate|]); exact H.
  - intros p H. injection H as <-. cbn. intros H; repeat (destruct H as [H|H]; [discriminate|]); exact H.
  - intros i p Hi H. cbn in Hi. destruct Hi as [<-|[]]. injection H as <-. eexists. reflexivity.
  - intros p H. cbn in H. destruct H as [<-|[<-|[<-|[]]]]; [apply sees_shift|exact sees_rate|exact sees_rate].
  - intros _. assert (E : map (name_of ex_heap) (all_parts s_fit) = [Some "2n2b"; Some "b8"; Some "0n2b"]) by reflexivity.
    rewrite E. split.
    + repeat constructor; cbn; intros H; repeat (destruct H as [H|H]; [discriminate|]); exact H.
    + cbn. intros H; repeat (destruct H as [H|H]; [discriminate|]); exact H.
Qed.
Lemma s_ready : limit_ready s_setup s_start s_fit s_part s_signal.
Proof.
  constructor.
  - exists 0%nat, ["energy_mc"]. split; reflexivity.
  - exact s_prepared.
  - reflexivity.
  - apply ex_abs. ex_lt.
  - unfold s_signal. rewrite ex_cfg by ex_lt. reflexivity.
  - split; [discriminate|]. intros r pars H. injection H as <- _. discriminate.
  - intros i q Hi H. cbn in Hi. destruct Hi as [<-|[]]. injection H as <-. apply commutes_shift. intros x y c v _. unfold zero_spline. ring.
  - split; reflexivity.
Qed.
Ltac positive := apply qlt_iff; vm_compute; reflexivity.
Lemma s_events : Forall (event_ok s_fit ex_V s_signal) s_history.
Proof. unfold s_history. repeat (constructor; [first [exact Logic.I|cbn [event_ok]; positive|ex_args]|]). constructor. Qed.
Lemma s_grid : grid_of no_log s_pars g_values.
Proof.
  unfold grid_of, s_pars, g_values. do 3 (constructor; [split; [|split; [apply two_values; reflexivity|reflexivity]];
    cbv [snd get_values fp_values truthy fp_logscale fp_logdev fp_low fp_high fp_bins orb]; vm_compute; repeat f_equal; apply Qc_is_canon; reflexivity|]).
  constructor.
Qed.
Lemma s_searches : searches s_setup s_start s_search g_values.
Proof.
  constructor.
  - reflexivity.
  - exact s_grid.
  - split; reflexivity.
  - split; reflexivity.
  - split; [repeat (constructor; [discriminate|]); constructor|now left].
  - repeat (constructor; [split; reflexivity|]). constructor.
  - right. vm_compute. reflexivity.
Qed.
Definition is_number (x : res (sres * Qc)) : bool := match x with Ok (RNum _, _) => true | _ => false end.
Lemma numbers_all f (l : list (list Qc)) : forallb (fun v => is_number (f v)) l = true -> forall v, In v l -> exists t q, f v = Ok (RNum t, q).
Proof.
  intros H v I. apply (proj1 (forallb_forall _ _) H) in I. unfold is_number in I. destruct (f v) as [[[t|] q]|]; try discriminate. eauto.
Qed.
Lemma s_call_ok : call_ok s_setup s_fit (z_heap (u_set s_start)) s_part s_signal g_values s_call.
Proof.
  unfold call_ok, call_gives, s_call. split; [discriminate|]. split; [discriminate|]. split.
  - constructor; [left; vm_compute; reflexivity|]. repeat (constructor; [right; positive|]). constructor.
  - intros sig v Hs Hv. revert v Hv. apply numbers_all. revert sig Hs. apply forallb_forall. vm_compute. reflexivity.
Qed.
Definition this_res (x : res Qc) : res Q := rmap (fun q => this q) x.
Example C66_ex :
  limit_ready s_setup s_start s_fit s_part s_signal /\ distinct_printing s_fit ex_V /\ Forall (event_ok s_fit ex_V s_signal) s_history /\
  good_args s_fit ex_V ex_args /\ (length (global_pars s_fit) <= 1)%nat /\
  (* the signal, 5 in bin 2, is scaled from 5 to 10 decays and shifted to bin 3 *)
  option_map (fun s => this (s_decays s)) (signal_after s_signal s_history) = Some 10%Q /\
  numbers (fitted_with s_fit ex_heap s_part ex_args (signal_after s_signal s_history)) = Ok ([0; 4; 5; 0]%Q, [2; 3 # 2; 9 # 2; 10]%Q) /\
  numbers (snd (u_eval s_setup ex_args (u_run s_setup 4 s_history s_start))) = Ok ([0; 4; 5; 0]%Q, [2; 3 # 2; 9 # 2; 10]%Q) /\
  numbers (snd (u_eval s_setup ex_args (u_run s_setup 4 (s_history ++ [Select None]) s_start))) = Ok ([0; 4; 5; 0]%Q, [2; 3 # 2; 9 # 2; 0]%Q).
Proof.
  split; [exact s_ready|]. split; [now apply ex_printing|]. split; [exact s_events|]. split; [ex_args|]. split; [repeat constructor|].
  repeat (split; [vm_compute; reflexivity|]). vm_compute; reflexivity.
Qed.
(** Limits at a threshold of 10.  Statistics of the best fits: 9, 10, 18,
    31/2, 61/2; penalty 2 each; the statistic without signal is 9. *)
Example C67_ex :
  searches s_setup s_start s_search g_values /\ Forall (good_args s_fit ex_V) (combinations g_values) /\
  Forall (fun y => fp_sigma y <> None) (gs_pars s_search) /\ call_ok s_setup s_fit (z_heap (u_set s_start)) s_part s_signal g_values s_call /\
  this_res (snd (run_call s_setup 4 s_pars s_call s_start)) = Ok 3%Q /\
  this_res (snd (run_call s_setup 4 s_pars s_call (after_calls s_setup 4 s_pars [s_call; ([zq 20], 0%Qc, Some 1%Qc)] (u_run s_setup 4 s_history s_start)))) = Ok 3%Q /\
  this_res (snd (run_call s_setup 4 s_pars ([0%Qc; 1%Qc; zq 3; zq 6; zq 9], zq 12, None) s_start)) = Ok 9%Q /\
  this_res (snd (run_call s_setup 4 s_pars ([0%Qc; 1%Qc; zq 3; zq 6; zq 9], zq 30, None) s_start)) = Err ELimitError.
Proof.
  split; [exact s_searches|]. split. { unfold g_values. cbn [combinations flat_map map app]. repeat (constructor; [ex_args|]). constructor. }
  split; [repeat (constructor; [discriminate|]); constructor|]. split; [exact s_call_ok|]. repeat (split; [vm_compute; reflexivity|]). vm_compute; reflexivity.
Qed.

(** ** Example: two global shifts; the second has the width [w] *)
Definition w_shift (w : option Qc) : fitpar := FitPar "energy_offset" true (shift_kind ex_str zero_spline "energy_mc") 0%Qc w.
Definition w_fit (w : option Qc) : fit := Fit ex_str [p_shift; w_shift w; s_rate "rate_2n2b"] 0 ["energy_mc"] None
  [Part 2 [2] ["energy_mc"]] (Some (Part 3 [] ["energy_mc"])).
Definition w_part : part := Part 3 [] ["energy_mc"].
Definition w_setup (w : option Qc) : setup := Setup ex_str (ft_pars (w_fit w)) [[2]] 2 chi2 quad false false false no_log (fun _ => None).
Definition w_set : fitset := FitSet ex_heap (Some [("energy", (0%Qc, zq 4))]) (Some (0, ["energy_mc"])) None
  (Some ([2], [["energy_mc"]])) (Some (3, ["energy_mc"])).
Definition w_pars (w : option Qc) : list fpar :=
  [FPar "energy_shift" 0 (Some 1%Qc) 1 (zq 2) 2 None None None None None None None None;
   FPar "energy_offset" 0 w 0 1 2 None None None None None None None None;
   FPar "rate_2n2b" (zq 4) (Some (zq 2)) (zq 2) (zq 4) 2 None None None None None None None None].
Definition w_search (w : option Qc) : gsearch := new_search (w_pars w) [4] (Some "fit") false true.
Definition w_start (w : option Qc) : fitter := Fitter w_set [] [None; None; None] (Some (w_search w)) false.
Definition w_values : list (list Qc) := [[1%Qc; zq 2]; [0%Qc; 1%Qc]; [zq 2; zq 4]].
Definition w_call : lcall := ([0%Qc; 1%Qc; zq 3; zq 6; zq 9], zq 12, None).
Definition w_signal : spectra := shows ex_heap 3.
Lemma w_prepared w : prepared (w_fit w) ex_heap.
Proof.
  constructor.
  - exact ex_wf.
  - discriminate.
  - exists (shows ex_heap 0). split; [apply ex_abs; ex_lt|]. split.
    { split; [rewrite ex_cfg by ex_lt; exact ax_wf|]. unfold consistent. rewrite ex_shape, ex_cfg by ex_lt. reflexivity. }
    intros p Hp. assert (R : (pt_ref p < 5)%nat).
    { destruct Hp as [Hp|[_ Hp]]; [cbn in Hp; destruct Hp as [<-|[]]; ex_lt|injection Hp as <-; ex_lt]. }
    exists (shows ex_heap (pt_ref p)). split; [now apply ex_abs|]. apply ex_fit_ready; [exact R|ex_lt].
  - discriminate.
  - intros p H. injection H as <-. exists (shows ex_heap 3). split; [apply ex_abs; ex_lt|]. intros _ E.
    apply (f_equal this) in E. vm_compute in E. discriminate.
  - repeat constructor; cbn; intros H; repeat (destruct H as [H|H]; [discriminate|]); exact H.
  - cbn. intros H; repeat (destruct H as [H|H]; [discriminate|]); exact H.
  - discriminate.
  - intros p H. injection H as <-. cbn. intros H; repeat (destruct H as [H|H]; [discriminate|]); exact H.
  - intros i p Hi H. cbn in Hi. destruct Hi as [<-|[<-|[]]]; injection H as <-; eexists; reflexivity.
  - intros p H. cbn in H. destruct H as [<-|[<-|[<-|[]]]]; [apply sees_shift|apply sees_shift|exact sees_rate].
  - intros _. assert (E : map (name_of ex_heap) (all_parts (w_fit w)) = [Some "2n2b"; Some "b8"]) by reflexivity.
    rewrite E. split.
    + repeat constructor; cbn; intros H; repeat (destruct H as [H|H]; [discriminate|]); exact H.
    + cbn. intros H; repeat (destruct H as [H|H]; [discriminate|]); exact H.
Qed.
Lemma w_ready w : limit_ready (w_setup w) (w_start w) (w_fit w) w_part w_signal.
Proof.
  constructor.
  - exists 0%nat, ["energy_mc"]. split; reflexivity.
  - exact (w_prepared w).
  - reflexivity.
  - apply ex_abs. ex_lt.
  - unfold w_signal. rewrite ex_cfg by ex_lt. reflexivity.
  - split; [discriminate|]. discriminate.
  - intros i q Hi H. cbn in Hi. destruct Hi as [<-|[<-|[]]]; injection H as <-; apply commutes_shift; intros x y c v _; unfold zero_spline; ring.
  - split; reflexivity.
Qed.
Lemma w_searches w : searches (w_setup w) (w_start w) (w_search w) w_values.
Proof.
  constructor.
  - reflexivity.
  - cbn [w_setup su_grid w_search new_search gs_pars w_pars w_values]. unfold grid_of. do 3 (constructor; [split; [|split; [apply two_values; reflexivity|reflexivity]];
    cbv [snd get_values fp_values truthy fp_logscale fp_logdev fp_low fp_high fp_bins orb]; vm_compute; repeat f_equal; apply Qc_is_canon; reflexivity|]).
    constructor.
  - split; reflexivity.
  - split; reflexivity.
  - split; [repeat (constructor; [discriminate|]); constructor|now left].
  - repeat (constructor; [split; reflexivity|]). constructor.
  - right. vm_compute. reflexivity.
Qed.
Lemma w_points w : Forall (good_args (w_fit w) ex_V) (combinations w_values).
Proof. unfold w_values. cbn [combinations flat_map map app]. repeat (constructor; [ex_args|]). constructor. Qed.
Lemma w_call_ok w : w = Some 1%Qc \/ w = None -> call_gives (value_last_with (w_setup w) (w_fit w) (z_heap (u_set (w_start w))) w_part) w_signal w_values w_call.
Proof.
  unfold call_gives, w_call. intro W. split; [discriminate|]. split; [discriminate|]. split.
  - constructor; [left; vm_compute; reflexivity|]. repeat (constructor; [right; positive|]). constructor.
  - intros sig v Hs Hv. revert v Hv. apply numbers_all. revert sig Hs. apply forallb_forall. destruct W as [-> | ->]; vm_compute; reflexivity.
Qed.
(** The widths given: 9 decays; the width of the second shift missing: TypeError. *)
Example C67_last_ex : let w := Some 1%Qc in
  limit_ready (w_setup w) (w_start w) (w_fit w) w_part w_signal /\ limit_ready (w_setup None) (w_start None) (w_fit None) w_part w_signal /\
  distinct_printing (w_fit w) ex_V /\ distinct_printing (w_fit None) ex_V /\
  searches (w_setup w) (w_start w) (w_search w) w_values /\ searches (w_setup None) (w_start None) (w_search None) w_values /\
  Forall (good_args (w_fit w) ex_V) (combinations w_values) /\ Forall (good_args (w_fit None) ex_V) (combinations w_values) /\
  Forall (fun y => fp_sigma y <> None) (gs_pars (w_search w)) /\ Exists (fun y => fp_sigma y = None) (gs_pars (w_search None)) /\
  call_gives (value_last_with (w_setup w) (w_fit w) (z_heap (u_set (w_start w))) w_part) w_signal w_values w_call /\
  call_gives (value_last_with (w_setup None) (w_fit None) (z_heap (u_set (w_start None))) w_part) w_signal w_values w_call /\
  this_res (snd (run_call (w_setup w) 3 (w_pars w) w_call (w_start w))) = Ok 9%Q /\
  this_res (snd (run_call (w_setup None) 3 (w_pars None) w_call (w_start None))) = Err ETypeError.
Proof.
  intro w. split; [apply w_ready|]. split; [apply w_ready|]. split; [now apply ex_printing|]. split; [now apply ex_printing|].
  split; [apply w_searches|]. split; [apply w_searches|]. split; [apply w_points|]. split; [apply w_points|].
  split; [repeat (constructor; [discriminate|]); constructor|]. split; [right; left; reflexivity|].
  split; [apply w_call_ok; now left|]. split; [apply w_call_ok; now right|]. split; vm_compute; reflexivity.
Qed.
(** Two global parameters: with both applied to the signal the best fits are all at shifts 1 and
    0 and rate 4, with statistics 17, 10, 2, 5 and 26 and penalty 1, and no limit exists; the
    answer is 9 decays. *)
Definition stat_at (value : list Qc -> res (sres * Qc)) (v : list Qc) : Qc := match value v with Ok (RNum t, _) => t | _ => 0%Qc end.
Definition pen_at (value : list Qc -> res (sres * Qc)) (v : list Qc) : Qc := match value v with Ok (_, q) => q | _ => 0%Qc end.
Definition best_at (value : list Qc -> res (sres * Qc)) (pts : list (list Qc)) (k : nat) : bool :=
  let t := (stat_at value (nth k pts []) + pen_at value (nth k pts []))%Qc in
  Nat.ltb k (length pts) && is_number (value (nth k pts [])) &&
  forallb (fun k' => let t' := (stat_at value (nth k' pts []) + pen_at value (nth k' pts []))%Qc in qle t t' && (qlt t t' || Nat.leb k k')) (seq 0 (length pts)).
Lemma best_at_l value pts k : best_at value pts k = true -> best_point value pts (stat_at value (nth k pts [])) (pen_at value (nth k pts [])).
Proof.
  unfold best_at. intro H. apply andb_prop in H as (H & A). apply andb_prop in H as (L & N). apply Nat.ltb_lt in L.
  exists k, (nth k pts []). split; [now apply nth_error_nth'|]. split.
  { unfold stat_at, pen_at, is_number in *. destruct (value (nth k pts [])) as [[[t|] q]|]; try discriminate. reflexivity. }
  intros k' v' t' q' E V. assert (K : (k' < length pts)%nat) by (apply nth_error_Some; congruence).
  assert (K' := proj1 (forallb_forall _ _) A k' (proj2 (in_seq _ _ _) (conj (Nat.le_0_l _) K))). cbv beta zeta in K'.
  assert (T : stat_at value v' = t') by (unfold stat_at; now rewrite V). assert (R : pen_at value v' = q') by (unfold pen_at; now rewrite V).
  rewrite (nth_error_nth _ _ [] E), T, R in K'.
  apply andb_prop in K' as (P & Q). split; [now apply qle_iff|]. intro X. apply orb_prop in Q as [Q|Q]; [now apply qlt_iff|].
  apply Nat.leb_le in Q. exfalso. exact (Nat.lt_irrefl _ (Nat.lt_le_trans _ _ _ X Q)).
Qed.
Theorem C67_globals_refuted : let w := Some 1%Qc in
  limit_right (value_with (w_setup w) (w_fit w) (z_heap (u_set (w_start w))) w_part) w_signal (combinations w_values) w_call (Err ELimitError) /\
  this_res (snd (run_call (w_setup w) 3 (w_pars w) w_call (w_start w))) = Ok 9%Q.
Proof.
  intro w. split; [|vm_compute; reflexivity]. unfold w_call. cbn [limit_right].
  set (value := value_with _ _ _ _). set (pts := combinations w_values). set (v := nth 1 pts []).
  set (scales := [0%Qc; 1%Qc; zq 3; zq 6; zq 9]). set (f := fun j => value (at_scale w_signal (nth j scales 0%Qc))).
  exists (stat_at (value None) v), (fun j => stat_at (f j) v), (fun j => pen_at (f j) v), 2%nat.
  split; [eexists; apply best_at_l; vm_compute; reflexivity|].
  assert (B : forallb (fun j => best_at (f j) pts 1) (seq 0 5) = true) by (vm_compute; reflexivity).
  split. { intros j J. apply best_at_l. apply (proj1 (forallb_forall _ _) B). apply in_seq. split; [apply Nat.le_0_l|exact J]. }
  assert (C : forallb (fun j => qle (stat_at (f 2%nat) v) (stat_at (f j) v) && (Nat.leb 2 j || qlt (stat_at (f 2%nat) v) (stat_at (f j) v)) &&
                      (Nat.ltb j 2 || qle (stat_at (f j) v - stat_at (value None) v + pen_at (f j) v) (zq 12))) (seq 0 5) = true) by (vm_compute; reflexivity).
  assert (D : forall j, (j < 5)%nat -> (stat_at (f 2%nat) v <= stat_at (f j) v)%Qc /\ ((j < 2)%nat -> (stat_at (f 2%nat) v < stat_at (f j) v)%Qc) /\
                ((2 <= j)%nat -> (stat_at (f j) v - stat_at (value None) v + pen_at (f j) v <= zq 12)%Qc)).
  { intros j J. assert (K := proj1 (forallb_forall _ _) C j (proj2 (in_seq _ _ _) (conj (Nat.le_0_l _) J))). cbv beta in K.
    apply andb_prop in K as (K & R). apply andb_prop in K as (P & Q). split; [now apply qle_iff|]. split; intro X.
    - apply orb_prop in Q as [Q|Q]; [|now apply qlt_iff]. apply Nat.leb_le in Q. exfalso. exact (Nat.lt_irrefl _ (Nat.lt_le_trans _ _ _ X Q)).
    - apply orb_prop in R as [R|R]; [|now apply qle_iff]. apply Nat.ltb_lt in R. exfalso. exact (Nat.lt_irrefl _ (Nat.lt_le_trans _ _ _ R X)). }
  split. { split; [repeat constructor|]. split; [intros j J; apply (D j J)|]. intros j J. apply D; [|exact J]. exact (Nat.lt_le_trans _ _ _ J (le_S _ _ (le_S _ _ (le_S _ _ (le_n 2))))). }
  split; [reflexivity|]. intros j (J1 & J2). apply (D j J2). exact J1.
Qed.

(** ** What the hypotheses exclude *)
(** The signal is also the fixed background: scaling the signal to twice its decays doubles the
    fixed background. *)
Definition d_set : fitset := FitSet ex_heap (Some [("energy", (0%Qc, zq 4))]) (Some (0, ["energy_mc"])) (Some (1, ["energy_mc"]))
  (Some ([2; 3], [["energy_mc"]; ["energy_mc"]])) (Some (1, ["energy_mc"])).
Definition d_start : fitter := Fitter d_set [] [None; None; None] (Some s_search) false.
Definition d_fit : fit := fit_of ex_str (ft_pars s_fit) [[1]; [2]] d_set 0 ["energy_mc"].
Theorem C66_shared_refuted :
  numbers (fitted_with d_fit ex_heap (Part 1 [] ["energy_mc"]) ex_args (signal_after (shows ex_heap 1) [Select (Some (zq 4))])) =
    Ok ([0; 4; 5; 0]%Q, [2; 11 # 2; 9 # 2; 0]%Q) /\
  numbers (snd (u_eval s_setup ex_args (u_run s_setup 1 [Select (Some (zq 4))] d_start))) =
    Ok ([0; 4; 5; 0]%Q, [4; 11 # 2; 9 # 2; 0]%Q).
Proof. split; vm_compute; reflexivity. Qed.
(** Scaled to zero decays instead of removed, the signal cannot be convolved or scaled again. *)
Theorem C66_zero_refuted :
  numbers (snd (u_eval s_setup ex_args (u_run s_setup 4 [Select None] s_start))) = Ok ([0; 4; 5; 0]%Q, [2; 3 # 2; 9 # 2; 0]%Q) /\
  numbers (snd (u_eval s_setup ex_args (u_run s_setup 4 [Select (Some 0%Qc)] s_start))) = Err EZeroDivisionError /\
  snd (select 4 (Some (zq 5)) (u_run s_setup 4 [Select (Some 0%Qc)] s_start)) = Some EZeroDivisionError.
Proof. split; [|split]; vm_compute; reflexivity. Qed.

(** What cannot be fitted raises, and leaves the fitter as it was: no minimiser, no data, a signal
    that does not fit the data. *)
Theorem C67_refused : forall su r (u : fitter) args shrink,
  (u_checked u = true -> floats (u_set u) = true -> (u_search u = None \/ z_data (u_set u) = None) -> u_fit su u = (u, Err EAttributeError)) /\
  (z_data (u_set u) = None -> u_eval su args u = (u, Err EAttributeError)) /\
  (forall x, su_config su r = Some x -> limit_init su r shrink u = (u, Some x)) /\
  (forall x, su_config su r = None -> snd (set_signal r shrink (u_set u)) = Some x -> snd (limit_init su r shrink u) = Some x) /\
  (forall x k, z_signal (u_set u) = None -> snd (set_signal r false (u_set u)) = Some x ->
     snd (select r (Some k) u) = Some x /\ snd (limit_fit su r u (Some k)) = Err x).
Proof.
  intros su r u args shrink. split; [|split; [|split; [|split]]].
  - intros C F [N|N]; unfold u_fit, fit_all, run_fit; rewrite C, F, N; [reflexivity|]. now destruct (u_search u).
  - intro N. unfold u_eval. now rewrite N.
  - intros x X. unfold limit_init. now rewrite X.
  - intros x X Y. unfold limit_init, u_set_signal. rewrite X. destruct (set_signal r shrink (u_set u)) as [z o]. cbn in *. assumption.
  - intros x k N Y.
    assert (E : snd (select r (Some k) u) = Some x).
    { unfold select. rewrite N. unfold u_set_signal. destruct (set_signal r false (u_set u)) as [z o]. cbn in Y. subst o. reflexivity. }
    split; [exact E|]. unfold limit_fit. destruct (select r (Some k) u) as [u1 o]. cbn in E. now subst o.
Qed.

Print Assumptions C66_history_partial.
Print Assumptions C66_signal_last.
Print Assumptions C67_limit_partial.
Print Assumptions C67_one_answer.
Print Assumptions C67_repeat_partial.
Print Assumptions C66_shared_refuted.
Print Assumptions C66_zero_refuted.
Print Assumptions C67_limit_last.
Print Assumptions C67_repeat_last.
Print Assumptions C67_no_width.
Print Assumptions C67_globals_refuted.
Print Assumptions C67_refused.

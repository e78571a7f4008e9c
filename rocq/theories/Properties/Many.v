(** C75: one fit, several signals, a Limit for each: the limits do not depend on the order in
    which they are asked for. *)
From Verif Require Import Model.Base Model.PyStr Model.NDArray Model.Param Model.Config Model.Spectra
  Model.Smear Model.Shift Model.FitParam Model.Heap Model.Minimise Model.Fit Model.FitPrepare Model.Limit Model.FitLimit.
From Verif Require Import Spec.AxisSpec Spec.ArraySpec Spec.SpectraSpec Spec.ShrinkSpec Spec.HeapSpec Spec.SearchSpec Spec.FitRunSpec Spec.LimitSpec Spec.FitLimitSpec Spec.ManySpec.
From Verif Require Import Proofs.QcLemmas Proofs.HeapLemmas Proofs.FitLemmas Proofs.FitRun Proofs.FitKinds Proofs.HomogLemmas Proofs.LimitFits Proofs.ManyLimits.
From Verif Require Import Properties.Fit Properties.Scan.
Local Open Scope string_scope.

(** C75: whatever was done before with the fit and its signals - Limits made (restricting the
    signal to the region or not), limits asked for, signals scaled, removed, put back and
    exchanged, fits evaluated - get_limit of the Limit of signal [i] gives the answer computed
    from the spectra as they were at the start, the other signals having no part in it.
    Partial: at most one global parameter (as C52), and a limit with a given minimum is asked
    for when the fit has no other signal (without this it is false: C75_minimum_refuted). *)
Theorem C75_limits_partial : forall su u ft sigs V g ls cur (before : list mstep) i p s0 (c : lcall),
  many_ready su u ft sigs -> distinct_printing ft V -> (length (global_pars ft) <= 1)%nat ->
  (forall o, o = None \/ In o (map (fun x => Some (fst x)) sigs) -> searches su (fitter_with u o) g ls) ->
  Forall (good_args ft V) (combinations ls) -> Forall (fun y => fp_sigma y <> None) (gs_pars g) ->
  starts_with u sigs cur -> steps_ok su u ft sigs V ls cur (before ++ [MCall i c]) ->
  nth_error sigs i = Some (p, s0) ->
  limit_right (value_with su ft (z_heap (u_set u)) p) s0 (combinations ls) c
    (snd (run_call su (pt_ref p) (gs_pars g) c (m_run su sigs (gs_pars g) before u))).
Proof. exact many_l. Qed.
(** So the answer is the same after any two histories; in particular the same as that of the
    first call on a fresh fit ([before' = []]). *)
Theorem C75_order_partial : forall su u ft sigs V g ls cur (before before' : list mstep) i p s0 (c : lcall),
  many_ready su u ft sigs -> distinct_printing ft V -> (length (global_pars ft) <= 1)%nat ->
  (forall o, o = None \/ In o (map (fun x => Some (fst x)) sigs) -> searches su (fitter_with u o) g ls) ->
  Forall (good_args ft V) (combinations ls) -> Forall (fun y => fp_sigma y <> None) (gs_pars g) ->
  starts_with u sigs cur -> steps_ok su u ft sigs V ls cur (before ++ [MCall i c]) ->
  steps_ok su u ft sigs V ls cur (before' ++ [MCall i c]) -> nth_error sigs i = Some (p, s0) ->
  snd (run_call su (pt_ref p) (gs_pars g) c (m_run su sigs (gs_pars g) before u)) =
  snd (run_call su (pt_ref p) (gs_pars g) c (m_run su sigs (gs_pars g) before' u)).
Proof. intros. eapply right_unique; eapply C75_limits_partial; eassumption. Qed.
(** And an evaluation sees, of the signals, the one selected last only, at the number of decays
    asked for last. *)
Theorem C75_selected_partial : forall su u ft sigs V g ls cur (before : list mstep) i k p s0 args,
  many_ready su u ft sigs -> distinct_printing ft V -> (length (global_pars ft) <= 1)%nat ->
  (forall o, o = None \/ In o (map (fun x => Some (fst x)) sigs) -> searches su (fitter_with u o) g ls) ->
  Forall (good_args ft V) (combinations ls) ->
  starts_with u sigs cur -> steps_ok su u ft sigs V ls cur (before ++ [MSelect i k]) ->
  nth_error sigs i = Some (p, s0) -> good_args ft V args ->
  same_res same_pair (snd (u_eval su args (m_run su sigs (gs_pars g) (before ++ [MSelect i k]) u)))
    (fitted_with ft (z_heap (u_set u)) p args (match k with Some k => Some (scaled_to k s0) | None => None end)).
Proof. exact many_eval_l. Qed.

(** C75: any number of global parameters, of which only the last is applied to the signals ... *)
Theorem C75_limits_last : forall su u ft sigs V g ls cur (before : list mstep) i p s0 (c : lcall),
  many_ready su u ft sigs -> distinct_printing ft V ->
  (forall o, o = None \/ In o (map (fun x => Some (fst x)) sigs) -> searches su (fitter_with u o) g ls) ->
  Forall (good_args ft V) (combinations ls) -> Forall (fun y => fp_sigma y <> None) (gs_pars g) ->
  starts_with u sigs cur ->
  steps_give (value_last_with su ft (z_heap (u_set u))) su u ft sigs V ls cur (before ++ [MCall i c]) ->
  nth_error sigs i = Some (p, s0) ->
  limit_right (value_last_with su ft (z_heap (u_set u)) p) s0 (combinations ls) c
    (snd (run_call su (pt_ref p) (gs_pars g) c (m_run su sigs (gs_pars g) before u))).
Proof. intros su u ft sigs V g ls cur before i p s0 c MR DP SE PTS SG ST OK N. exact (proj1 (many_last_l su u ft sigs V g ls cur before i p s0 c MR DP SE PTS ST OK N) SG). Qed.
(** ... and a parameter without a prior width: every call raises TypeError. *)
Theorem C75_no_width : forall su u ft sigs V g ls cur (before : list mstep) i p s0 (c : lcall),
  many_ready su u ft sigs -> distinct_printing ft V ->
  (forall o, o = None \/ In o (map (fun x => Some (fst x)) sigs) -> searches su (fitter_with u o) g ls) ->
  Forall (good_args ft V) (combinations ls) -> Exists (fun y => fp_sigma y = None) (gs_pars g) ->
  starts_with u sigs cur ->
  steps_give (value_last_with su ft (z_heap (u_set u))) su u ft sigs V ls cur (before ++ [MCall i c]) ->
  nth_error sigs i = Some (p, s0) ->
  snd (run_call su (pt_ref p) (gs_pars g) c (m_run su sigs (gs_pars g) before u)) = Err ETypeError.
Proof. intros su u ft sigs V g ls cur before i p s0 c MR DP SE PTS SG ST OK N. exact (proj2 (many_last_l su u ft sigs V g ls cur before i p s0 c MR DP SE PTS ST OK N) SG). Qed.
Theorem C75_selected_last : forall su u ft sigs V g ls cur (before : list mstep) i k p s0 args,
  many_ready su u ft sigs -> distinct_printing ft V ->
  (forall o, o = None \/ In o (map (fun x => Some (fst x)) sigs) -> searches su (fitter_with u o) g ls) ->
  Forall (good_args ft V) (combinations ls) -> starts_with u sigs cur ->
  steps_give (value_last_with su ft (z_heap (u_set u))) su u ft sigs V ls cur (before ++ [MSelect i k]) ->
  nth_error sigs i = Some (p, s0) -> good_args ft V args ->
  same_res same_pair (snd (u_eval su args (m_run su sigs (gs_pars g) (before ++ [MSelect i k]) u)))
    (fitted_last_with ft (z_heap (u_set u)) p args (match k with Some k => Some (scaled_to k s0) | None => None end)).
Proof. exact many_eval_last_l. Qed.

(** ** Example: the fit of C66_ex and a second signal *)
Definition m_spectra : list call :=
  (ex_spectra ++ [CNew "majoron" (zq 3) ax (Some "majoron"); CFill (zq 1) (at_bin 0) 5; CFill (zq 2) (at_bin 1) 5])%list.
Definition m_heap : heap := fst (h_run m_spectra empty_heap).
Definition m_set (h : heap) : fitset := FitSet h (Some [("energy", (0%Qc, zq 4))]) (Some (0, ["energy_mc"])) (Some (1, ["energy_mc"]))
  (Some ([2; 3], [["energy_mc"]; ["energy_mc"]])) None.
Definition m_start (h : heap) : fitter := Fitter (m_set h) [] [None; None; None] (Some s_search) false.
Definition m_fit : fit := fit_with s_fit None.
(** The same with prior widths [w] of the rates. *)
Definition k_fit (w : option Qc) : fit := Fit ex_str [p_shift; FitPar "rate_2n2b" false KRate (zq 4) w; FitPar "rate_b8" false KRate (zq 4) w] 0 ["energy_mc"] (Some (1, ["energy_mc"]))
  [Part 2 [1] ["energy_mc"]; Part 3 [2] ["energy_mc"]] None.
Definition k_setup (w : option Qc) : setup := Setup ex_str (ft_pars (k_fit w)) [[1]; [2]] 2 chi2 quad false false false no_log (fun _ => None).
Definition k_pars (w : option Qc) : list fpar :=
  [FPar "energy_shift" 0 (Some 1%Qc) 0 1 2 None None None None None None None None;
   FPar "rate_2n2b" (zq 4) w (zq 2) (zq 4) 2 None None None None None None None None;
   FPar "rate_b8" (zq 4) w 1 (zq 2) 2 None None None None None None None None].
Definition k_search (w : option Qc) : gsearch := new_search (k_pars w) [4] (Some "fit") false true.
Definition k_start (w : option Qc) (h : heap) : fitter := Fitter (m_set h) [] [None; None; None] (Some (k_search w)) false.
Definition m_parts : list part := [Part 4 [] ["energy_mc"]; Part 5 [] ["energy_mc"]].
Definition m_sigs (h : heap) : list signal := map (fun p => (p, shows h (pt_ref p))) m_parts.
Definition m_call : lcall := ([1%Qc; zq 2; zq 4; zq 8], zq 2, None).
Definition m_steps : list mstep :=
  [MLimit 0 true; MCall 0 s_call; MEval [0%Qc; zq 4; zq 2]; MLimit 1 false; MCall 1 m_call; MScale 0 (zq 7); MSelect 1 None;
   MSelect 0 (Some (zq 2)); MEval [1%Qc; zq 8; zq 4]; MCall 0 (fst s_call, Some 1%Qc)].

Lemma m_wf : wf_heap m_heap.
Proof. apply run_wf. exact empty_wf. Qed.
Lemma m_abs r : (r < 6)%nat -> abs m_heap r = Some (shows m_heap r).
Proof. intro H. do 6 (destruct r as [|r]; [reflexivity|]). exfalso. do 6 apply le_S_n in H. inversion H. Qed.
Lemma m_cfg r : (r < 6)%nat -> s_cfg (shows m_heap r) = ax.
Proof. intro H. do 6 (destruct r as [|r]; [reflexivity|]). exfalso. do 6 apply le_S_n in H. inversion H. Qed.
Lemma m_shape r : (r < 6)%nat -> ashape (s_data (shows m_heap r)) = [4].
Proof. intro H. do 6 (destruct r as [|r]; [reflexivity|]). exfalso. do 6 apply le_S_n in H. inversion H. Qed.
Lemma m_wf_spectra r : (r < 6)%nat -> wf_spectra (shows m_heap r).
Proof. intro H. split; [rewrite m_cfg by exact H; exact ax_wf|]. unfold consistent. now rewrite m_shape, m_cfg. Qed.
Lemma m_fit_ready r d : (r < 6)%nat -> (d < 6)%nat -> fit_ready (shows m_heap d) (shows m_heap r).
Proof.
  intros H K. unfold fit_ready, wf_spectra, consistent, same_axes. rewrite !m_cfg, m_shape by assumption.
  split; [split; [exact ax_wf|reflexivity]|]. split; [discriminate|]. split; [|split; [|split]].
  - constructor; [|constructor]. exists 0%Z. apply Qc_is_canon. reflexivity.
  - constructor; [|constructor]. now split.
  - repeat constructor. intros [].
  - constructor; [|constructor]. exists "energy", "mc". reflexivity.
Qed.
Lemma m_prepared w o : o = None \/ In o (map Some m_parts) -> prepared (fit_with (k_fit w) o) m_heap.
Proof.
  intro Ho. assert (Op : forall p, o = Some p -> In p m_parts) by (intros p ->; destruct Ho as [Ho|Ho]; [discriminate|]; apply in_map_iff in Ho as (q & Hq & I); injection Hq as <-; exact I).
  assert (R : forall p, In p m_parts -> (pt_ref p = 4 \/ pt_ref p = 5)%nat) by (intros p [<-|[<-|[]]]; auto).
  assert (R6 : forall p, In p m_parts -> (pt_ref p < 6)%nat) by (intros p Hp; destruct (R p Hp) as [-> | ->]; ex_lt).
  constructor; cbn [fit_with k_fit ft_floating ft_data ft_fixed ft_signal ft_pars].
  - exact m_wf.
  - discriminate.
  - exists (shows m_heap 0). split; [apply m_abs; ex_lt|]. split; [apply m_wf_spectra; ex_lt|].
    intros p Hp. assert (Q : (pt_ref p < 6)%nat).
    { destruct Hp as [Hp|[_ Hp]]; [cbn in Hp; destruct Hp as [<-|[<-|[]]]; ex_lt|apply R6, Op, Hp]. }
    exists (shows m_heap (pt_ref p)). split; [now apply m_abs|]. apply m_fit_ready; [exact Q|ex_lt].
  - intros r pars H. injection H as <- _. exists (shows m_heap 1). apply m_abs. ex_lt.
  - intros p H. exists (shows m_heap (pt_ref p)). split; [apply m_abs, R6, Op, H|]. intros _ E. apply (f_equal this) in E.
    destruct (R p (Op p H)) as [K|K]; rewrite K in E; vm_compute in E; discriminate.
  - repeat constructor; cbn; intros H; repeat (destruct H as [H|H]; [discriminate|]); exact H.
  - cbn. intros H; repeat (destruct H as [H|H]; [discriminate|]); exact H.
  - intros r pars H. injection H as <- _. cbn. intros H; repeat (destruct H as [H|H]; [discriminate|]); exact H.
  - intros p H. destruct (R p (Op p H)) as [-> | ->]; cbn; intros K; repeat (destruct K as [K|K]; [discriminate|]); exact K.
  - intros i p Hi H. cbn in Hi. destruct Hi as [<-|[]]. injection H as <-. eexists. reflexivity.
  - intros p H. cbn in H. destruct H as [<-|[<-|[<-|[]]]]; [apply sees_shift|exact sees_rate|exact sees_rate].
  - intros _. destruct Ho as [-> | [<-|[<-|[]]]];
    match goal with |- NoDup ?l /\ _ => let l' := eval vm_compute in l in change l with l' end;
    (split; [repeat constructor; cbn; intros H; repeat (destruct H as [H|H]; [discriminate|]); exact H|cbn; intros H; repeat (destruct H as [H|H]; [discriminate|]); exact H]).
Qed.
Lemma k_ready w : many_ready (k_setup w) (k_start w m_heap) (k_fit w) (m_sigs m_heap).
Proof.
  constructor.
  - exists 0%nat, ["energy_mc"]. split; reflexivity.
  - exact (m_prepared w None (or_introl eq_refl)).
  - intros p s0 I. assert (P : In p m_parts /\ s0 = shows m_heap (pt_ref p)) by (apply in_map_iff in I as (q & E & I); injection E as <- <-; auto).
    destruct P as (P & ->). assert (L : (pt_ref p < 6)%nat) by (destruct P as [<-|[<-|[]]]; ex_lt).
    split; [apply m_prepared; right; now apply in_map|]. split; [now apply m_abs|]. rewrite (m_cfg _ L).
    destruct P as [<-|[<-|[]]]; (split; [reflexivity|]; split; [reflexivity|]; split; [discriminate|]; intros r pars H; injection H as <- _; discriminate).
  - repeat constructor; cbn; intros H; repeat (destruct H as [H|H]; [discriminate|]); exact H.
  - intros _. match goal with |- NoDup ?l => let l' := eval vm_compute in l in change l with l' end.
    repeat constructor; cbn; intros H; repeat (destruct H as [H|H]; [discriminate|]); exact H.
  - intros i q Hi H. cbn in Hi. destruct Hi as [<-|[]]. injection H as <-. apply commutes_shift. intros x y c v _. unfold zero_spline. ring.
  - split; reflexivity.
Qed.
Lemma m_ready : many_ready s_setup (m_start m_heap) m_fit (m_sigs m_heap).
Proof. exact (k_ready (Some (zq 2))). Qed.
Lemma k_searches w o : o = None \/ In o (map (fun x => Some (fst x)) (m_sigs m_heap)) -> searches (k_setup w) (fitter_with (k_start w m_heap) o) (k_search w) g_values.
Proof.
  intro H. constructor.
  - reflexivity.
  - unfold grid_of, k_search, new_search, k_pars, g_values. cbn [gs_pars]. do 3 (constructor; [split; [|split; [apply two_values; reflexivity|reflexivity]];
    cbv [snd get_values fp_values truthy fp_logscale fp_logdev fp_low fp_high fp_bins orb]; vm_compute; repeat f_equal; apply Qc_is_canon; reflexivity|]).
    constructor.
  - split; reflexivity.
  - split; reflexivity.
  - split; [repeat (constructor; [discriminate|]); constructor|now left].
  - repeat (constructor; [split; reflexivity|]). constructor.
  - right. destruct H as [-> | [<-|[<-|[]]]]; vm_compute; reflexivity.
Qed.
Lemma m_searches o : o = None \/ In o (map (fun x => Some (fst x)) (m_sigs m_heap)) -> searches s_setup (fitter_with (m_start m_heap) o) s_search g_values.
Proof. exact (k_searches (Some (zq 2)) o). Qed.
Lemma m_on_roi : on_roi (the_roi (u_set (m_start m_heap))) (shows m_heap 4).
Proof.
  split; [apply m_wf_spectra; ex_lt|]. rewrite m_cfg by ex_lt. split; [discriminate|]. split; [constructor; [|constructor]; exists 0%Z; apply Qc_is_canon; reflexivity|].
  split; [repeat constructor; intros []|]. split; [constructor; [|constructor]; exists "energy", "mc"; reflexivity|].
  constructor; [|constructor]. exists "energy_mc", (SPar 0%Qc (zq 4) 4). split; [now left|]. split; reflexivity.
Qed.
Ltac m_call_ok := unfold call_ok, call_gives, value_with, value_last_with, s_call, m_call; cbn [fst]; split; [discriminate|]; split; [discriminate|]; split;
  [repeat (constructor; [first [left; vm_compute; reflexivity|right; positive]|]); constructor
  |intros sig v Hs Hv; revert v Hv; apply numbers_all; revert sig Hs; apply forallb_forall; vm_compute; reflexivity].
Ltac m_steps_ok :=
  split; [eexists _, _; split; [reflexivity|]; split; [reflexivity|]; intros _; exact m_on_roi|];
  split; [eexists _, _; split; [reflexivity|]; split; [m_call_ok|]; let H := fresh in intro H; exfalso; apply H; reflexivity|];
  split; [ex_args|];
  split; [eexists _, _; split; [reflexivity|]; split; [reflexivity|]; discriminate|];
  split; [eexists _, _; split; [reflexivity|]; split; [m_call_ok|]; let H := fresh in intro H; exfalso; apply H; reflexivity|];
  split; [eexists _, _; split; [reflexivity|]; positive|];
  split; [eexists _, _; split; reflexivity|];
  split; [eexists _, _; split; [reflexivity|]; split; [positive|now left]|];
  split; [ex_args|];
  split; [eexists _, _; split; [reflexivity|]; split; [m_call_ok|]; intros _; now right|];
  split; [eexists _, _; split; [reflexivity|]; split; [m_call_ok|]; let H := fresh in intro H; exfalso; apply H; reflexivity|];
  exact Logic.I.
Lemma m_steps_ok : steps_ok s_setup (m_start m_heap) m_fit (m_sigs m_heap) ex_V g_values None (m_steps ++ [MCall 1 m_call]).
Proof. unfold steps_ok, m_steps. cbn [app steps_give step_gives]. m_steps_ok. Qed.
Lemma m_steps_last w : w = Some (zq 2) \/ w = None ->
  steps_give (value_last_with (k_setup w) (k_fit w) (z_heap (u_set (k_start w m_heap)))) (k_setup w) (k_start w m_heap) (k_fit w) (m_sigs m_heap) ex_V g_values None (m_steps ++ [MCall 1 m_call]).
Proof. intros [-> | ->]; unfold m_steps; cbn [app steps_give step_gives]; m_steps_ok. Qed.
Example C75_ex :
  many_ready s_setup (m_start m_heap) m_fit (m_sigs m_heap) /\ distinct_printing m_fit ex_V /\ (length (global_pars m_fit) <= 1)%nat /\
  (forall o, o = None \/ In o (map (fun x => Some (fst x)) (m_sigs m_heap)) -> searches s_setup (fitter_with (m_start m_heap) o) s_search g_values) /\
  Forall (good_args m_fit ex_V) (combinations g_values) /\ Forall (fun y => fp_sigma y <> None) (gs_pars s_search) /\
  starts_with (m_start m_heap) (m_sigs m_heap) None /\
  steps_ok s_setup (m_start m_heap) m_fit (m_sigs m_heap) ex_V g_values None (m_steps ++ [MCall 1 m_call]) /\
  (* limits of both signals, alone and after the history *)
  this_res (snd (run_call s_setup 4 s_pars s_call (m_start m_heap))) = Ok 3%Q /\
  this_res (snd (run_call s_setup 5 s_pars m_call (m_start m_heap))) = Ok 8%Q /\
  this_res (snd (run_call s_setup 5 s_pars m_call (m_run s_setup (m_sigs m_heap) s_pars m_steps (m_start m_heap)))) = Ok 8%Q /\
  this_res (snd (run_call s_setup 4 s_pars s_call (m_run s_setup (m_sigs m_heap) s_pars (m_steps ++ [MCall 1 m_call]) (m_start m_heap)))) = Ok 3%Q.
Proof.
  split; [exact m_ready|]. split; [now apply ex_printing|]. split; [repeat constructor|]. split; [exact m_searches|].
  split. { unfold g_values. cbn [combinations flat_map map app]. repeat (constructor; [ex_args|]). constructor. }
  split; [repeat (constructor; [discriminate|]); constructor|]. split; [reflexivity|]. split; [exact m_steps_ok|].
  repeat (split; [vm_compute; reflexivity|]). vm_compute; reflexivity.
Qed.

(** The same by C75_limits_last; and with rates that have no prior width, where every call of
    get_limit in the history and after it raises. *)
Example C75_last_ex : let w := Some (zq 2) in
  many_ready (k_setup w) (k_start w m_heap) (k_fit w) (m_sigs m_heap) /\ many_ready (k_setup None) (k_start None m_heap) (k_fit None) (m_sigs m_heap) /\
  distinct_printing (k_fit None) ex_V /\
  (forall o, o = None \/ In o (map (fun x => Some (fst x)) (m_sigs m_heap)) -> searches (k_setup None) (fitter_with (k_start None m_heap) o) (k_search None) g_values) /\
  Forall (good_args (k_fit None) ex_V) (combinations g_values) /\ Exists (fun y => fp_sigma y = None) (gs_pars (k_search None)) /\
  starts_with (k_start None m_heap) (m_sigs m_heap) None /\
  steps_give (value_last_with (k_setup w) (k_fit w) (z_heap (u_set (k_start w m_heap)))) (k_setup w) (k_start w m_heap) (k_fit w) (m_sigs m_heap) ex_V g_values None (m_steps ++ [MCall 1 m_call]) /\
  steps_give (value_last_with (k_setup None) (k_fit None) (z_heap (u_set (k_start None m_heap)))) (k_setup None) (k_start None m_heap) (k_fit None) (m_sigs m_heap) ex_V g_values None (m_steps ++ [MCall 1 m_call]) /\
  this_res (snd (run_call (k_setup w) 5 (k_pars w) m_call (m_run (k_setup w) (m_sigs m_heap) (k_pars w) m_steps (k_start w m_heap)))) = Ok 8%Q /\
  this_res (snd (run_call (k_setup None) 5 (k_pars None) m_call (m_run (k_setup None) (m_sigs m_heap) (k_pars None) m_steps (k_start None m_heap)))) = Err ETypeError.
Proof.
  intro w. split; [apply k_ready|]. split; [apply k_ready|]. split; [now apply ex_printing|]. split; [apply k_searches|].
  split. { unfold g_values. cbn [combinations flat_map map app]. repeat (constructor; [ex_args|]). constructor. }
  split; [right; left; reflexivity|]. split; [reflexivity|]. split; [apply m_steps_last; now left|]. split; [apply m_steps_last; now right|].
  split; vm_compute; reflexivity.
Qed.

(** ** What the hypotheses exclude *)
(** A second Limit has put its signal in the fit; get_limit of the first, with the minimum
    given, scales that signal: it answers with the limit of the other signal. *)
Definition m_given : lcall := ([1%Qc; zq 2; zq 4; zq 8], zq 2, Some (zq 9)).
Theorem C75_minimum_refuted :
  this_res (snd (run_call s_setup 4 s_pars m_given (m_run s_setup (m_sigs m_heap) s_pars [MLimit 0 false] (m_start m_heap)))) = Ok 1%Q /\
  this_res (snd (run_call s_setup 5 s_pars m_given (m_run s_setup (m_sigs m_heap) s_pars [MLimit 1 false] (m_start m_heap)))) = Ok 8%Q /\
  this_res (snd (run_call s_setup 4 s_pars m_given (m_run s_setup (m_sigs m_heap) s_pars [MLimit 0 false; MLimit 1 false] (m_start m_heap)))) = Ok 8%Q.
Proof. split; [|split]; vm_compute; reflexivity. Qed.
(** Two signals with one background name: with a global parameter the convolved spectrum of the
    first is used for the second. *)
Definition n_heap : heap :=
  fst (h_run (ex_spectra ++ [CNew "majoron" (zq 3) ax (Some "0n2b"); CFill (zq 1) (at_bin 0) 5; CFill (zq 2) (at_bin 1) 5])%list empty_heap).
Theorem C75_names_refuted :
  this_res (snd (run_call s_setup 5 s_pars m_call (m_run s_setup (m_sigs n_heap) s_pars [MLimit 0 false; MLimit 1 false] (m_start n_heap)))) = Ok 8%Q /\
  this_res (snd (run_call s_setup 5 s_pars m_call (m_run s_setup (m_sigs n_heap) s_pars [MLimit 0 false; MCall 0 m_call; MLimit 1 false] (m_start n_heap)))) = Ok 1%Q.
Proof. split; vm_compute; reflexivity. Qed.

Print Assumptions C75_limits_partial.
Print Assumptions C75_order_partial.
Print Assumptions C75_selected_partial.
Print Assumptions C75_minimum_refuted.
Print Assumptions C75_names_refuted.
Print Assumptions C75_limits_last.
Print Assumptions C75_no_width.
Print Assumptions C75_selected_last.

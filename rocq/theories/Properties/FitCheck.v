(** C93: a fit that is not ready is refused before it is run. *)
From Verif Require Import Model.Base Model.PyStr Model.NDArray Model.Param Model.Config Model.Spectra
  Model.Smear Model.Shift Model.FitParam Model.Heap Model.Minimise Model.Fit Model.FitPrepare Model.Limit Model.FitLimit.
From Verif Require Import Spec.AxisSpec Spec.ArraySpec Spec.SpectraSpec Spec.ShrinkSpec Spec.HeapSpec Spec.FitMethodSpec Spec.FitCheckSpec.
From Verif Require Import Proofs.QcLemmas Proofs.HeapLemmas Proofs.FitCheck.
From Verif Require Properties.FitPrepare.
From Verif Require Import Properties.Fit Properties.Scan Properties.ScanBins.
Local Open Scope string_scope.

(** Not ready: the first fit() raises, and the fit and all its spectra are as before; so it is
    refused again until what is missing has been set. *)
Theorem C93_refused : forall su u, u_checked u = false -> ~ fit_is_ready su u -> exists e, fit_all su u = (u, Err e).
Proof. exact refused_l. Qed.
(** Ready: it is run, provided that the parameters have values. *)
Theorem C93_accepted : forall su u g, u_checked u = false -> axes_named (u_set u) -> fit_is_ready su u -> u_search u = Some g ->
  (forall y, In y (gs_pars g) -> exists l, snd (get_values (su_grid su) y) = Ok l) ->
  fit_all su u = run_fit su (u_with_checked u true).
Proof. exact accepted_l. Qed.
(** The exception tells what is missing: data; parameters of the floating backgrounds; too many
    parameters; a minimiser; a minimiser or a statistic that keeps no bins. *)
Theorem C93_reasons : forall su u, u_checked u = false ->
  (z_data (u_set u) = None -> fit_all su u = (u, Err ECompatibilityError)) /\
  (axes_named (u_set u) -> spectra_ready su (u_set u) ->
     (has_floating (u_set u) -> su_pars su = [] -> fit_all su u = (u, Err EIndexError)) /\
     (~ has_floating (u_set u) -> su_spectra_pars su <> 0%nat -> fit_all su u = (u, Err EValueError)) /\
     (pars_ready su (u_set u) -> u_search u = None -> fit_all su u = (u, Err EAttributeError)) /\
     (forall g, pars_ready su (u_set u) -> u_search u = Some g -> su_per_bin su = true -> gs_per_bin g = false \/ su_stat_per_bin su = false ->
        fit_all su u = (u, Err EValueError))).
Proof. exact reasons_l. Qed.

(** set_minimiser: refused, changing nothing, unless the spectra are ready; else a search over the
    parameters, with an entry for each bin of the spectrum measured if bins are kept. *)
Theorem C93_set_minimiser : forall su fps name u, axes_named (u_set u) ->
  (forall r l ps, z_floating (u_set u) = Some (r :: l, ps) -> exists s, abs (z_heap (u_set u)) r = Some s) ->
  (~ spectra_ready su (u_set u) -> exists e, set_minimiser su fps name u = (u, Some e)) /\
  (spectra_ready su (u_set u) -> exists g r s, set_minimiser su fps name u = (Fitter (u_set u) (u_cache u) (u_cur u) (Some g) (u_checked u), None) /\
     gs_pars g = fps /\ gs_per_bin g = su_per_bin su /\ abs (z_heap (u_set u)) r = Some s /\ gs_spec g = map Z.to_nat (get_shape (s_cfg s)) /\
     measured su (u_set u) r).
Proof. exact minimiser_l. Qed.
(** The fit is ready after it. *)
Theorem C93_ready_after : forall su fps name u, axes_named (u_set u) ->
  (forall r l ps, z_floating (u_set u) = Some (r :: l, ps) -> exists s, abs (z_heap (u_set u)) r = Some s) ->
  spectra_ready su (u_set u) -> pars_ready su (u_set u) -> (su_per_bin su = true -> su_stat_per_bin su = true) ->
  fit_is_ready su (fst (set_minimiser su fps name u)).
Proof. exact minimiser_ready_l. Qed.

(** The fits of C67_ex and C67_per_bin_ex are ready; the second is not with the minimiser of the
    first. *)
Lemma s_named : axes_named s_set.
Proof.
  intros x r ps s I -> A. assert (R : (r < 5)%nat).
  { destruct I as [E|[E|[E|[]]]]; injection E as <- _; repeat constructor. }
  assert (E : s_cfg s = s_cfg (shows ex_heap 0)).
  { do 5 (destruct r as [|r]; [vm_compute in A; injection A as <-; reflexivity|]). exfalso. do 5 apply le_S_n in R. inversion R. }
  rewrite E. split; [vm_compute; repeat constructor; intros []|]. vm_compute. constructor; [exists "energy", "mc"; reflexivity|constructor].
Qed.
Example C93_ex :
  fit_is_ready s_setup s_start /\ fit_is_ready b_setup b_start /\ axes_named (u_set s_start) /\
  (let u := Fitter s_set [] [None; None; None] (Some s_search) false in ~ fit_is_ready b_setup u /\ snd (fit_all b_setup u) = Err EValueError) /\
  (exists x, snd (fit_all s_setup s_start) = Ok x) /\
  snd (fit_all s_setup (Fitter s_set [] [None; None; None] None false)) = Err EAttributeError.
Proof.
  split; [apply ready_of_check; vm_compute; reflexivity|]. split; [apply ready_of_check; vm_compute; reflexivity|]. split; [exact s_named|].
  split. { split; [|vm_compute; reflexivity]. intros (_ & _ & g & [= <-] & H). destruct (H eq_refl). discriminate. }
  split; [|vm_compute; reflexivity].
  assert (X : match snd (fit_all s_setup s_start) with Ok _ => true | _ => false end = true) by (vm_compute; reflexivity).
  destruct (snd (fit_all s_setup s_start)) as [x|]; [eauto|discriminate].
Qed.

Example C93_minimiser_ex :
  spectra_ready b_setup s_set /\ pars_ready b_setup s_set /\ (exists s, abs (z_heap s_set) 2 = Some s) /\
  (let u := fst (set_minimiser b_setup s_pars "fit" (Fitter s_set [] [None; None; None] None false)) in
   option_map gs_spec (u_search u) = Some [4%nat] /\ option_map gs_per_bin (u_search u) = Some true /\
   match snd (fit_all b_setup u) with Ok (Pair s _) => ashape s | _ => [] end = [4%nat]).
Proof.
  assert (R : fit_is_ready b_setup b_start) by (apply ready_of_check; vm_compute; reflexivity). destruct R as (R1 & R2 & _).
  split; [exact R1|]. split; [exact R2|]. split; [exists (shows ex_heap 2); reflexivity|]. split; [vm_compute; reflexivity|]. split; [vm_compute; reflexivity|].
  vm_compute. reflexivity.
Qed.

(** The data of a fit are off the lower bound of its region. *)
Definition data_off (z : fitset) (d : string) (lo hi : Qc) : bool :=
  match z_data z with
  | Some (r, _) => match abs (z_heap z) r with
                   | Some s => existsb (fun x => String.eqb (fst x) d && qeq (fst (snd x)) lo && qeq (snd (snd x)) hi) (the_roi z) && forallb (fun y => negb (isclose lo (sp_low (snd y)))) (s_cfg s)
                   | None => false
                   end
  | None => false
  end.
Lemma not_ready su u d lo hi : data_off (u_set u) d lo hi = true -> ~ fit_is_ready su u.
Proof.
  intros H ([_ C _ _ _ _] & _). unfold data_off in H. destruct (z_data (u_set u)) as [[r ps]|] eqn:D; [|discriminate].
  destruct (C r ps eq_refl) as (_ & s & A & W). rewrite A in H. apply andb_prop in H as (H1 & H2).
  apply existsb_exists in H1 as ([d' [lo' hi']] & I & E). cbn [fst snd] in E. apply andb_prop in E as (E & E3). apply andb_prop in E as (E1 & E2).
  apply String.eqb_eq in E1. apply qeq_iff in E2, E3. subst. destruct (W d lo hi I) as (v & p & Iv & _ & K & _).
  rewrite forallb_forall in H2. apply H2 in Iv. cbn [snd] in Iv. unfold isclose in Iv. apply negb_true_iff in Iv.
  assert (X : isclose lo (sp_low p) = true) by (unfold isclose; now apply qle_iff). unfold isclose in X. congruence.
Qed.
(** The check is made once: a fit that has been run is not refused when it is no longer ready. *)
Definition after_roi (u : fitter) : fitter := u_with_set u (fst (set_roi [("energy", [1%Qc; zq 3])] (u_set u))).
Theorem C93_again_refuted : exists su u x y,
  fit_is_ready su u /\ u_checked u = false /\ snd (fit_all su u) = Ok x /\
  snd (set_roi [("energy", [1%Qc; zq 3])] (u_set (fst (fit_all su u)))) = None /\
  ~ fit_is_ready su (after_roi (fst (fit_all su u))) /\ snd (fit_all su (after_roi (fst (fit_all su u)))) = Ok y.
Proof.
  assert (X : match snd (fit_all s_setup s_start) with Ok _ => true | _ => false end = true) by (vm_compute; reflexivity).
  destruct (snd (fit_all s_setup s_start)) as [x|] eqn:Ex; [|discriminate].
  assert (Y : match snd (fit_all s_setup (after_roi (fst (fit_all s_setup s_start)))) with Ok _ => true | _ => false end = true) by (vm_compute; reflexivity).
  destruct (snd (fit_all s_setup (after_roi (fst (fit_all s_setup s_start))))) as [y|] eqn:Ey; [|discriminate].
  exists s_setup, s_start, x, y. split; [apply ready_of_check; vm_compute; reflexivity|]. split; [reflexivity|]. split; [exact Ex|].
  split; [vm_compute; reflexivity|]. split; [|exact Ey]. intro R. clear -R.
  revert R. apply (not_ready _ _ "energy" 1%Qc (zq 3)). vm_compute. reflexivity.
Qed.

(** Nor does the check look at the bounds of floating backgrounds: after a change of the region
    and of the data a floating background can be off the region. *)
Definition f_first : fitset := fst (new_fit Properties.FitPrepare.no_config None Properties.FitPrepare.ex_given (Some 0%nat) [] [3]%nat None true Properties.FitPrepare.ex_heap).
Definition f_roi : fitset := fst (set_roi [("energy", [0%Qc; zq 4])] f_first).
Definition f_set : fitset := fst (set_data 4 true f_roi).
Theorem C93_floating_refuted : exists config z z1 z2 r s given,
  set_roi given z = (z1, None) /\ set_data 4 true z1 = (z2, None) /\ check_all_spectra config z2 = None /\
  (exists ps, z_floating z2 = Some ([r], ps)) /\ abs (z_heap z2) r = Some s /\ ~ within (the_roi z2) (s_cfg s).
Proof.
  exists Properties.FitPrepare.no_config, f_first, f_roi, f_set, 3%nat, (shows (z_heap f_set) 3), [("energy", [0%Qc; zq 4])].
  split. { assert (E : snd (set_roi [("energy", [0%Qc; zq 4])] f_first) = None) by (vm_compute; reflexivity). rewrite <- E. apply surjective_pairing. }
  split. { assert (E : snd (set_data 4 true f_roi) = None) by (vm_compute; reflexivity). rewrite <- E. apply surjective_pairing. }
  split; [vm_compute; reflexivity|]. split; [exists [["energy_mc"]]; vm_compute; reflexivity|]. split; [vm_compute; reflexivity|].
  intro W. destruct (W "energy" 0%Qc (zq 4)) as (v & p & I & _ & K & _); [vm_compute; now left|].
  assert (X : forallb (fun y => negb (isclose 0%Qc (sp_low (snd y)))) (s_cfg (shows (z_heap f_set) 3)) = true) by (vm_compute; reflexivity).
  rewrite forallb_forall in X. apply X in I. cbn [snd] in I. apply negb_true_iff in I.
  assert (Y : isclose 0%Qc (sp_low p) = true) by (unfold isclose; now apply qle_iff). congruence.
Qed.

Print Assumptions C93_refused.
Print Assumptions C93_accepted.
Print Assumptions C93_reasons.
Print Assumptions C93_set_minimiser.
Print Assumptions C93_ready_after.
Print Assumptions C93_again_refuted.
Print Assumptions C93_floating_refuted.

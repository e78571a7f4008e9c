(** Limits of several signals from one fit. *)
From Coq Require Import Lia Permutation.
From Verif Require Import Model.Base Model.PyStr Model.NDArray Model.Param Model.Config Model.Spectra
  Model.Smear Model.Shift Model.FitParam Model.Heap Model.Minimise Model.Fit Model.FitPrepare Model.Limit Model.FitLimit.
From Verif Require Import Spec.AxisSpec Spec.ArraySpec Spec.SpectraSpec Spec.ShrinkSpec Spec.HeapSpec Spec.SearchSpec Spec.FitRunSpec Spec.LimitSpec Spec.FitLimitSpec Spec.ManySpec.
From Verif Require Import Proofs.QcLemmas Proofs.NDArrayLemmas Proofs.StrLemmas Proofs.DictLemmas Proofs.ParamLemmas Proofs.ExtLemmas Proofs.HeapLemmas Proofs.MinimiseLemmas Proofs.SearchLemmas Proofs.LimitLemmas Proofs.LimitWidths
  Proofs.ShrinkProps Proofs.FitLemmas Proofs.FitPrep Proofs.FitRun Proofs.HomogLemmas.
From Verif Require Proofs.FitSetLemmas.
From Verif Require Import Proofs.LimitFits.
From Verif Require Import Proofs.ManyScan.

(** ** Restricting a spectrum to the region it is on *)
Lemma roi_keywords_ok c : NoDup (map (fun y : string * spar => get_dim (fst y)) c) -> NoDup (map fst c) -> Forall (fun y => typed_name (fst y)) c ->
  forall roi kw, Forall (fun x => exists v p, In (v, p) c /\ get_dim v = fst x /\ snd x = (sp_low p, sp_high p)) roi ->
  current_bounds c kw -> exists kw', roi_keywords roi c kw = Ok kw' /\ current_bounds c kw'.
Proof.
  intros N N1 T. induction roi as [|[dn [lo hi]] roi IH]; intros kw F B; [exists kw; auto|].
  inversion F as [|x l (v & p & I & Dv & Bn) F']; subst. cbn [fst snd] in Dv, Bn. injection Bn as -> ->. subst dn. cbn [roi_keywords].
  rewrite (dim_type_of c v p N I). cbn [rbind]. rewrite Forall_forall in T. pose proof (typed_decompose v (T _ I)) as E.
  set (t := last _ _) in *. apply IH; [exact F'|]. assert (G : dget v c = Some p) by now apply In_dget. clearbody t.
  intros k x H. apply in_dset in H as [(-> & ->)|H].
  - exists v, p. split; [exact G|]. right. split; [|reflexivity]. rewrite E at 2. now rewrite !sapp_assoc.
  - apply in_dset in H as [(-> & ->)|H]; [|now apply B].
    exists v, p. split; [exact G|]. left. split; [|reflexivity]. rewrite E at 2. now rewrite !sapp_assoc.
Qed.
Lemma wf_level s0 m : wf_spectra s0 -> level s0 m -> wf_spectra m.
Proof. intros [W C] Le. destruct (level_kept s0 m Le) as (K1 & K2 & _). unfold wf_spectra, consistent in *. now rewrite K1, K2. Qed.
(** The signal that is in the fit at level [m]. *)
Definition stands (p : part) (sig : option spectra) (o : option part) (m : nat -> spectra) : Prop :=
  match sig with Some s => o = Some p /\ s = m (pt_ref p) | None => o = None end.
Lemma fitted_with_many u ft p args sig o m : length (global_pars ft) <= 1 -> stands p sig o m ->
  fitted_at ft (z_heap (u_set u)) o m args = fitted_with ft (z_heap (u_set u)) p args sig.
Proof.
  intros Le S. unfold fitted_at, fitted_with, with_signal, signal_at.
  assert (E : forall x, apply_last (ft_pars ft) args (global_pars ft) x x = apply_values (ft_pars ft) args (global_pars ft) x).
  { intro x. destruct (global_pars ft) as [|i [|j l]]; [reflexivity| |exfalso; apply le_S_n in Le; inversion Le]. cbn [apply_last]. destruct (apply_values (ft_pars ft) args [i] x); reflexivity. }
  destruct sig as [s|]; cbn [stands] in S; [destruct S as [-> ->]; rewrite E|subst o]; reflexivity.
Qed.

Section Many.
Context (su : setup) (u0 : fitter) (ft : fit) (sigs : list signal) (V : Qc -> Prop) (ls : list (list Qc)).
Hypothesis MR : many_ready su u0 ft sigs.
Hypothesis DP : distinct_printing ft V.
Context (WW : part -> list Qc -> option spectra -> res (ndarray * ndarray)).
Hypothesis WAT : forall p v sig o m, stands p sig o m -> fitted_at ft (z_heap (u_set u0)) o m v = WW p v sig.
Hypothesis PTS : Forall (good_args ft V) (combinations ls).
Notation h0 := (z_heap (u_set u0)).
Notation z0 := (u_set u0).
Notation G := (global_pars ft).
Notation srefs := (map sig_ref sigs).

Lemma ft_is : fit_with ft None = ft.
Proof. destruct (mr_fit _ _ _ _ MR) as (dr & dp & _ & E). rewrite E. reflexivity. Qed.
Lemma prep_is : prepared (fit_with ft None) h0.
Proof. rewrite ft_is. exact (mr_prepared _ _ _ _ MR). Qed.
Lemma each_prep p s0 : In (p, s0) sigs -> prepared (fit_with ft (Some p)) h0.
Proof. intro I. apply (mr_each _ _ _ _ MR p s0 I). Qed.
Lemma each_spec p s0 : In (p, s0) sigs -> abs h0 (pt_ref p) = Some s0.
Proof. intro I. apply (mr_each _ _ _ _ MR p s0 I). Qed.
Lemma SD : ~ In (ft_data ft) srefs.
Proof. intro I. apply in_map_iff in I as ([p s0] & E & I). destruct (mr_each _ _ _ _ MR p s0 I) as (_ & _ & _ & _ & K & _). exact (K E). Qed.
Lemma SF r pars : ft_fixed ft = Some (r, pars) -> ~ In r srefs.
Proof. intros F I. apply in_map_iff in I as ([p s0] & E & I). destruct (mr_each _ _ _ _ MR p s0 I) as (_ & _ & _ & _ & _ & K). exact (K r pars F E). Qed.
Notation ND := (mr_distinct _ _ _ _ MR).
Notation NN := (mr_names _ _ _ _ MR).
Notation CM := (mr_commutes _ _ _ _ MR).
Lemma data_is : exists d, abs h0 (ft_data ft) = Some d /\ wf_spectra d /\
  (forall q, In q (ft_floating ft) \/ (G <> [] /\ exists s0, In (q, s0) sigs) -> exists s, abs h0 (pt_ref q) = Some s /\ fit_ready d s).
Proof.
  destruct (pr_data _ _ (mr_prepared _ _ _ _ MR)) as (d & A & W & R). exists d. split; [exact A|]. split; [exact W|]. intros q [K|(K & s0 & I)]; [apply R; now left|].
  destruct (pr_data _ _ (each_prep q s0 I)) as (d' & A' & _ & R'). cbn [fit_with ft_data] in A'. assert (d' = d) as -> by congruence. apply R'. right. split; [exact K|reflexivity].
Qed.
Lemma p_is p s0 : In (p, s0) sigs -> p = Part (pt_ref p) [] (pt_pars p).
Proof. intro I. destruct (mr_each _ _ _ _ MR p s0 I) as (_ & _ & E & _). destruct p as [r o l]. cbn in *. now rewrite E. Qed.

Context (d : spectra).
Hypothesis AD : abs h0 (ft_data ft) = Some d.
Hypothesis WD : wf_spectra d.
Hypothesis RD : forall q, In q (ft_floating ft) \/ (G <> [] /\ exists s0, In (q, s0) sigs) -> exists s, abs h0 (pt_ref q) = Some s /\ fit_ready d s.
Notation inv := (ManyScan.inv ft sigs h0 V d).
Definition place (o : option part) : option (nat * list string) := option_map (fun p => (pt_ref p, pt_pars p)) o.

(** [o]: the signal of the fit. *)
Definition uinv (m : nat -> spectra) (o : option part) (L : list entry) (u : fitter) : Prop :=
  osig sigs o /\ z_roi (u_set u) = z_roi z0 /\ z_data (u_set u) = z_data z0 /\ z_fixed (u_set u) = z_fixed z0 /\ z_floating (u_set u) = z_floating z0 /\
  z_signal (u_set u) = place o /\ inv m L (u_state u).
Lemma fit_is m o L u : uinv m o L u -> exists dr dp, z_data (u_set u) = Some (dr, dp) /\ fit_of (su_str su) (su_pars su) (su_owns su) (u_set u) dr dp = fit_with ft o.
Proof.
  intros (Os & E1 & E2 & E3 & E4 & E5 & _). destruct (mr_fit _ _ _ _ MR) as (dr & dp & D & E). exists dr, dp. split; [congruence|].
  unfold fit_of, fit_with. rewrite E3, E4, E5. rewrite E. unfold fit_of. cbn [ft_str ft_pars ft_data ft_data_pars ft_fixed ft_floating z_with_signal z_fixed z_floating]. f_equal.
  destruct o as [p|]; [|reflexivity]. destruct Os as (s0 & I). cbn [place option_map]. now rewrite <- (p_is p s0 I).
Qed.
Definition sig_of (cur : option nat) : option part := match cur with Some i => option_map fst (nth_error sigs i) | None => None end.
Lemma start_uinv cur : starts_with u0 sigs cur -> uinv (first_level h0 d) (sig_of cur) (live0 ft h0 d) u0.
Proof.
  intro St. assert (E : u_state u0 = f_start ft h0).
  { unfold u_state, f_start. destruct (mr_start _ _ _ _ MR) as (-> & ->). destruct (mr_fit _ _ _ _ MR) as (dr & dp & _ & ->). reflexivity. }
  assert (I : inv (first_level h0 d) (live0 ft h0 d) (u_state u0)).
  { rewrite E. apply start_inv; [exact prep_is|exact each_prep|exact RD|exact each_spec|exact NN|exact CM]. }
  unfold uinv. destruct cur as [i|]; cbn [starts_with sig_of] in *.
  - destruct St as (p & s0 & N & S). rewrite N. cbn [option_map fst]. split; [exists s0; exact (nth_error_In _ _ N)|]. repeat (split; [reflexivity|]). split; [exact S|exact I].
  - split; [exact Logic.I|]. repeat (split; [reflexivity|]). split; [exact St|exact I].
Qed.

Lemma eval_uinv m o L u args : uinv m o L u -> good_args ft V args -> forall x, u_eval su args u = x ->
  exists L', uinv m o L' (fst x) /\ res_eq pair_eq (snd x) (fitted_at ft h0 o m args).
Proof.
  intros U Ga x. destruct (fit_is m o L u U) as (dr & dp & D & E). unfold u_eval. rewrite D, E. destruct U as (Os & E1 & E2 & E3 & E4 & E5 & I).
  destruct (spectra_of_ok ft sigs h0 V d prep_is each_prep DP AD WD RD each_spec SD SF NN CM o m L (u_state u) args Os I Ga _ eq_refl) as (L' & I' & _ & R).
  destruct (spectra_of (fit_with ft o) args (u_state u)) as [st r]. cbn [fst snd] in *. intros <-. exists L'. split; [|exact R].
  repeat (split; [assumption|]). cbn [fst]. destruct st; exact I'.
Qed.
Lemma eval_search args u : u_search (fst (u_eval su args u)) = u_search u /\ u_checked (fst (u_eval su args u)) = u_checked u.
Proof. unfold u_eval. destruct (z_data (u_set u)) as [[? ?]|]; [|split; reflexivity]. destruct (spectra_of _ _ _); split; reflexivity. Qed.
Lemma remove_uinv m o L u : uinv m o L u -> uinv m None L (remove_signal u).
Proof. intros (Os & E1 & E2 & E3 & E4 & E5 & I). split; [exact Logic.I|]. repeat (split; [assumption|]). split; [reflexivity|exact I]. Qed.
Lemma pars_there m o L u p s0 : uinv m o L u -> In (p, s0) sigs -> exists c, abs (z_heap (u_set u)) (pt_ref p) = Some c /\ same_spectra c (m (pt_ref p)) /\
  s_cfg c = s_cfg s0 /\ roi_pars (the_roi (u_set u)) (s_cfg c) = Ok (pt_pars p).
Proof.
  intros (Os & E1 & E2 & E3 & E4 & E5 & I) Is. destruct (i_signal _ _ _ _ _ _ _ _ I p s0 Is) as (c & Ac & Sc). cbn [u_state fs_heap] in Ac. exists c. split; [exact Ac|]. split; [exact Sc|].
  assert (K : s_cfg c = s_cfg s0). { destruct Sc as [(_ & _ & K & _) _]. rewrite K. now destruct (level_kept s0 _ (i_level _ _ _ _ _ _ _ _ I p s0 Is)) as (-> & _). }
  split; [exact K|]. unfold the_roi. rewrite E1, K. apply (mr_each _ _ _ _ MR p s0 Is).
Qed.
Lemma scale_uinv m o L u p s0 k : uinv m o L u -> In (p, s0) sigs -> (0 < k / s_decays s0)%Qc -> exists h m', h_scale k (pt_ref p) (z_heap (u_set u)) = (h, None) /\
  scale k s0 = (m', None) /\ forall o', osig sigs o' -> uinv (at_level m (pt_ref p) m') o' L (u_with_set u (z_with_signal (z_with_heap (u_set u) h) (place o'))).
Proof.
  intros (Os & E1 & E2 & E3 & E4 & E5 & I) Is P. destruct (rescale_ok ft sigs h0 V d ND m L (u_state u) p s0 k I Is P) as (st' & m' & H & S & I' & C). unfold on_heap in H. cbn [u_state fs_heap] in H.
  destruct (h_scale k (pt_ref p) (z_heap (u_set u))) as [h1 e1] eqn:Eh. destruct e1 as [e1|]; [discriminate|]. injection H as <-.
  exists h1, m'. split; [reflexivity|]. split; [exact S|]. intros o' Os'. split; [exact Os'|]. repeat (split; [assumption|]). split; [reflexivity|exact I'].
Qed.
Lemma select_uinv m o L u p s0 k : uinv m o L u -> In (p, s0) sigs -> o = None \/ o = Some p -> (0 < k / s_decays s0)%Qc -> exists u' m', select (pt_ref p) (Some k) u = (u', None) /\
  scale k s0 = (m', None) /\ uinv (at_level m (pt_ref p) m') (Some p) L u' /\ u_search u' = u_search u /\ u_checked u' = u_checked u.
Proof.
  intros U Is Turn P. destruct (scale_uinv m o L u p s0 k U Is P) as (h1 & m' & Eh & S & U'). destruct (pars_there m o L u p s0 U Is) as (c & Ac & Sc & _ & Pc).
  specialize (U' (Some p) (ex_intro _ s0 Is)). pose proof U as (Os & E1 & E2 & E3 & E4 & E5 & I). unfold select. destruct Turn as [->| ->]; cbn [place option_map] in E5; rewrite E5.
  - unfold u_set_signal, set_signal, set_one, pars_of. rewrite Ac, Pc. cbn [u_with_set u_set z_with_signal z_with_heap z_signal z_heap]. rewrite Eh.
    eexists _, m'. split; [reflexivity|]. split; [exact S|]. split; [|split; reflexivity]. exact U'.
  - rewrite E5, Eh. eexists _, m'. split; [reflexivity|]. split; [exact S|]. split; [|split; reflexivity].
    destruct U' as (O' & F1 & F2 & F3 & F4 & _ & I'). repeat (split; [assumption|]). exact I'.
Qed.
Lemma place_uinv m o L u p s0 shrink : uinv m o L u -> In (p, s0) sigs -> (shrink = true -> on_roi (the_roi z0) s0) -> exists u', u_set_signal (pt_ref p) shrink u = (u', None) /\
  uinv m (Some p) L u' /\ u_search u' = u_search u /\ u_checked u' = u_checked u.
Proof.
  intros U Is Sh. destruct (pars_there m o L u p s0 U Is) as (c & Ac & Sc & Kc & Pc). pose proof U as (Os & E1 & E2 & E3 & E4 & E5 & I). unfold u_set_signal, set_signal, set_one. destruct shrink.
  - destruct (Sh eq_refl) as (Wf & Ne & Al & Nd & Ty & Ro). assert (R : the_roi (u_set u) = the_roi z0) by (unfold the_roi; now rewrite E1).
    assert (Wc : wf_spectra c). { apply (FitSetLemmas.wf_same (m (pt_ref p))); [|exact Sc]. apply (wf_level s0); [exact Wf|]. exact (i_level _ _ _ _ _ _ _ _ I p s0 Is). }
    rewrite <- Kc in Ne, Al, Nd, Ty, Ro. destruct (roi_keywords_ok (s_cfg c) Nd) with (roi := the_roi z0) (kw := @nil (string * Qc)) as (kw & Ek & Bk); [destruct Wc as [[W1 _] _]; exact W1|exact Ty|exact Ro|intros ? ? []|].
    destruct (shrink_identity_l c kw Wc Ne Al Bk) as (c1 & E & M1). unfold shrink_spectra. rewrite Ac, R, Ek.
    pose proof (shrink_call kw (pt_ref p) (z_heap (u_set u)) c (i_wf _ _ _ _ _ _ _ _ I) Ac) as Gc. rewrite E in Gc.
    assert (F : frame (eq (pt_ref p)) (z_heap (u_set u)) (fst (h_shrink kw (pt_ref p) (z_heap (u_set u))))).
    { apply (frame_same_cfg _ _ _ _ c Gc Ac). cbn [fst]. apply M1. }
    destruct Gc as (_ & W1 & (c2 & A2 & M2) & N2). destruct (h_shrink kw (pt_ref p) (z_heap (u_set u))) as [h1 e1]. cbn [fst snd] in *. subst e1.
    assert (K2 : s_cfg c2 = s_cfg c). { destruct M2 as [(_ & _ & -> & _) _]. apply M1. }
    unfold pars_of. rewrite A2, K2, <- R, Pc. eexists. split; [reflexivity|]. split; [|split; reflexivity]. split; [exists s0; exact Is|]. repeat (split; [assumption|]). split; [reflexivity|].
    apply (inv_step_gen ft sigs h0 V d m m L (u_state u) _ (eq (pt_ref p)) I); try reflexivity.
    + exact W1.
    + exact F.
    + intros x Ix. left. pose proof (in_map e_ref _ _ Ix) as Jr. destruct (i_apart _ _ _ _ _ _ _ _ I _ Jr) as (_ & _ & Ns & _). intro K. apply Ns. rewrite <- K. exact (sig_in sigs p s0 Is).
    + intros r <- _. right. exact (sig_in sigs p s0 Is).
    + intros q s1 J. exact (i_level _ _ _ _ _ _ _ _ I q s1 J).
    + intros q s1 J. cbn [u_state u_set u_with_set z_with_signal z_with_heap z_heap fs_heap]. destruct (Nat.eq_dec (pt_ref q) (pt_ref p)) as [Eq|Nq].
      * rewrite Eq. exists c2. split; [exact A2|]. eapply same_trans; [exact M2|]. eapply same_trans; [exact M1|exact Sc].
      * destruct (i_signal _ _ _ _ _ _ _ _ I q s1 J) as (c3 & A3 & S3). exists c3. split; [|exact S3]. apply (abs_frame (eq (pt_ref p)) (z_heap (u_set u))); auto.
  - unfold pars_of. rewrite Ac, Pc. eexists. split; [reflexivity|]. split; [|split; reflexivity]. split; [exists s0; exact Is|]. repeat (split; [assumption|]). split; [reflexivity|exact I].
Qed.

(** The search is ready for another fit. *)
Record sinv (u : fitter) : Prop := SInv {
  si_search : exists g, u_search u = Some g /\ grid_of (su_grid su) (gs_pars g) ls /\ ready g ls /\ gs_per_bin g = false /\
    (gs_use_numpy g = true \/ ls <> []) /\ Forall2 (fun q p => q_prior q = fp_prior p /\ q_sigma q = fp_sigma p) (su_pars su) (gs_pars g);
  si_total : su_per_bin su = false;
  si_some : Forall (fun l => l <> []) ls;
  si_checked : u_checked u = true \/ (forall o, osig sigs o -> check_all_spectra (su_config su) (u_set (fitter_with u0 o)) = None) /\ su_pars su <> [] }.
Lemma sinv_same u u' : sinv u -> u_search u' = u_search u -> u_checked u' = u_checked u -> sinv u'.
Proof. intros [A B C D] E1 E2. constructor; rewrite ?E1, ?E2; assumption. Qed.

Lemma float_is : exists r l ps, z_floating z0 = Some (r :: l, ps).
Proof.
  destruct (mr_fit _ _ _ _ MR) as (dr & dp & _ & E). pose proof (pr_some _ _ (mr_prepared _ _ _ _ MR)) as N. rewrite E in N. cbn [fit_of ft_floating z_with_signal z_floating] in N.
  destruct (z_floating z0) as [[[|r l] ps]|]; try congruence; [|eauto]. cbn in N. congruence.
Qed.
Lemma check_kept m o L u : uinv m o L u -> check_all_spectra (su_config su) (u_set (fitter_with u0 o)) = None -> check_all_spectra (su_config su) (u_set u) = None.
Proof.
  intros (Os & E1 & E2 & E3 & E4 & E5 & I). unfold check_all_spectra, the_roi. rewrite E1, E2, E3, E4, E5. cbn [fitter_with u_with_set u_set z_with_signal z_data z_roi z_fixed z_floating z_signal z_heap].
  fold (place o). destruct (mr_fit _ _ _ _ MR) as (dr & dp & Ed & Ef). rewrite Ed.
  pose proof (data_there ft sigs h0 V d AD SD m L _ I) as A1. cbn [u_state fs_heap] in A1.
  assert (Dr : ft_data ft = dr) by (rewrite Ef; reflexivity). rewrite Dr in A1. pose proof AD as A0. rewrite Dr in A0. set (roi := match z_roi z0 with Some r => r | None => [] end).
  assert (C1 : check_part roi (z_heap (u_set u)) (Some (dr, dp)) = check_part roi h0 (Some (dr, dp))).
  { unfold check_part, check_obj. rewrite A1, A0. reflexivity. }
  assert (C2 : check_part roi (z_heap (u_set u)) (z_fixed z0) = check_part roi h0 (z_fixed z0)).
  { assert (Ff : ft_fixed ft = z_fixed z0) by (rewrite Ef; reflexivity). rewrite <- Ff. case_eq (ft_fixed ft); [intros [r pars] F|reflexivity].
    destruct (pr_fixed _ _ (mr_prepared _ _ _ _ MR) r pars F) as (s & As). pose proof (fixed_there ft sigs h0 V d SF m L _ r pars s I F As) as A2. cbn [u_state fs_heap] in A2.
    unfold check_part, check_obj. now rewrite A2, As. }
  assert (C3 : check_part roi (z_heap (u_set u)) (place o) = check_part roi h0 (place o)).
  { destruct o as [p|]; [|reflexivity]. destruct Os as (s0 & Is). cbn [place option_map].
    destruct (i_signal _ _ _ _ _ _ _ _ I p s0 Is) as (c & A & S). cbn [u_state fs_heap] in A. unfold check_part, check_obj. rewrite A, (each_spec p s0 Is).
    destruct S as [(_ & _ & K & _) _]. rewrite K. destruct (level_kept s0 _ (i_level _ _ _ _ _ _ _ _ I p s0 Is)) as (-> & _). reflexivity. }
  now rewrite C1, C2, C3.
Qed.
Lemma checked_ok m o L u : uinv m o L u -> sinv u -> exists u1, (u_checked u1 = true /\ uinv m o L u1 /\ sinv u1) /\ fit_all su u = run_fit su u1.
Proof.
  intros U S. unfold fit_all. case_eq (u_checked u); intro K; [exists u; auto|]. pose proof S as [(g & Sg & Gg & Rg & Pg & Ng & Vg) T N C]. destruct C as [C|(C & C')]; [congruence|].
  unfold check_fitter, fitter_checks. rewrite (check_kept m o L u U (C o (proj1 U))). destruct float_is as (r & l & ps & Fl).
  assert (Ff : floats (u_set u) = true). { unfold floats. destruct U as (_ & _ & _ & _ & -> & _). now rewrite Fl. }
  rewrite Ff, T, Sg. destruct (length (su_pars su)) eqn:Le; [destruct (su_pars su); [congruence|discriminate]|]. cbn [Nat.eqb]. rewrite (logged_ok su ls g Gg).
  exists (u_with_checked u true). split; [|reflexivity]. split; [reflexivity|]. split; [exact U|]. constructor; [exists g; auto 7|exact T|exact N|now left].
Qed.
Definition values_are (p : part) (sig : option spectra) : Prop := forall v, In v (combinations ls) -> exists t q, value_for su ft h0 (WW p) sig v = Ok (RNum t, q).
Lemma fit_ok m o L u p sig : uinv m o L u -> sinv u -> stands p sig o m -> values_are p sig ->
  exists u' L' t q pens g, u_fit su u = (u', Ok (RNum t)) /\ uinv m o L' u' /\ sinv u' /\ best_point (value_for su ft h0 (WW p) sig) (combinations ls) t q /\
    u_search u' = Some g /\ summary_pens g = Ok pens /\ fold_right Qcplus 0%Qc pens = q.
Proof.
  intros U0 S0 St Va. unfold u_fit. destruct (checked_ok m o L u U0 S0) as (u1 & (K & U & S) & ->). clear U0 S0 u.
  destruct (fit_is m o L u1 U) as (dr & dp & D & E). pose proof S as [(g & Sg & Gg & Rg & Pg & Ng & Vg) T N _].
  destruct float_is as (r & l & ps & Fl). unfold run_fit.
  assert (Ff : floats (u_set u1) = true). { unfold floats. destruct U as (_ & _ & _ & _ & -> & _). now rewrite Fl. }
  rewrite Ff, Sg, D, E. pose proof U as (Os & E1 & E2 & E3 & E4 & E5 & I).
  destruct (answers (value_for su ft h0 (WW p) sig) (combinations ls) Va) as (rs & F & Nm).
  assert (F' : Forall2 (fun v r => value_of ft h0 (su_stat su) (su_pen su) (su_per_bin su) (su_single_bin su) v (fitted_at ft h0 o m v) = Ok r) (combinations ls) rs).
  { clear - F St WAT. induction F as [|v r l rs H _ IH]; constructor; [|exact IH]. rewrite (WAT p v sig o m St). exact H. }
  destruct (calls_ok ft sigs h0 V d prep_is each_prep DP AD WD RD each_spec SD SF NN CM o (su_stat su) (su_pen su) (su_per_bin su) (su_single_bin su) m Os
              (combinations ls) PTS rs F' L (u_state u1) I) as (st1 & L' & C & I').
  set (gs := SS (u_state u1) g). assert (W : answers_fit (ss_gs gs) rs).
  { unfold answers_fit. cbn [gs ss_gs]. eapply Forall_impl; [|exact Nm]. intros y (t & Et). rewrite Et. cbn. exact Pg. }
  destruct (minimise_l (su_grid su) (objective (fit_with ft o) (su_stat su) (su_pen su) (su_per_bin su) (su_single_bin su)) (fun v p s => Ok (su_pen su v p s)) gs ls st1 rs Gg Rg W C N Ng)
    as (g1 & k & vals & rr & pen & sa & pa & M & Lr & _ & Ev & Er & Bf & Pn & (Sa1 & Sa2) & (Pa1 & Pa2) & Least & Rd & Pb & Sp).
  { apply Forall_forall. intros y _ v s _. eauto. }
  destruct (minimise_kept _ _ _ gs ls st1 rs _ _ Gg Rg W C M) as (Kp & Un). cbn [ss_gs gs] in *. rewrite M. cbn [rbind fst snd ss_obj ss_gs rmap stat_only].
  pose proof (nth_forall2 _ _ _ F k vals (rr, pen) Ev Er) as Val. destruct (proj1 (Forall_forall _ _) Nm _ (nth_error_In _ _ Er)) as (t & Et). cbn [fst] in Et. subst rr.
  assert (Us : unboxed sa = RNum t). { unfold unboxed. rewrite Pg in Sa1. cbn [answer_shape] in Sa1. rewrite Sa1. f_equal. apply Sa2. rewrite Sa1. constructor. }
  rewrite Us.
  assert (Lv : length vals = length (gs_pars g)).
  { clear - Ev Gg. apply nth_error_In in Ev. revert vals Ev. induction Gg as [|q y qs ys _ _ IH]; intros vals Ev; cbn in Ev; [destruct Ev as [<-|[]]; reflexivity|].
    apply in_flat_map in Ev as (v & _ & Ev). apply in_map_iff in Ev as (w & <- & Ev). cbn. f_equal. now apply IH. }
  destruct (summary_ok (su_pen su) (su_pars su) (gs_pars g) (gs_pars g1) vals Vg Lv Bf Pn) as (pens & Ep & Sm).
  assert (Pq : pen = penalties (su_pen su) (su_pars su) vals).
  { unfold value_for, value_of in Val. destruct (WW p vals sig) as [oe|]; [|discriminate]. cbn [rbind] in Val. destruct (su_stat su _ _) as [y|]; [|discriminate]. cbn [rbind] in Val.
    destruct (shown h0 (ft_data ft)) as [ds|]; [|discriminate]. cbn [rbind] in Val. rewrite T in Val. cbn [rbind] in Val. injection Val as _ <-.
    destruct (mr_fit _ _ _ _ MR) as (? & ? & _ & ->). reflexivity. }
  exists (u_after u1 st1 (Some g1)), L', t, pen, pens, g1. split; [reflexivity|]. split; [|split; [|split; [|split; [reflexivity|split; [exact Ep|congruence]]]]].
  - repeat (split; [assumption|]). destruct st1. exact I'.
  - constructor; [|exact T|exact N|left; exact K]. exists g1. split; [reflexivity|]. split; [exact (grid_kept _ _ _ _ Kp Gg)|]. split; [exact Rd|]. split; [congruence|]. split; [rewrite Un; exact Ng|].
    clear - Vg Kp. revert Vg. generalize (su_pars su). induction Kp as [|y y' ys ys' (K1 & K2 & _) _ IH]; intros qs H; inversion H as [|? ? ? ? (H1 & H2) H']; subst; constructor; [|now apply IH].
    split; congruence.
  - exists k, vals. split; [exact Ev|]. split; [exact Val|]. intros k' v' t' q' E1' E2'. destruct (forall2_nth _ _ _ F k' v' E1') as (r' & Er').
    pose proof (nth_forall2 _ _ _ F k' v' r' E1' Er') as V'. cbn beta in V'. assert (r' = (RNum t', q')) as -> by congruence. pose proof (Least k' _ _ Er') as Q. rewrite Pg in Q. assert (AT : forall sp x, answer_total false sp (RNum x) = x) by (intros sp x; unfold answer_total; rewrite total_sum_over; reflexivity). rewrite !AT in Q. exact Q.
Qed.


(** Scalings (nearly zero: no signal) and the fits they lead to. *)
Definition scaling_ok (s0 : spectra) (k : Qc) : Prop := isclose k 0 = true \/ (0 < k / s_decays s0)%Qc.
Definition signal_at_k (p : part) (k : Qc) : option part := if isclose k 0 then None else Some p.
Lemma select_ok m o L u p s0 k : uinv m o L u -> sinv u -> In (p, s0) sigs -> isclose k 0 = true \/ (o = None \/ o = Some p) -> scaling_ok s0 k -> forall ok, ok = (if isclose k 0 then None else Some k) ->
  exists u' m', select (pt_ref p) ok u = (u', None) /\ uinv m' (signal_at_k p k) L u' /\ sinv u' /\ stands p (at_scale s0 k) (signal_at_k p k) m'.
Proof.
  intros U S Is Turn H ok ->. unfold at_scale, signal_at_k, scaling_ok in *. destruct (isclose k 0).
  - exists (remove_signal u), m. split; [reflexivity|]. split; [exact (remove_uinv m o L u U)|]. split; [|reflexivity]. now apply (sinv_same u).
  - destruct H as [H|H]; [discriminate|]. destruct Turn as [T|T]; [discriminate|]. destruct (select_uinv m o L u p s0 k U Is T H) as (u' & m' & E & Sc & U' & K1 & K2). exists u', (at_level m (pt_ref p) m'). split; [exact E|].
    split; [exact U'|]. split; [now apply (sinv_same u)|]. split; [reflexivity|]. unfold at_level. rewrite Nat.eqb_refl. unfold scaled_to. now rewrite Sc.
Qed.
Definition fit_right (p : part) (sig : option spectra) (f : fitout) : Prop := exists t, fo_stat f = RNum t /\ best_point (value_for su ft h0 (WW p) sig) (combinations ls) t (penalty_of f).
Lemma limit_fit_ok m o L u p s0 k : uinv m o L u -> sinv u -> In (p, s0) sigs -> isclose k 0 = true \/ (o = None \/ o = Some p) -> scaling_ok s0 k -> values_are p (at_scale s0 k) ->
  exists u' m' L' f, limit_fit su (pt_ref p) u (if isclose k 0 then None else Some k) = (u', Ok f) /\ uinv m' (signal_at_k p k) L' u' /\ sinv u' /\ fit_right p (at_scale s0 k) f.
Proof.
  intros U S Is Turn H Va. destruct (select_ok m o L u p s0 k U S Is Turn H _ eq_refl) as (u1 & m1 & E & U1 & S1 & St). unfold limit_fit. rewrite E.
  destruct (fit_ok m1 _ L u1 p _ U1 S1 St Va) as (u' & L' & t & q & pens & g & -> & U' & S' & B & -> & -> & Sm). cbn [rbind rmap].
  eexists u', m1, L', _. split; [reflexivity|]. split; [exact U'|]. split; [exact S'|]. exists t. split; [reflexivity|]. unfold penalty_of. cbn [fo_pens]. now rewrite Sm.
Qed.
Lemma turn_kept p k : signal_at_k p k = None \/ signal_at_k p k = Some p.
Proof. unfold signal_at_k. destruct (isclose k 0); auto. Qed.
Lemma fits_ok p s0 : In (p, s0) sigs -> forall scales m o L u, uinv m o L u -> sinv u -> o = None \/ o = Some p -> Forall (scaling_ok s0) scales ->
  (forall k, In k scales -> values_are p (at_scale s0 k)) ->
  exists u' m' L' fs, fits_made (limit_fit su (pt_ref p)) u scales u' fs /\ uinv m' (match scales with [] => o | _ => signal_at_k p (last scales 0%Qc) end) L' u' /\ sinv u' /\
    Forall2 (fun k f => fit_right p (at_scale s0 k) f) scales fs.
Proof.
  intro Is. induction scales as [|k scales IH]; intros m o L u U S T F Va; [exists u, m, L, []; split; [reflexivity|]; split; [exact U|]; split; [exact S|constructor]|]. inversion F as [|? ? Fk F']; subst.
  destruct (limit_fit_ok m o L u p s0 k U S Is (or_intror T) Fk (Va k (or_introl eq_refl))) as (u1 & m1 & L1 & f & E & U1 & S1 & R).
  destruct (IH m1 _ L1 u1 U1 S1 (turn_kept p k) F' (fun x I => Va x (or_intror I))) as (u2 & m2 & L2 & fs & E2 & U2 & S2 & R2).
  exists u2, m2, L2, (f :: fs). split; [exists u1; split; assumption|]. split; [|split; [exact S2|constructor; assumption]]. destruct scales; exact U2.
Qed.

Lemma call_right m o L u fps p s0 c : uinv m o L u -> sinv u -> In (p, s0) sigs -> call_gives (value_for su ft h0 (WW p)) s0 ls c -> (snd c <> None -> o = None \/ o = Some p) ->
  (exists m' L', uinv m' (signal_at_k p (last (fst (fst c)) 0%Qc)) L' (fst (run_call su (pt_ref p) fps c u)) /\ sinv (fst (run_call su (pt_ref p) fps c u))) /\
  (Forall (fun y => fp_sigma y <> None) fps -> limit_right (value_for su ft h0 (WW p)) s0 (combinations ls) c (snd (run_call su (pt_ref p) fps c u))) /\
  (Exists (fun y => fp_sigma y = None) fps -> snd (run_call su (pt_ref p) fps c u) = Err ETypeError).
Proof.
  destruct c as [[scales lim] ms]. intros U S Is (NE & NZ & SC & Va) Turn. cbn [run_call limit_right fst snd] in *. unfold limit_of.
  assert (X : exists u1 m1 o1 L1 mm, uinv m1 o1 L1 u1 /\ sinv u1 /\ (o1 = None \/ o1 = Some p) /\
            match ms with
            | Some x => x <> 0%Qc /\ u1 = u /\ mm = x
            | None => exists f, limit_fit su (pt_ref p) u None = (u1, Ok f) /\ fo_stat f = RNum mm
            end /\ match ms with Some x => mm = x | None => exists q0, best_point (value_for su ft h0 (WW p) None) (combinations ls) mm q0 end).
  { destruct ms as [x|].
    - exists u, m, o, L, x. split; [exact U|]. split; [exact S|]. split; [apply Turn; discriminate|]. split; [split; [congruence|now split]|reflexivity].
    - destruct (limit_fit_ok m o L u p s0 0%Qc U S Is) as (u1 & m1 & L1 & f & E & U1 & S1 & (t & R1 & R2)).
      + left. exact zero_close.
      + left. exact zero_close.
      + unfold at_scale. rewrite zero_close. intros v I. apply Va; [now left|exact I].
      + unfold at_scale in R2. rewrite zero_close in *. exists u1, m1, (signal_at_k p 0%Qc), L1, t. split; [exact U1|]. split; [exact S1|]. split; [apply turn_kept|]. split; eauto. }
  destruct X as (u1 & m1 & o1 & L1 & mm & U1 & S1 & T1 & Hm & Bm).
  destruct (fits_ok p s0 Is scales m1 o1 L1 u1 U1 S1 T1 SC) as (u2 & m2 & L2 & fs & Fm & U2 & S2 & FR).
  { intros k I v J. apply Va; [|exact J]. unfold signals. apply in_or_app. right. now apply in_map. }
  assert (Nf : Forall number fs). { clear - FR. induction FR as [|k f ks fs (t & E & _) _ IH]; constructor; [now exists t|exact IH]. }
  assert (NW : Exists (fun y => fp_sigma y = None) fps ->
            get_limit (limit_fit su (pt_ref p)) scales (length scales) [length scales] (map fp_sigma fps) u lim ms = (u2, Err ETypeError)).
  { intro X. apply (get_limit_no_width _ _ _ _ _ _ u1 mm u2 fs NE); [|exact Hm|exact Fm|exact Nf].
    apply Exists_exists in X as (y & I & E). rewrite <- E. now apply in_map. }
  assert (Dec : Forall (fun y => fp_sigma y <> None) fps \/ Exists (fun y => fp_sigma y = None) fps).
  { clear. induction fps as [|y l [IH|IH]]; [left; constructor|..|right; now constructor 2].
    destruct (fp_sigma y) eqn:E; [left; constructor; [congruence|exact IH]|right; now constructor]. }
  destruct Dec as [SG|SG].
  2: { rewrite (NW SG). cbn [fst snd]. split; [exists m2, L2; split; [destruct scales; [congruence|exact U2]|exact S2]|]. split; [|reflexivity].
       intro F. exfalso. apply Exists_exists in SG as (y & I & E). rewrite Forall_forall in F. exact (F y I E). }
  clear NW. assert (SG' : Forall (fun s => s <> None) (map fp_sigma fps)) by (now apply Forall_map).
  destruct (get_limit_l (limit_fit su (pt_ref p)) scales (map fp_sigma fps) u lim ms u1 mm u2 fs NE SG' Hm Fm Nf) as (bb & FL & R).
  destruct (get_limit (limit_fit su (pt_ref p)) scales (length scales) [length scales] (map fp_sigma fps) u lim ms) as [u3 ans]. cbn [fst snd].
  assert (u3 = u2) as -> by (destruct ans; apply R). split; [exists m2, L2; split; [destruct scales; [congruence|exact U2]|exact S2]|].
  split; [intros _|intro X; exfalso; apply Exists_exists in X as (y & I & E); rewrite Forall_forall in SG; exact (SG y I E)].
  exists mm, (fun j => stat_of (nth j fs nofit)), (fun j => penalty_of (nth j fs nofit)), bb. split; [exact Bm|]. split; [|split; [exact FL|destruct ans; apply R]].
  intros j Hj. destruct (nth_error scales j) as [k|] eqn:Ek; [|apply nth_error_None in Ek; lia]. destruct (forall2_nth _ _ _ FR j k Ek) as (f & Ef).
  destruct (nth_forall2 _ _ _ FR j k f Ek Ef) as (t & E1 & E2). rewrite (nth_error_nth _ _ 0%Qc Ek), (nth_error_nth _ _ nofit Ef). unfold stat_of at 1. now rewrite E1.
Qed.
Lemma turn_is cur i p s0 : nth_error sigs i = Some (p, s0) -> its_turn cur i -> sig_of cur = None \/ sig_of cur = Some p.
Proof. intros N [->| ->]; [now left|right]. cbn [sig_of]. now rewrite N. Qed.
Lemma step_kept fps : forall cur e, step_gives (fun p => value_for su ft h0 (WW p)) su u0 ft sigs V ls cur e -> forall m L u, uinv m (sig_of cur) L u -> sinv u ->
  exists m' L', uinv m' (sig_of (selected cur e)) L' (m_step su sigs fps u e) /\ sinv (m_step su sigs fps u e).
Proof.
  intros cur e Ok m L u U S. destruct e as [i shrink|i c|i k|i k|args]; cbn [step_gives m_step selected] in *.
  - destruct Ok as (p & s0 & N & Cf & Sh). rewrite N. unfold limit_init, sig_ref. cbn [fst]. rewrite Cf.
    destruct (place_uinv m _ L u p s0 shrink U (nth_error_In _ _ N) Sh) as (u' & E & U' & K1 & K2). rewrite E. cbn [fst]. exists m, L. cbn [sig_of]. rewrite N. split; [exact U'|now apply (sinv_same u)].
  - destruct Ok as (p & s0 & N & Co & T). rewrite N. unfold sig_ref. cbn [fst].
    destruct (call_right m _ L u fps p s0 c U S (nth_error_In _ _ N) Co (fun H => turn_is cur i p s0 N (T H))) as ((m' & L' & U' & S') & _). exists m', L'. split; [|exact S'].
    destruct c as [[scales lim] ms]. cbn [fst snd] in *. unfold signal_at_k in U'. destruct (isclose (last scales 0%Qc) 0); cbn [sig_of]; [exact U'|]. rewrite N. exact U'.
  - destruct Ok as (p & s0 & N & Co). rewrite N. unfold sig_ref. cbn [fst]. destruct k as [k|].
    + destruct Co as (P & T). destruct (select_uinv m _ L u p s0 k U (nth_error_In _ _ N) (turn_is cur i p s0 N T) P) as (u' & m' & E & _ & U' & K1 & K2). rewrite E. cbn [fst].
      exists (at_level m (pt_ref p) m'), L. cbn [sig_of]. rewrite N. split; [exact U'|now apply (sinv_same u)].
    + cbn [select fst]. exists m, L. split; [exact (remove_uinv m _ L u U)|now apply (sinv_same u)].
  - destruct Ok as (p & s0 & N & P). rewrite N. unfold sig_ref. cbn [fst]. destruct (scale_uinv m _ L u p s0 k U (nth_error_In _ _ N) P) as (h1 & m' & Eh & _ & U'). rewrite Eh. cbn [fst].
    exists (at_level m (pt_ref p) m'), L. split; [|now apply (sinv_same u)]. pose proof U as (Os & E1 & E2 & E3 & E4 & E5 & I). specialize (U' _ Os).
    destruct U' as (O' & F1 & F2 & F3 & F4 & _ & I'). repeat (split; [assumption|]). exact I'.
  - destruct (eval_uinv m _ L u args U Ok _ eq_refl) as (L' & U' & _). destruct (eval_search args u) as (K1 & K2). exists m, L'. split; [exact U'|now apply (sinv_same u)].
Qed.
Lemma run_kept fps : forall l cur, steps_give (fun p => value_for su ft h0 (WW p)) su u0 ft sigs V ls cur l -> forall m L u, uinv m (sig_of cur) L u -> sinv u ->
  exists m' L', uinv m' (sig_of (fold_left selected l cur)) L' (m_run su sigs fps l u) /\ sinv (m_run su sigs fps l u).
Proof.
  induction l as [|e l IH]; intros cur Ok m L u U S; [exists m, L; now split|]. destruct Ok as (Oe & Ol).
  destruct (step_kept fps cur e Oe m L u U S) as (m1 & L1 & U1 & S1). unfold m_run. cbn [fold_left]. exact (IH _ Ol m1 L1 _ U1 S1).
Qed.
Lemma searches_sinv g : (forall o, osig sigs o -> searches su (fitter_with u0 o) g ls) -> sinv u0.
Proof.
  intro H. pose proof (H None Logic.I) as [E1 E2 E3 (E4 & E4') (E5 & E5') E6 E7]. constructor; [|exact E4'|exact E5|].
  - exists g. auto 7.
  - destruct (u_checked u0) eqn:K; [now left|right]. assert (X : forall o, osig sigs o -> fitter_checks su (fitter_with u0 o) = None).
    { intros o Os. destruct (se_checked _ _ _ _ (H o Os)) as [C|C]; [|exact C]. cbn in C. congruence. }
    split.
    + intros o Os. pose proof (X o Os) as Y. unfold fitter_checks in Y. now destruct (check_all_spectra (su_config su) (u_set (fitter_with u0 o))).
    + pose proof (X None Logic.I) as Y. unfold fitter_checks in Y. destruct (check_all_spectra _ _); [discriminate|]. destruct float_is as (r & l & ps & Fl). unfold floats in Y.
      cbn [fitter_with u_with_set u_set z_with_signal z_floating] in Y. rewrite Fl in Y. intro Z. rewrite Z in Y. discriminate.
Qed.
End Many.

Section Results.
Context (su : setup) (u : fitter) (ft : fit) (sigs : list signal) (V : Qc -> Prop) (g : gsearch) (ls : list (list Qc)).
Context (WW : part -> list Qc -> option spectra -> res (ndarray * ndarray)).
Hypothesis WAT : forall p v sig o m, stands p sig o m -> fitted_at ft (z_heap (u_set u)) o m v = WW p v sig.
Notation value := (fun p => value_for su ft (z_heap (u_set u)) (WW p)).
Lemma steps_split : forall l cur e, steps_give value su u ft sigs V ls cur (l ++ [e]) ->
  steps_give value su u ft sigs V ls cur l /\ step_gives value su u ft sigs V ls (fold_left selected l cur) e.
Proof.
  induction l as [|e' l IH]; intros cur' e H; cbn in H; [destruct H as (H & _); split; [exact Logic.I|exact H]|].
  destruct H as (H1 & H2). destruct (IH _ _ H2) as (H3 & H4). split; [split; assumption|exact H4].
Qed.
Lemma many_for cur steps i p s0 c :
  many_ready su u ft sigs -> distinct_printing ft V -> (forall o, o = None \/ In o (map (fun x => Some (fst x)) sigs) -> searches su (fitter_with u o) g ls) ->
  Forall (good_args ft V) (combinations ls) -> starts_with u sigs cur -> steps_give value su u ft sigs V ls cur (steps ++ [MCall i c]) ->
  nth_error sigs i = Some (p, s0) ->
  let answer := snd (run_call su (pt_ref p) (gs_pars g) c (m_run su sigs (gs_pars g) steps u)) in
  (Forall (fun y => fp_sigma y <> None) (gs_pars g) -> limit_right (value p) s0 (combinations ls) c answer) /\
  (Exists (fun y => fp_sigma y = None) (gs_pars g) -> answer = Err ETypeError).
Proof.
  intros MR DP SE PTS ST OK N answer. destruct (data_is su u ft sigs MR) as (d & AD & WD & RD).
  destruct (steps_split steps cur _ OK) as (OK1 & OK2).
  assert (S : sinv su u sigs ls u).
  { apply (searches_sinv su u ft sigs ls MR g). intros o Os. apply SE. destruct o as [q|]; [right|now left]. destruct Os as (s & I). apply in_map_iff. now exists (q, s). }
  destruct (run_kept su u ft sigs V ls MR DP WW WAT PTS d AD WD RD (gs_pars g) steps cur OK1 _ _ u (start_uinv su u ft sigs V ls MR DP WW WAT PTS d AD RD cur ST) S) as (m & L & U & S').
  cbn [step_gives] in OK2. destruct OK2 as (p' & s' & N' & CO & T). rewrite N in N'. injection N' as <- <-.
  apply (call_right su u ft sigs V ls MR DP WW WAT PTS d AD WD RD m _ L _ (gs_pars g) p s0 c U S' (nth_error_In _ _ N) CO (fun H => turn_is sigs _ i p s0 N (T H))).
Qed.
Lemma many_eval_for cur steps i k p s0 args :
  many_ready su u ft sigs -> distinct_printing ft V -> (forall o, o = None \/ In o (map (fun x => Some (fst x)) sigs) -> searches su (fitter_with u o) g ls) ->
  Forall (good_args ft V) (combinations ls) -> starts_with u sigs cur -> steps_give value su u ft sigs V ls cur (steps ++ [MSelect i k]) ->
  nth_error sigs i = Some (p, s0) -> good_args ft V args ->
  same_res same_pair (snd (u_eval su args (m_run su sigs (gs_pars g) (steps ++ [MSelect i k]) u)))
    (WW p args (match k with Some k => Some (scaled_to k s0) | None => None end)).
Proof.
  intros MR DP SE PTS ST OK N Ga. destruct (data_is su u ft sigs MR) as (d & AD & WD & RD).
  destruct (steps_split steps cur _ OK) as (OK1 & OK2).
  assert (S : sinv su u sigs ls u).
  { apply (searches_sinv su u ft sigs ls MR g). intros o Os. apply SE. destruct o as [q|]; [right|now left]. destruct Os as (s & I). apply in_map_iff. now exists (q, s). }
  destruct (run_kept su u ft sigs V ls MR DP WW WAT PTS d AD WD RD (gs_pars g) steps cur OK1 _ _ u (start_uinv su u ft sigs V ls MR DP WW WAT PTS d AD RD cur ST) S) as (m & L & U & S').
  cbn [step_gives] in OK2. destruct OK2 as (p' & s' & N' & CO). rewrite N in N'. injection N' as <- <-. unfold m_run. rewrite fold_left_app. cbn [fold_left m_step]. rewrite N. unfold sig_ref. cbn [fst].
  fold (m_run su sigs (gs_pars g) steps u). set (u1 := m_run su sigs (gs_pars g) steps u) in *.
  assert (X : exists m' o', uinv u ft sigs V d m' o' L (fst (select (pt_ref p) k u1)) /\ stands p (match k with Some k => Some (scaled_to k s0) | None => None end) o' m').
  { destruct k as [k|].
    - destruct CO as (P & T). destruct (select_uinv su u ft sigs V MR d m _ L u1 p s0 k U (nth_error_In _ _ N) (turn_is sigs _ i p s0 N T) P) as (u' & m' & E & Sc & U' & _). rewrite E. cbn [fst].
      exists (at_level m (pt_ref p) m'), (Some p). split; [exact U'|]. split; [reflexivity|]. unfold at_level, scaled_to. rewrite Nat.eqb_refl, Sc. reflexivity.
    - exists m, None. split; [|reflexivity]. cbn [select fst]. eapply remove_uinv. exact U. }
  destruct X as (m' & o' & U' & St'). destruct (eval_uinv su u ft sigs V MR DP d AD WD RD m' o' L _ args U' Ga _ eq_refl) as (L' & _ & R).
  rewrite <- (WAT p args _ o' m' St'). exact R.
Qed.
End Results.
Lemma fitted_last_many u ft p args sig o m : stands p sig o m ->
  fitted_at ft (z_heap (u_set u)) o m args = fitted_last_with ft (z_heap (u_set u)) p args sig.
Proof.
  intros S. unfold fitted_at, fitted_last_with, with_signal, signal_at.
  destruct sig as [s|]; cbn [stands] in S; [destruct S as [-> ->]|subst o]; reflexivity.
Qed.

Lemma many_l su u ft sigs V g ls cur steps i p s0 c :
  many_ready su u ft sigs -> distinct_printing ft V -> length (global_pars ft) <= 1 -> (forall o, o = None \/ In o (map (fun x => Some (fst x)) sigs) -> searches su (fitter_with u o) g ls) ->
  Forall (good_args ft V) (combinations ls) -> Forall (fun y => fp_sigma y <> None) (gs_pars g) -> starts_with u sigs cur -> steps_ok su u ft sigs V ls cur (steps ++ [MCall i c]) ->
  nth_error sigs i = Some (p, s0) ->
  limit_right (value_with su ft (z_heap (u_set u)) p) s0 (combinations ls) c
    (snd (run_call su (pt_ref p) (gs_pars g) c (m_run su sigs (gs_pars g) steps u))).
Proof.
  intros MR DP ONE SE PTS SG ST OK N.
  refine (proj1 (many_for su u ft sigs V g ls (fitted_with ft (z_heap (u_set u))) _ cur steps i p s0 c MR DP SE PTS ST OK N) SG).
  intros q v sig o m S. now apply fitted_with_many.
Qed.
Lemma many_last_l su u ft sigs V g ls cur steps i p s0 c :
  many_ready su u ft sigs -> distinct_printing ft V -> (forall o, o = None \/ In o (map (fun x => Some (fst x)) sigs) -> searches su (fitter_with u o) g ls) ->
  Forall (good_args ft V) (combinations ls) -> starts_with u sigs cur -> steps_give (value_last_with su ft (z_heap (u_set u))) su u ft sigs V ls cur (steps ++ [MCall i c]) ->
  nth_error sigs i = Some (p, s0) ->
  let answer := snd (run_call su (pt_ref p) (gs_pars g) c (m_run su sigs (gs_pars g) steps u)) in
  (Forall (fun y => fp_sigma y <> None) (gs_pars g) -> limit_right (value_last_with su ft (z_heap (u_set u)) p) s0 (combinations ls) c answer) /\
  (Exists (fun y => fp_sigma y = None) (gs_pars g) -> answer = Err ETypeError).
Proof.
  intros MR DP SE PTS ST OK N.
  refine (many_for su u ft sigs V g ls (fitted_last_with ft (z_heap (u_set u))) _ cur steps i p s0 c MR DP SE PTS ST OK N).
  intros q v sig o m S. now apply fitted_last_many.
Qed.

Lemma many_eval_l su u ft sigs V g ls cur steps i k p s0 args :
  many_ready su u ft sigs -> distinct_printing ft V -> length (global_pars ft) <= 1 -> (forall o, o = None \/ In o (map (fun x => Some (fst x)) sigs) -> searches su (fitter_with u o) g ls) ->
  Forall (good_args ft V) (combinations ls) -> starts_with u sigs cur -> steps_ok su u ft sigs V ls cur (steps ++ [MSelect i k]) ->
  nth_error sigs i = Some (p, s0) -> good_args ft V args ->
  same_res same_pair (snd (u_eval su args (m_run su sigs (gs_pars g) (steps ++ [MSelect i k]) u)))
    (fitted_with ft (z_heap (u_set u)) p args (match k with Some k => Some (scaled_to k s0) | None => None end)).
Proof.
  intros MR DP ONE SE PTS ST OK N Ga.
  refine (many_eval_for su u ft sigs V g ls (fitted_with ft (z_heap (u_set u))) _ cur steps i k p s0 args MR DP SE PTS ST OK N Ga).
  intros q v sig o m S. now apply fitted_with_many.
Qed.
Lemma many_eval_last_l su u ft sigs V g ls cur steps i k p s0 args :
  many_ready su u ft sigs -> distinct_printing ft V -> (forall o, o = None \/ In o (map (fun x => Some (fst x)) sigs) -> searches su (fitter_with u o) g ls) ->
  Forall (good_args ft V) (combinations ls) -> starts_with u sigs cur -> steps_give (value_last_with su ft (z_heap (u_set u))) su u ft sigs V ls cur (steps ++ [MSelect i k]) ->
  nth_error sigs i = Some (p, s0) -> good_args ft V args ->
  same_res same_pair (snd (u_eval su args (m_run su sigs (gs_pars g) (steps ++ [MSelect i k]) u)))
    (fitted_last_with ft (z_heap (u_set u)) p args (match k with Some k => Some (scaled_to k s0) | None => None end)).
Proof.
  intros MR DP SE PTS ST OK N Ga.
  refine (many_eval_for su u ft sigs V g ls (fitted_last_with ft (z_heap (u_set u))) _ cur steps i k p s0 args MR DP SE PTS ST OK N Ga).
  intros q v sig o m S. now apply fitted_last_many.
Qed.

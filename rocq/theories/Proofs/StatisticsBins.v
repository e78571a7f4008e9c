(** Limit.get_statistics with one statistic per bin. *)
From Coq Require Import Lia.
From Verif Require Import Model.Base Model.PyStr Model.NDArray Model.Param Model.Config Model.Spectra
  Model.Smear Model.Shift Model.FitParam Model.Heap Model.Minimise Model.Fit Model.FitPrepare Model.Limit Model.FitLimit Model.Statistics.
From Verif Require Import Spec.AxisSpec Spec.ArraySpec Spec.SpectraSpec Spec.ShrinkSpec Spec.HeapSpec Spec.SearchSpec Spec.FitRunSpec Spec.LimitSpec Spec.LimitBinsSpec
  Spec.FitLimitSpec Spec.FitLimitBinsSpec Spec.StatisticsSpec Spec.StatisticsBinsSpec.
From Verif Require Import Proofs.QcLemmas Proofs.NDArrayLemmas Proofs.ParamLemmas Proofs.ExtLemmas Proofs.HeapLemmas Proofs.MinimiseLemmas Proofs.SearchLemmas Proofs.LimitLemmas Proofs.LimitWidths
  Proofs.LimitBins Proofs.FitLemmas Proofs.FitPrep Proofs.FitRun Proofs.HomogLemmas Proofs.FitScan Proofs.LimitScan Proofs.LimitFits Proofs.FitMethods Proofs.LimitFitsBins Proofs.StatisticsLemmas.

Lemma pairs_no_array sh value s0 pts scales xs : sh <> [] -> scales <> [] -> pairs_of_best sh value s0 pts scales xs -> as_stats xs = None.
Proof.
  intros NE NS F. destruct F as [|k x ks xs (sa & pa & -> & A & B & _) _]; [congruence|]. unfold as_stats. cbn [rmapM entry_array].
  assert (E : stack [sa; pa] = None).
  { unfold stack. cbn [forallb]. rewrite A, B. assert (X : shape_eqb [] sh = false) by (destruct (shape_eqb [] sh) eqn:X; [apply shape_eqb_iff in X; congruence|reflexivity]).
    rewrite X. destruct (shape_eqb sh sh); reflexivity. }
  rewrite E. reflexivity.
Qed.

Section Fits.
Context (su : setup) (u0 : fitter) (ft : fit) (p : part) (V : Qc -> Prop) (s0 : spectra) (ls : list (list Qc)) (sh : list nat).
Hypothesis LR : limit_ready su u0 ft p s0.
Hypothesis DP : distinct_printing ft V.
Hypothesis PTS : Forall (good_args ft V) (combinations ls).
Hypothesis SH : sh <> [].
Hypothesis PS : positive sh.
Notation h0 := (z_heap (u_set u0)).
Context (WW : list Qc -> option spectra -> res (ndarray * ndarray)).
Hypothesis WAT : forall v sig b m, stands sig b m -> fitted_at ft p h0 b m v = WW v sig.
Context (d : spectra).
Hypothesis AD : abs h0 (ft_data ft) = Some d.
Hypothesis WD : wf_spectra d.
Hypothesis RD : forall q, In q (ft_floating ft) \/ (global_pars ft <> [] /\ q = p) -> exists s, abs h0 (pt_ref q) = Some s /\ fit_ready d s.
Notation uinv := (uinv u0 ft p V s0 d).
Notation binv := (binv su u0 ls sh).
Notation value := (value_for su ft h0 WW).

Lemma give_bins m b L u k : uinv m b L u -> binv u -> (isclose k 0 = true \/ (0 < k / s_decays s0)%Qc) ->
  exists u' m' b', give_signal (pt_ref p) k u = (u', None) /\ uinv m' b' L u' /\ binv u' /\ stands (at_scale s0 k) b' m'.
Proof.
  intros U S H. unfold give_signal, at_scale. destruct (isclose k 0).
  - exists (remove_signal u), m, false. split; [reflexivity|]. split; [exact (remove_uinv u0 ft p V s0 d m b L u U)|]. split; [|reflexivity]. destruct S. constructor; assumption.
  - destruct H as [H|H]; [discriminate|]. destruct U as (E1 & E2 & E3 & E4 & E5 & I). destruct (lr_apart _ _ _ _ _ LR) as (SD & SF).
    destruct (rescale_ok ft p h0 V d s0 SD m L (u_state u) k I H) as (st' & m' & Hs & Sc & I' & C). unfold on_heap in Hs. cbn [u_state fs_heap] in Hs.
    destruct (h_scale k (pt_ref p) (z_heap (u_set u))) as [h1 e1] eqn:Eh. destruct e1 as [e1|]; [discriminate|]. injection Hs as <-.
    destruct (i_signal _ _ _ _ _ _ _ _ _ I') as (c & Ac & Sc'). cbn [u_state fs_heap fs_with_heap] in Ac.
    assert (Pc : roi_pars (the_roi (u_set u)) (s_cfg c) = Ok (pt_pars p)).
    { unfold the_roi. rewrite E1. destruct Sc' as [(_ & _ & K & _) _]. rewrite K. destruct (level_kept s0 m' (i_level _ _ _ _ _ _ _ _ _ I')) as (-> & _).
      exact (lr_pars _ _ _ _ _ LR). }
    unfold u_set_signal, set_signal, set_one, pars_of. unfold the_roi in *. cbn [u_with_set u_set z_with_heap z_heap z_roi]. cbn [u_state fs_heap fs_with_heap] in Ac. rewrite Ac, Pc.
    eexists _, m', true. split; [reflexivity|]. split; [|split; [|split; [reflexivity|]; unfold scaled_to; now rewrite Sc]].
    + repeat (split; [assumption|]). split; [reflexivity|exact I'].
    + destruct S. constructor; assumption.
Qed.
Lemma returned_bins : forall scales m b L u, uinv m b L u -> binv u -> scales_give_bins sh value s0 ls scales ->
  exists u' m' b' L' xs, all_returned su (pt_ref p) scales u = (u', Ok xs) /\ uinv m' b' L' u' /\ binv u' /\ pairs_of_best sh value s0 (combinations ls) scales xs.
Proof.
  induction scales as [|k scales IH]; intros m b L u U S (F & Va); [exists u, m, b, L, []; split; [reflexivity|]; split; [exact U|]; split; [exact S|constructor]|]. inversion F as [|? ? Fk F']; subst.
  destruct (give_bins m b L u k U S Fk) as (u1 & m1 & b1 & E1 & U1 & S1 & St1).
  destruct (fit_pair_bins su u0 ft p V s0 ls sh LR DP PTS WW WAT d AD WD RD m1 b1 L u1 _ U1 S1 St1) as (u2 & L2 & q & sa & pa & pens & g & E2 & U2 & S2 & B & _ & _ & _ & A1 & A2 & A3).
  { intros v I. exact (Va k v (or_introl eq_refl) I). }
  destruct (IH m1 b1 L2 u2 U2 S2) as (u3 & m3 & b3 & L3 & xs & E3 & U3 & S3 & R). { split; [exact F'|]. intros x v I. apply Va. now right. }
  exists u3, m3, b3, L3, (Pair sa pa :: xs). split; [cbn [all_returned]; rewrite E1, E2, E3; reflexivity|]. split; [exact U3|]. split; [exact S3|].
  constructor; [|exact R]. exists sa, pa. split; [reflexivity|]. split; [exact A1|]. split; [exact A2|]. rewrite A3. exact B.
Qed.
Lemma asks_bins fps : Forall (fun y => fp_sigma y <> None) fps -> forall qs m b L u, uinv m b L u -> binv u -> Forall (question_gives_bins sh value s0 ls) qs ->
  exists m' b' L', uinv m' b' L' (ask_all su (pt_ref p) fps qs u) /\ binv (ask_all su (pt_ref p) fps qs u).
Proof.
  intro SG. induction qs as [|c qs IH]; intros m b L u U S F; [exists m, b, L; now split|]. inversion F as [|? ? Fc F']; subst. unfold ask_all. cbn [fold_left].
  assert (X : exists m1 b1 L1, uinv m1 b1 L1 (ask su (pt_ref p) fps c u) /\ binv (ask su (pt_ref p) fps c u)).
  { destruct c as [[[sc lim] [mn|]]|scales]; cbn [question_gives_bins ask] in *.
    - destruct Fc.
    - exact (proj1 (call_bins su u0 ft p V s0 ls sh LR DP PTS SH PS WW WAT d AD WD RD m b L u fps (sc, lim) U S Fc SG)).
    - destruct (returned_bins scales m b L u U S Fc) as (u' & m' & b' & L' & xs & E & U' & S' & _). unfold get_statistics. rewrite E. exists m', b', L'. now split. }
  destruct X as (m1 & b1 & L1 & U1 & S1). exact (IH m1 b1 L1 _ U1 S1 F').
Qed.
End Fits.

Lemma statistics_bins_for su u ft p V s0 g ls sh W (WAT : forall v sig b m, stands sig b m -> fitted_at ft p (z_heap (u_set u)) b m v = W v sig) history before scales :
  limit_ready su u ft p s0 -> distinct_printing ft V -> searches_bins su u g ls sh -> Forall (good_args ft V) (combinations ls) ->
  Forall (fun y => fp_sigma y <> None) (gs_pars g) ->
  Forall (event_ok ft V s0) history -> Forall (question_gives_bins sh (value_for su ft (z_heap (u_set u)) W) s0 ls) before ->
  scales <> [] -> scales_give_bins sh (value_for su ft (z_heap (u_set u)) W) s0 ls scales ->
  let u' := ask_all su (pt_ref p) (gs_pars g) before (u_run su (pt_ref p) history u) in
  exists xs, snd (all_returned su (pt_ref p) scales u') = Ok xs /\ pairs_of_best sh (value_for su ft (z_heap (u_set u)) W) s0 (combinations ls) scales xs /\
    snd (get_statistics su (pt_ref p) scales u') = Ok None.
Proof.
  intros LR DP SE PTS SG F FC NE SC. cbv zeta. destruct (data_is su u ft p s0 LR) as (d & AD & WD & RD).
  destruct (sb_bins _ _ _ _ _ SE) as (_ & _ & _ & SH & PS).
  destruct (run_uinv su u ft p V s0 LR DP d AD WD RD history F (Some s0) s0 true _ u (start_uinv su u ft p V s0 LR DP d AD RD) (conj eq_refl eq_refl)) as (m & b & L & U & K1 & K2 & _).
  pose proof (searches_binv su u ft p s0 ls sh LR g _ SE K1 K2) as S.
  destruct (asks_bins su u ft p V s0 ls sh LR DP PTS SH PS W WAT d AD WD RD (gs_pars g) SG before m b L _ U S FC) as (m' & b' & L' & U' & S').
  destruct (returned_bins su u ft p V s0 ls sh LR DP PTS W WAT d AD WD RD scales m' b' L' _ U' S' SC) as (u2 & m2 & b2 & L2 & xs & E & _ & _ & R).
  exists xs. unfold get_statistics. rewrite E. split; [reflexivity|]. split; [exact R|]. cbn [snd rmap]. now rewrite (pairs_no_array _ _ _ _ _ _ SH NE R).
Qed.
Lemma statistics_bins_last su u ft p V s0 g ls sh history before scales :
  limit_ready su u ft p s0 -> distinct_printing ft V -> searches_bins su u g ls sh -> Forall (good_args ft V) (combinations ls) ->
  Forall (fun y => fp_sigma y <> None) (gs_pars g) ->
  Forall (event_ok ft V s0) history -> Forall (question_gives_bins sh (value_last_with su ft (z_heap (u_set u)) p) s0 ls) before ->
  scales <> [] -> scales_give_bins sh (value_last_with su ft (z_heap (u_set u)) p) s0 ls scales ->
  let u' := ask_all su (pt_ref p) (gs_pars g) before (u_run su (pt_ref p) history u) in
  exists xs, snd (all_returned su (pt_ref p) scales u') = Ok xs /\ pairs_of_best sh (value_last_with su ft (z_heap (u_set u)) p) s0 (combinations ls) scales xs /\
    snd (get_statistics su (pt_ref p) scales u') = Ok None.
Proof. refine (statistics_bins_for su u ft p V s0 g ls sh (fitted_last_with ft (z_heap (u_set u)) p) _ history before scales). intros v sig b m S. now apply fitted_last_at. Qed.
Lemma statistics_bins_l su u ft p V s0 g ls sh history before scales :
  limit_ready su u ft p s0 -> distinct_printing ft V -> length (global_pars ft) <= 1 -> searches_bins su u g ls sh -> Forall (good_args ft V) (combinations ls) ->
  Forall (fun y => fp_sigma y <> None) (gs_pars g) ->
  Forall (event_ok ft V s0) history -> Forall (question_gives_bins sh (value_with su ft (z_heap (u_set u)) p) s0 ls) before ->
  scales <> [] -> scales_give_bins sh (value_with su ft (z_heap (u_set u)) p) s0 ls scales ->
  let u' := ask_all su (pt_ref p) (gs_pars g) before (u_run su (pt_ref p) history u) in
  exists xs, snd (all_returned su (pt_ref p) scales u') = Ok xs /\ pairs_of_best sh (value_with su ft (z_heap (u_set u)) p) s0 (combinations ls) scales xs /\
    snd (get_statistics su (pt_ref p) scales u') = Ok None.
Proof. intros LR DP ONE. refine (statistics_bins_for su u ft p V s0 g ls sh (fitted_with ft (z_heap (u_set u)) p) _ history before scales LR DP). intros v sig b m S. now apply fitted_with_at. Qed.

(** Limits from fits with one statistic per bin. *)
From Coq Require Import Lia Permutation.
From Verif Require Import Model.Base Model.PyStr Model.NDArray Model.Param Model.Config Model.Spectra
  Model.Smear Model.Shift Model.FitParam Model.Heap Model.Minimise Model.Fit Model.FitPrepare Model.Limit Model.FitLimit.
From Verif Require Import Spec.AxisSpec Spec.ArraySpec Spec.SpectraSpec Spec.ShrinkSpec Spec.HeapSpec Spec.SearchSpec Spec.FitRunSpec Spec.LimitSpec Spec.LimitBinsSpec
  Spec.FitLimitSpec Spec.FitLimitBinsSpec.
From Verif Require Import Proofs.QcLemmas Proofs.NDArrayLemmas Proofs.ParamLemmas Proofs.ExtLemmas Proofs.HeapLemmas Proofs.MinimiseLemmas Proofs.SearchLemmas Proofs.LimitLemmas Proofs.LimitWidths
  Proofs.LimitBins Proofs.FitLemmas Proofs.FitPrep Proofs.FitRun Proofs.HomogLemmas Proofs.FitScan Proofs.LimitScan Proofs.LimitFits.

Section Fits.
Context (su : setup) (u0 : fitter) (ft : fit) (p : part) (V : Qc -> Prop) (s0 : spectra) (ls : list (list Qc)) (sh : list nat).
Hypothesis LR : limit_ready su u0 ft p s0.
Hypothesis DP : distinct_printing ft V.
Hypothesis PTS : Forall (good_args ft V) (combinations ls).
Hypothesis SH : sh <> [].
Hypothesis PS : positive sh.
Notation h0 := (z_heap (u_set u0)).
Context (WW : list Qc -> option spectra -> res (ndarray * ndarray)).
Hypothesis WAT : forall v sig b m, stands sig b m -> fitted_at ft p h0 b m v = WW v sig.
Context (d : spectra).
Hypothesis AD : abs h0 (ft_data ft) = Some d.
Hypothesis WD : wf_spectra d.
Hypothesis RD : forall q, In q (ft_floating ft) \/ (global_pars ft <> [] /\ q = p) -> exists s, abs h0 (pt_ref q) = Some s /\ fit_ready d s.
Notation uinv := (uinv u0 ft p V s0 d).

Record binv (u : fitter) : Prop := BInv {
  bi_search : exists g, u_search u = Some g /\ grid_of (su_grid su) (gs_pars g) ls /\ ready g ls /\ (gs_per_bin g = true /\ gs_spec g = sh) /\
    (gs_use_numpy g = true \/ ls <> []) /\ Forall2 (fun q p => q_prior q = fp_prior p /\ q_sigma q = fp_sigma p) (su_pars su) (gs_pars g);
  bi_total : su_per_bin su = true;
  bi_some : Forall (fun l => l <> []) ls;
  bi_checked : u_checked u = true \/ check_all_spectra (su_config su) (u_set u0) = None /\ su_pars su <> [] /\ su_stat_per_bin su = true }.

Lemma checked_bins m b L u : uinv m b L u -> binv u -> exists u1, (u_checked u1 = true /\ uinv m b L u1 /\ binv u1) /\ fit_all su u = run_fit su u1.
Proof.
  intros U S. unfold fit_all. case_eq (u_checked u); intro K; [exists u; auto|]. pose proof S as [(g & Sg & Gg & Rg & (Pg & Pg') & Ng & Vg) T N C]. destruct C as [C|(C & C' & C'')]; [congruence|].
  unfold check_fitter, fitter_checks. rewrite (check_kept su u0 ft p V s0 LR d AD m b L u U C). destruct (float_is su u0 ft p s0 LR) as (r & l & ps & Fl).
  assert (Ff : floats (u_set u) = true). { unfold floats. destruct U as (_ & _ & _ & -> & _). now rewrite Fl. }
  rewrite Ff, T, Sg, Pg, C''. destruct (length (su_pars su)) eqn:Le; [destruct (su_pars su); [congruence|discriminate]|]. cbn [Nat.eqb]. rewrite (logged_ok su ls) by exact Gg.
  exists (u_with_checked u true). split; [|reflexivity]. split; [reflexivity|]. split; [exact U|]. constructor; [exists g; auto 9|exact T|exact N|now left].
Qed.

Definition bins_are (sig : option spectra) : Prop := forall v, In v (combinations ls) -> exists a q, value_for su ft h0 WW sig v = Ok (RArr a, q) /\ ashape a = sh.
Lemma answers_bins (f : list Qc -> res (sres * Qc)) : forall l, (forall v, In v l -> exists a q, f v = Ok (RArr a, q) /\ ashape a = sh) ->
  exists rs, Forall2 (fun v r => f v = Ok r) l rs /\ Forall (fun r => exists a, fst r = RArr a /\ ashape a = sh) rs.
Proof.
  induction l as [|v l IH]; intro H; [exists []; split; constructor|]. destruct IH as (rs & F & N); [intros w I; apply H; now right|].
  destruct (H v (or_introl eq_refl)) as (t & q & E & E'). exists ((RArr t, q) :: rs). split; constructor; auto. now exists t.
Qed.
Lemma fit_pair_bins m b L u sig : uinv m b L u -> binv u -> stands sig b m -> bins_are sig ->
  exists u' L' q sa pa pens g, fit_all su u = (u', Ok (Pair sa pa)) /\ uinv m b L' u' /\ binv u' /\ best_bins sh (value_for su ft h0 WW sig) (combinations ls) (aget sa) q /\
    u_search u' = Some g /\ summary_pens g = Ok pens /\ fold_right Qcplus 0%Qc pens = q /\ ashape sa = sh /\ ashape pa = [] /\ aget pa [] = q.
Proof.
  intros U0 S0 St Va. destruct (checked_bins m b L u U0 S0) as (u1 & (K & U & S) & ->). clear U0 S0 u.
  destruct (fit_is su u0 ft p V s0 LR d m b L u1 U) as (dr & dp & D & E). pose proof S as [(g & Sg & Gg & Rg & (Pg & Pg') & Ng & Vg) T N _].
  destruct (float_is su u0 ft p s0 LR) as (r & l & ps & Fl). unfold run_fit.
  assert (Ff : floats (u_set u1) = true). { unfold floats. destruct U as (_ & _ & _ & -> & _). now rewrite Fl. }
  rewrite Ff, Sg, D, E. pose proof U as (E1 & E2 & E3 & E4 & E5 & I).
  destruct (answers_bins (value_for su ft h0 WW sig) (combinations ls) Va) as (rs & F & Nm).
  assert (F' : Forall2 (fun v r => value_of ft h0 (su_stat su) (su_pen su) (su_per_bin su) (su_single_bin su) v (fitted_at ft p h0 b m v) = Ok r) (combinations ls) rs).
  { clear - F St WAT. induction F as [|v r l rs H _ IH]; constructor; [|exact IH]. rewrite (WAT v sig b m St). exact H. }
  destruct (lr_apart _ _ _ _ _ LR) as (SD & SF).
  destruct (calls_ok ft p h0 V d s0 (prep_is su u0 ft p V s0 LR DP) DP AD WD RD (lr_spectrum _ _ _ _ _ LR) SD SF (lr_commutes _ _ _ _ _ LR) b (su_stat su) (su_pen su) (su_per_bin su) (su_single_bin su) m
              (combinations ls) PTS rs F' L (u_state u1) I) as (o & L' & C & I').
  set (gs := SS (u_state u1) g). assert (W : answers_fit (ss_gs gs) rs).
  { unfold answers_fit. cbn [gs ss_gs]. eapply Forall_impl; [|exact Nm]. intros y (t & Et & Et'). rewrite Et. cbn [fits]. rewrite Pg, Pg'. exact Et'. }
  destruct (minimise_l (su_grid su) (objective (fx ft p b) (su_stat su) (su_pen su) (su_per_bin su) (su_single_bin su)) (fun v p s => Ok (su_pen su v p s)) gs ls o rs Gg Rg W C N Ng)
    as (g1 & k & vals & rr & pen & sa & pa & M & Lr & _ & Ev & Er & Bf & Pn & (Sa1 & Sa2) & (Pa1 & Pa2) & Least & Rd & Pb & Sp).
  { apply Forall_forall. intros y _ v s _. eauto. }
  destruct (minimise_kept _ _ _ gs ls o rs _ _ Gg Rg W C M) as (Kp & Un). cbn [ss_gs gs] in *. rewrite M. cbn [rbind fst snd ss_obj ss_gs].
  pose proof (nth_forall2 _ _ _ F k vals (rr, pen) Ev Er) as Val. destruct (proj1 (Forall_forall _ _) Nm _ (nth_error_In _ _ Er)) as (t & Et & Et'). cbn [fst] in Et. subst rr.
  rewrite Pg, Pg' in Sa1. cbn [answer_shape] in Sa1. rewrite Sa1 in Sa2. cbn [content] in Sa2.
  assert (Lv : length vals = length (gs_pars g)).
  { clear - Ev Gg. apply nth_error_In in Ev. revert vals Ev. induction Gg as [|q y qs ys _ _ IH]; intros vals Ev; cbn in Ev; [destruct Ev as [<-|[]]; reflexivity|].
    apply in_flat_map in Ev as (v & _ & Ev). apply in_map_iff in Ev as (w & <- & Ev). cbn. f_equal. now apply IH. }
  destruct (summary_ok (su_pen su) (su_pars su) (gs_pars g) (gs_pars g1) vals Vg Lv Bf Pn) as (pens & Ep & Sm).
  assert (Pq : pen = penalties (su_pen su) (su_pars su) vals).
  { unfold value_for, value_of in Val. destruct (WW vals sig) as [oe|]; [|discriminate]. cbn [rbind] in Val. destruct (su_stat su _ _) as [y|]; [|discriminate]. cbn [rbind] in Val.
    destruct (shown h0 (ft_data ft)) as [ds|]; [|discriminate]. cbn [rbind] in Val. rewrite T in Val. destruct (rmap RArr _) as [z|]; [|discriminate]. cbn [rbind] in Val. injection Val as _ <-.
    destruct (lr_fit _ _ _ _ _ LR) as (? & ? & _ & ->). reflexivity. }
  exists (u_after u1 o (Some g1)), L', pen, sa, pa, pens, g1. split; [reflexivity|]. split; [|split; [|split; [|split; [reflexivity|split; [exact Ep|split; [congruence|split; [exact Sa1|split; [exact Pa1|exact Pa2]]]]]]]].
  - repeat (split; [assumption|]). destruct o. exact I'.
  - constructor; [|exact T|exact N|left; exact K]. exists g1. split; [reflexivity|]. split; [exact (grid_kept _ _ _ _ Kp Gg)|]. split; [exact Rd|]. split; [split; congruence|]. split; [rewrite Un; exact Ng|].
    clear - Vg Kp. revert Vg. generalize (su_pars su). induction Kp as [|y y' ys ys' (K1 & K2 & _) _ IH]; intros qs H; inversion H as [|? ? ? ? (H1 & H2) H']; subst; constructor; [|now apply IH].
    split; congruence.
  - exists k, vals, t. split; [exact Ev|]. split; [exact Val|]. split; [exact Sa2|]. intros k' v' t' q' E1' E2'. destruct (forall2_nth _ _ _ F k' v' E1') as (r' & Er').
    pose proof (nth_forall2 _ _ _ F k' v' r' E1' Er') as V'. cbn beta in V'. assert (r' = (RArr t', q')) as -> by congruence. pose proof (Least k' _ _ Er') as Q. rewrite Pg, Pg' in Q. exact Q.
Qed.
Lemma select_bins m b L u k : uinv m b L u -> binv u -> (isclose k 0 = true \/ (0 < k / s_decays s0)%Qc) -> forall ok, ok = (if isclose k 0 then None else Some k) ->
  exists u' m' b', select (pt_ref p) ok u = (u', None) /\ uinv m' b' L u' /\ binv u' /\ stands (at_scale s0 k) b' m'.
Proof.
  intros U S H ok ->. unfold at_scale. destruct (isclose k 0).
  - exists (remove_signal u), m, false. split; [reflexivity|]. split; [exact (remove_uinv u0 ft p V s0 d m b L u U)|]. split; [|reflexivity]. destruct S. constructor; assumption.
  - destruct H as [H|H]; [discriminate|]. destruct (select_uinv su u0 ft p V s0 LR d m b L u k U H) as (u' & m' & E & Sc & U' & K1 & K2). exists u', m', true. split; [exact E|].
    split; [exact U'|]. split; [|split; [reflexivity|]; unfold scaled_to; now rewrite Sc]. destruct S. constructor; rewrite ?K1, ?K2; assumption.
Qed.
Definition bins_right (sig : option spectra) (f : fitout) : Prop :=
  exists a, fo_stat f = RArr a /\ ashape a = sh /\ best_bins sh (value_for su ft h0 WW sig) (combinations ls) (aget a) (penalty_of f).
Lemma limit_fit_bins m b L u k : uinv m b L u -> binv u -> (isclose k 0 = true \/ (0 < k / s_decays s0)%Qc) -> bins_are (at_scale s0 k) ->
  exists u' m' b' L' f, limit_fit su (pt_ref p) u (if isclose k 0 then None else Some k) = (u', Ok f) /\ uinv m' b' L' u' /\ binv u' /\ bins_right (at_scale s0 k) f.
Proof.
  intros U S H Va. destruct (select_bins m b L u k U S H _ eq_refl) as (u1 & m1 & b1 & E & U1 & S1 & St). unfold limit_fit. rewrite E.
  destruct (fit_pair_bins m1 b1 L u1 _ U1 S1 St Va) as (u' & L' & q & sa & pa & pens & g & EF & U' & S' & B & G1 & G2 & Sm & A1 & _).
  unfold u_fit. rewrite EF. cbn [rmap stat_only rbind]. rewrite G1, G2. cbn [rbind rmap].
  assert (UB : unboxed sa = RArr sa) by (unfold unboxed; rewrite A1; destruct sh; [congruence|reflexivity]). rewrite UB.
  eexists u', m1, b1, L', _. split; [reflexivity|]. split; [exact U'|]. split; [exact S'|]. exists sa. split; [reflexivity|]. split; [exact A1|]. unfold penalty_of. cbn [fo_pens]. now rewrite Sm.
Qed.
Lemma fits_bins : forall scales m b L u, uinv m b L u -> binv u -> Forall (fun k => isclose k 0 = true \/ (0 < k / s_decays s0)%Qc) scales ->
  (forall k, In k scales -> bins_are (at_scale s0 k)) ->
  exists u' m' b' L' fs, fits_made (limit_fit su (pt_ref p)) u scales u' fs /\ uinv m' b' L' u' /\ binv u' /\ Forall2 (fun k f => bins_right (at_scale s0 k) f) scales fs.
Proof.
  induction scales as [|k scales IH]; intros m b L u U S F Va; [exists u, m, b, L, []; split; [reflexivity|]; split; [exact U|]; split; [exact S|constructor]|]. inversion F as [|? ? Fk F']; subst.
  destruct (limit_fit_bins m b L u k U S Fk (Va k (or_introl eq_refl))) as (u1 & m1 & b1 & L1 & f & E & U1 & S1 & R).
  destruct (IH m1 b1 L1 u1 U1 S1 F' (fun x I => Va x (or_intror I))) as (u2 & m2 & b2 & L2 & fs & E2 & U2 & S2 & R2).
  exists u2, m2, b2, L2, (f :: fs). split; [exists u1; split; assumption|]. split; [exact U2|]. split; [exact S2|]. constructor; assumption.
Qed.
Lemma best_bins_ext value pts t t' q : (forall bin, t bin = t' bin) -> best_bins sh value pts t q -> best_bins sh value pts t' q.
Proof.
  intros E (k & v & a & A1 & A2 & A3 & A4). exists k, v, a. split; [exact A1|]. split; [exact A2|]. split; [|exact A4].
  intros bin B. rewrite <- E. now apply A3.
Qed.

Lemma call_bins m b L u fps c : uinv m b L u -> binv u -> call_gives_bins sh (value_for su ft h0 WW) s0 ls c -> Forall (fun y => fp_sigma y <> None) fps ->
  (exists m' b' L', uinv m' b' L' (fst (run_call su (pt_ref p) fps (as_call c) u)) /\ binv (fst (run_call su (pt_ref p) fps (as_call c) u))) /\
  limit_right_bins sh (value_for su ft h0 WW) s0 (combinations ls) c (snd (run_call su (pt_ref p) fps (as_call c) u)).
Proof.
  destruct c as [scales lim]. intros U S (NE & SC & Va) SG. unfold as_call, limit_right_bins. cbn [run_call fst snd] in *. unfold limit_of.
  destruct (limit_fit_bins m b L u 0%Qc U S) as (u1 & m1 & b1 & L1 & f0 & E & U1 & S1 & (mm & R1 & R2 & R3)).
  { left. exact zero_close. }
  { unfold at_scale. rewrite zero_close. intros v I. apply Va; [now left|exact I]. }
  unfold at_scale in R3. rewrite zero_close in *.
  destruct (fits_bins scales m1 b1 L1 u1 U1 S1 SC) as (u2 & m2 & b2 & L2 & fs & Fm & U2 & S2 & FR).
  { intros k I v J. apply Va; [|exact J]. unfold signals. apply in_or_app. right. now apply in_map. }
  assert (Nf : Forall (per_bin sh) fs). { clear - FR. induction FR as [|k f ks fs (t & E & E' & _) _ IH]; constructor; [now exists t|exact IH]. }
  assert (SG' : Forall (fun s => s <> None) (map fp_sigma fps)) by (now apply Forall_map).
  destruct (get_limit_bins (limit_fit su (pt_ref p)) sh scales (map fp_sigma fps) u lim u1 f0 mm u2 fs NE PS SG' E R1 R2 Fm Nf) as (X1 & X2).
  rewrite X1. split; [exists m2, b2, L2; now split|].
  exists (aget mm), fs. split; [exists (penalty_of f0); exact R3|]. split; [|exact X2].
  intros j Hj. destruct (nth_error scales j) as [k|] eqn:Ek; [|apply nth_error_None in Ek; lia]. destruct (forall2_nth _ _ _ FR j k Ek) as (f & Ef).
  destruct (nth_forall2 _ _ _ FR j k f Ek Ef) as (t & T1 & T2 & T3). rewrite (nth_error_nth _ _ 0%Qc Ek), (nth_error_nth _ _ nofit Ef).
  apply (best_bins_ext _ _ (aget t)); [|exact T3]. intro bin. unfold bin_stat. now rewrite T1.
Qed.
Lemma calls_bins fps : Forall (fun y => fp_sigma y <> None) fps -> forall cs m b L u, uinv m b L u -> binv u -> Forall (call_gives_bins sh (value_for su ft h0 WW) s0 ls) cs ->
  exists m' b' L', uinv m' b' L' (after_calls su (pt_ref p) fps (map as_call cs) u) /\ binv (after_calls su (pt_ref p) fps (map as_call cs) u).
Proof.
  intro SG. induction cs as [|c cs IH]; intros m b L u U S F; [exists m, b, L; now split|]. inversion F as [|? ? Fc F']; subst.
  destruct (call_bins m b L u fps c U S Fc SG) as ((m1 & b1 & L1 & U1 & S1) & _). unfold after_calls. cbn [map fold_left]. exact (IH m1 b1 L1 _ U1 S1 F').
Qed.
Lemma searches_binv g u : searches_bins su u0 g ls sh -> u_search u = u_search u0 -> u_checked u = u_checked u0 -> binv u.
Proof.
  intros [E1 E2 E3 (E4 & E4' & E8 & _) (E5 & E5') E6 E7] K1 K2. constructor; [|exact E4'|exact E5|].
  - exists g. rewrite K1. auto 9.
  - rewrite K2. destruct E7 as [E7|E7]; [now left|right]. unfold fitter_checks in E7. destruct (check_all_spectra (su_config su) (u_set u0)); [discriminate|].
    split; [reflexivity|]. destruct (float_is su u0 ft p s0 LR) as (r & l & ps & Fl). unfold floats in E7. rewrite Fl in E7.
    destruct (length (su_pars su)) eqn:Le; cbn [Nat.eqb] in E7; [discriminate|]. split; [intro Z; rewrite Z in Le; discriminate|].
    rewrite E1, E4, E4' in E7. destruct (su_stat_per_bin su); [reflexivity|discriminate].
Qed.
End Fits.

Section Result.
Context (su : setup) (u : fitter) (ft : fit) (p : part) (V : Qc -> Prop) (s0 : spectra) (g : gsearch) (ls : list (list Qc)) (sh : list nat).
Context (W : list Qc -> option spectra -> res (ndarray * ndarray)).
Hypothesis WAT : forall v sig b m, stands sig b m -> fitted_at ft p (z_heap (u_set u)) b m v = W v sig.
Notation value := (value_for su ft (z_heap (u_set u)) W).
Lemma limit_for_bins history calls_before c :
  limit_ready su u ft p s0 -> distinct_printing ft V -> searches_bins su u g ls sh -> Forall (good_args ft V) (combinations ls) ->
  Forall (fun y => fp_sigma y <> None) (gs_pars g) ->
  Forall (event_ok ft V s0) history -> Forall (call_gives_bins sh value s0 ls) calls_before ->
  call_gives_bins sh value s0 ls c ->
  limit_right_bins sh value s0 (combinations ls) c
    (snd (run_call su (pt_ref p) (gs_pars g) (as_call c) (after_calls su (pt_ref p) (gs_pars g) (map as_call calls_before) (u_run su (pt_ref p) history u)))).
Proof.
  intros LR DP SE PTS SG F FC CO. destruct (data_is su u ft p s0 LR) as (d & AD & WD & RD).
  destruct (sb_bins _ _ _ _ _ SE) as (_ & _ & _ & SH & PS).
  destruct (run_uinv su u ft p V s0 LR DP d AD WD RD history F (Some s0) s0 true _ u (start_uinv su u ft p V s0 LR DP d AD RD) (conj eq_refl eq_refl)) as (m & b & L & U & K1 & K2 & _).
  pose proof (searches_binv su u ft p s0 ls sh LR g _ SE K1 K2) as S.
  destruct (calls_bins su u ft p V s0 ls sh LR DP PTS SH PS W WAT d AD WD RD (gs_pars g) SG calls_before m b L _ U S FC) as (m' & b' & L' & U' & S').
  apply (call_bins su u ft p V s0 ls sh LR DP PTS SH PS W WAT d AD WD RD m' b' L' _ (gs_pars g) c U' S' CO SG).
Qed.
End Result.

Lemma limit_bins_l su u ft p V s0 g ls sh history calls_before c :
  limit_ready su u ft p s0 -> distinct_printing ft V -> length (global_pars ft) <= 1 -> searches_bins su u g ls sh -> Forall (good_args ft V) (combinations ls) ->
  Forall (fun y => fp_sigma y <> None) (gs_pars g) -> Forall (event_ok ft V s0) history -> Forall (call_gives_bins sh (value_with su ft (z_heap (u_set u)) p) s0 ls) calls_before ->
  call_gives_bins sh (value_with su ft (z_heap (u_set u)) p) s0 ls c ->
  limit_right_bins sh (value_with su ft (z_heap (u_set u)) p) s0 (combinations ls) c
    (snd (run_call su (pt_ref p) (gs_pars g) (as_call c) (after_calls su (pt_ref p) (gs_pars g) (map as_call calls_before) (u_run su (pt_ref p) history u)))).
Proof.
  intros LR DP ONE SE PTS SG F FC CO.
  refine (limit_for_bins su u ft p V s0 g ls sh (fitted_with ft (z_heap (u_set u)) p) _ history calls_before c LR DP SE PTS SG F FC CO).
  intros v sig b m S. now apply fitted_with_at.
Qed.
Lemma limit_bins_last_l su u ft p V s0 g ls sh history calls_before c :
  limit_ready su u ft p s0 -> distinct_printing ft V -> searches_bins su u g ls sh -> Forall (good_args ft V) (combinations ls) ->
  Forall (fun y => fp_sigma y <> None) (gs_pars g) -> Forall (event_ok ft V s0) history -> Forall (call_gives_bins sh (value_last_with su ft (z_heap (u_set u)) p) s0 ls) calls_before ->
  call_gives_bins sh (value_last_with su ft (z_heap (u_set u)) p) s0 ls c ->
  limit_right_bins sh (value_last_with su ft (z_heap (u_set u)) p) s0 (combinations ls) c
    (snd (run_call su (pt_ref p) (gs_pars g) (as_call c) (after_calls su (pt_ref p) (gs_pars g) (map as_call calls_before) (u_run su (pt_ref p) history u)))).
Proof.
  intros LR DP SE PTS SG F FC CO.
  refine (limit_for_bins su u ft p V s0 g ls sh (fitted_last_with ft (z_heap (u_set u)) p) _ history calls_before c LR DP SE PTS SG F FC CO).
  intros v sig b m S. now apply fitted_last_at.
Qed.

(** ** There is one answer *)
Lemma best_bins_unique sh value pts t q t' q' : best_bins sh value pts t q -> best_bins sh value pts t' q' -> q = q' /\ forall bin, valid_idx sh bin -> t bin = t' bin.
Proof.
  intros (k & v & a & A1 & A2 & A3 & A4) (k' & v' & a' & A1' & A2' & A3' & A4').
  destruct (A4 _ _ _ _ A1' A2') as (B1 & B2). destruct (A4' _ _ _ _ A1 A2) as (B1' & B2').
  assert (k = k') as <-.
  { destruct (Nat.lt_trichotomy k k') as [X|[X|X]]; [exfalso|exact X|exfalso].
    - specialize (B2' X). qlra.
    - specialize (B2 X). qlra. }
  assert (v' = v) as -> by congruence. rewrite A2 in A2'. injection A2' as <- <-. split; [reflexivity|].
  intros bin B. now rewrite A3, A3' by exact B.
Qed.
Lemma all_idx_nodup sh : NoDup (all_idx sh).
Proof.
  induction sh as [|d l IH]; [repeat constructor; intros []|]. cbn [all_idx].
  generalize 0. induction d as [|d IHd]; intro s; cbn [seq flat_map]; [constructor|].
  assert (A : forall l1 l2 : list (list nat), NoDup l1 -> NoDup l2 -> (forall x, In x l1 -> ~ In x l2) -> NoDup (l1 ++ l2)).
  { induction l1 as [|x l1 I]; intros l2 N1 N2 D; [exact N2|]. inversion N1; subst. cbn. constructor.
    - rewrite in_app_iff. intros [X|X]; [contradiction|]. exact (D x (or_introl eq_refl) X).
    - apply I; auto. intros y Y. apply D. now right. }
  apply A.
  - clear - IH. induction IH as [|x l' N _ I]; cbn; constructor; [|exact I]. rewrite in_map_iff. intros (y & [= ->] & Y). contradiction.
  - apply IHd.
  - intros x X Y. apply in_map_iff in X. destruct X as (x' & <- & _). apply in_flat_map in Y. destruct Y as (i & I & Y).
    apply in_seq in I. apply in_map_iff in Y. destruct Y as (y & [= -> ->] & _). lia.
Qed.
Lemma first_min_ext sh f f' p v : (forall i, valid_idx sh i -> f i = f' i) -> first_min sh f p v -> first_min sh f' p v.
Proof.
  intros E (A1 & A2 & A3 & A4). split; [exact A1|]. split; [now rewrite <- E|]. split; intros i I; [|intro L]; rewrite <- E by exact I; auto.
Qed.
Lemma greatest_unique T b n r r' : first_greatest T b n r -> first_greatest T b n r' -> r = r'.
Proof.
  intros (A1 & A2 & A3) (B1 & B2 & B3). destruct (Nat.lt_trichotomy r r') as [X|[X|X]]; [exfalso|exact X|exfalso].
  - assert (Y := B3 r ltac:(lia)). assert (Z := A2 r' ltac:(lia)). qlra.
  - assert (Y := A3 r' ltac:(lia)). assert (Z := B2 r ltac:(lia)). qlra.
Qed.
Lemma limit_bins_unique sh scales n m m' fs fs' lim a a' :
  (forall bin, valid_idx sh bin -> m bin = m' bin) ->
  (forall j, j < n -> penalty_of (nth j fs nofit) = penalty_of (nth j fs' nofit) /\ forall bin, valid_idx sh bin -> bin_stat (nth j fs nofit) bin = bin_stat (nth j fs' nofit) bin) ->
  limit_bins sh scales n m fs lim a -> limit_bins sh scales n m' fs' lim a' -> a = a'.
Proof.
  intros EM EF. unfold limit_bins. cbv zeta.
  set (T := fun j => (total sh (fun bin => bin_stat (nth j fs nofit) bin - m bin) + penalty_of (nth j fs nofit))%Qc).
  set (T' := fun j => (total sh (fun bin => bin_stat (nth j fs' nofit) bin - m' bin) + penalty_of (nth j fs' nofit))%Qc).
  assert (ET : forall j, j < n -> T' j = T j).
  { intros j J. destruct (EF j J) as (E1 & E2). unfold T, T'. rewrite E1. f_equal. rewrite !total_sum_over. apply sum_over_ext. intros bin B. now rewrite E2, EM by exact B. }
  intros (p & v & b & A1 & A2 & A3) (p' & v' & b' & B1 & B2 & B3).
  assert (p = p') as <-.
  { refine (proj1 (first_min_unique _ _ _ _ _ _ A1 (first_min_ext _ _ _ _ _ _ B1))). intros i I. inversion I as [|x y z w I1 I2 I3 I4]. cbn [hd tl].
    destruct (EF x I1) as (_ & E2). now rewrite E2, EM by exact I2. }
  assert (b = b') as <-.
  { assert (ND := all_idx_nodup (n :: sh)). rewrite NoDup_nth_error in ND. apply ND; [|congruence]. apply nth_error_Some. congruence. }
  clear A1 B1 A2 B2 p v v'. clear EM EF.
  assert (FC : forall j, first_crossing T' b n lim j -> first_crossing T b n lim j).
  { intros j (J1 & J2 & J3). split; [exact J1|]. split; [rewrite <- ET by lia; exact J2|]. intros i I. rewrite <- ET by lia. now apply J3. }
  assert (FG : forall r, first_greatest T' b n r -> first_greatest T b n r).
  { intros r (J1 & J2 & J3). split; [exact J1|]. split; intros i I; rewrite <- !ET by lia; [now apply J2|now apply J3]. }
  destruct a as [x|e], a' as [x'|e'].
  - destruct A3 as (j & J & ->). destruct B3 as (j' & J' & ->). f_equal. f_equal. exact (crossing_unique _ _ _ _ _ _ J (FC _ J')).
  - exfalso. destruct A3 as (j & (J1 & J2 & _) & _). destruct B3 as (B3 & _). specialize (B3 j J1). change (T' j <= lim)%Qc in B3. rewrite ET in B3 by lia. clear - B3 J2. apply Qcle_not_lt in B3. contradiction.
  - exfalso. destruct B3 as (j & (J1 & J2 & _) & _). destruct A3 as (A3 & _). specialize (A3 j J1). change (T j <= lim)%Qc in A3. rewrite ET in J2 by lia. clear - A3 J2. apply Qcle_not_lt in A3. contradiction.
  - f_equal. destruct A3 as (_ & A4 & A5). destruct B3 as (_ & B4 & B5). destruct (le_lt_dec n b) as [L|L]; [now rewrite A4, B4|].
    destruct (A5 L) as (r & R & A6 & A7). destruct (B5 L) as (r' & R' & B6 & B7). assert (r = r') as <- by exact (greatest_unique _ _ _ _ _ R (FG _ R')).
    destruct (le_lt_dec n (b + (r - b) * bins sh)) as [X|X]; [now rewrite A7, B7|now rewrite A6, B6].
Qed.
Lemma right_bins_unique sh value s0 pts c a a' : limit_right_bins sh value s0 pts c a -> limit_right_bins sh value s0 pts c a' -> a = a'.
Proof.
  intros (m & fs & (q & M) & F & L) (m' & fs' & (q' & M') & F' & L').
  refine (limit_bins_unique _ _ _ m m' fs fs' _ _ _ _ _ L L').
  - exact (proj2 (best_bins_unique _ _ _ _ _ _ _ M M')).
  - intros j J. exact (best_bins_unique _ _ _ _ _ _ _ (F j J) (F' j J)).
Qed.

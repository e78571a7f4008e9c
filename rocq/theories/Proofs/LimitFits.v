(** Limits from fits whose signal is scaled, removed and put back. *)
From Coq Require Import Lia Permutation.
From Verif Require Import Model.Base Model.PyStr Model.NDArray Model.Param Model.Config Model.Spectra
  Model.Smear Model.Shift Model.FitParam Model.Heap Model.Minimise Model.Fit Model.FitPrepare Model.Limit Model.FitLimit.
From Verif Require Import Spec.AxisSpec Spec.ArraySpec Spec.SpectraSpec Spec.ShrinkSpec Spec.HeapSpec Spec.SearchSpec Spec.FitRunSpec Spec.LimitSpec Spec.FitLimitSpec.
From Verif Require Import Proofs.QcLemmas Proofs.NDArrayLemmas Proofs.ParamLemmas Proofs.ExtLemmas Proofs.HeapLemmas Proofs.MinimiseLemmas Proofs.SearchLemmas Proofs.LimitLemmas Proofs.LimitWidths
  Proofs.FitLemmas Proofs.FitPrep Proofs.FitRun Proofs.HomogLemmas Proofs.FitScan Proofs.LimitScan.

(** ** The parameters of a search after it has been used *)
Definition kept g (p p' : fpar) : Prop :=
  fp_sigma p' = fp_sigma p /\ fp_prior p' = fp_prior p /\ fp_bins p' = fp_bins p /\
  forall l, snd (get_values g p) = Ok l -> snd (get_values g p') = Ok l.
Lemma get_values_kept g p p1 l : get_values g p = (p1, Ok l) ->
  fp_values p1 = Some l /\ fp_sigma p1 = fp_sigma p /\ fp_prior p1 = fp_prior p /\ fp_bins p1 = fp_bins p.
Proof.
  unfold get_values. destruct (fp_values p) eqn:E; [intro H; injection H as <- <-; auto|].
  destruct (if truthy (fp_logscale p) || truthy (fp_logdev p) then g p else _) as [l'|e]; intro H; [injection H as <- <-; auto|discriminate].
Qed.
Lemma record_one_kept g pen i p p' : record_one g pen i p = Ok p' -> kept g p p'.
Proof.
  unfold record_one, get_value_at. destruct (get_values g p) as [p1 [l|e]] eqn:Eg; [|discriminate]. destruct (get_values_kept g p p1 l Eg) as (K1 & K2 & K3 & K4).
  cbn [rbind]. destruct (norm_index (Z.of_nat i) (length l)) as [k|]; [|discriminate]. cbn [rbind].
  assert (H : forall a v, kept g p (set_penalty_term a (set_best_fit v p1))).
  { intros a v. split; [exact K2|]. split; [exact K3|]. split; [exact K4|]. intros l' E. rewrite Eg in E. injection E as <-. unfold get_values.
    change (fp_values (set_penalty_term a (set_best_fit v p1))) with (fp_values p1). now rewrite K1. }
  destruct (fp_sigma p) as [s|]; [destruct (pen _ (fp_prior p) s); [|discriminate]|]; cbn [rbind]; intro E; injection E as <-; apply H.
Qed.
Lemma kept_refl g p : kept g p p.
Proof. repeat split; auto. Qed.
Lemma record_best_kept g pen : forall pos ps ps', record_best g pen pos ps = Ok ps' -> Forall2 (kept g) ps ps'.
Proof.
  assert (R : forall ps, Forall2 (kept g) ps ps) by (induction ps; constructor; [apply kept_refl|assumption]).
  induction pos as [|i pos IH]; intros ps ps' H.
  - destruct ps; injection H as <-; apply R.
  - destruct ps as [|p ps]; [injection H as <-; constructor|]. cbn [record_best] in H. destruct (record_one g pen i p) as [p'|] eqn:E; [|discriminate]. cbn [rbind] in H.
    destruct (record_best g pen pos ps) as [r|] eqn:E'; [|discriminate]. injection H as <-. constructor; [now apply record_one_kept in E|now apply IH].
Qed.
Lemma grid_kept g ps ps' ls : Forall2 (kept g) ps ps' -> grid_of g ps ls -> grid_of g ps' ls.
Proof.
  intros K; revert ls; induction K as [|p p' ps ps' (K1 & K2 & K3 & K4) _ IH]; intros ls G; inversion G as [|? l ? ls' (G1 & G2 & G3) G']; subst; constructor; [|now apply IH].
  split; [now apply K4|]. split; [exact G2|congruence].
Qed.
Lemma minimise_kept {St} g (funct : St -> list Qc -> St * res (sres * Qc)) pen st ls o rs st' x :
  grid_of g (gs_pars (ss_gs st)) ls -> ready (ss_gs st) ls -> answers_fit (ss_gs st) rs ->
  calls funct (ss_obj st) (combinations ls) = (o, rs, None) ->
  minimise g funct pen st = (st', Ok x) ->
  Forall2 (kept g) (gs_pars (ss_gs st)) (gs_pars (ss_gs st')) /\ gs_use_numpy (ss_gs st') = gs_use_numpy (ss_gs st).
Proof.
  intros G R W C M. destruct (minimise_frame g funct pen st ls o rs None G R W C) as (g1 & E & _ & F & _). unfold minimise in M. rewrite E in M.
  destruct F as (_ & _ & _ & F4 & F5 & _). cbn [ss_gs ss_obj] in M.
  destruct (do m <- get_stats g1; if gs_use_numpy g1 then numpy_minimum m else find_minimum m) as [[mv pos]|]; [|discriminate].
  destruct (record_best g pen pos (gs_pars g1)) as [ps|] eqn:B; [|discriminate]. injection M as <- _. cbn [ss_gs gs_with_pars gs_pars gs_use_numpy].
  split; [rewrite <- F5; now apply record_best_kept in B|exact F4].
Qed.

(** ** Penalties *)
Lemma summary_ok (pen : Qc -> Qc -> Qc -> Qc) qs : forall ps ps' vals,
  Forall2 (fun q p => q_prior q = fp_prior p /\ q_sigma q = fp_sigma p) qs ps -> length vals = length ps ->
  map fp_best ps' = map Some vals ->
  map fp_penalty ps' = zip_with (fun p v => match fp_sigma p with
                    | None => Some 0%Qc
                    | Some s => match (Ok (pen v (fp_prior p) s) : res Qc) with Ok t => Some t | Err _ => None end
                    end) ps vals ->
  exists pens, rmapM (fun p => do _ <- or_raise (fp_best p); or_raise (fp_penalty p)) ps' = Ok pens /\ fold_right Qcplus 0%Qc pens = penalties pen qs vals.
Proof.
  induction qs as [|q qs IH]; intros ps ps' vals F L B P; inversion F as [|? p ? ps0 (F1 & F2) F']; subst.
  - destruct vals; [|discriminate]. destruct ps'; [|discriminate]. exists []. split; reflexivity.
  - destruct vals as [|v vals]; [discriminate|]. destruct ps' as [|p' ps']; [discriminate|]. cbn [map zip_with] in B, P. injection B as B1 B2. injection P as P1 P2.
    cbn in L. destruct (IH ps0 ps' vals F' ltac:(congruence) B2 P2) as (pens & E & S). cbn [rmapM]. rewrite B1, P1. cbn [penalties]. rewrite F1, F2.
    destruct (fp_sigma p); cbn [or_raise rbind]; rewrite E; cbn [rbind]; eexists; (split; [reflexivity|]); cbn [fold_right]; now rewrite S.
Qed.

Lemma drop_signal a b c x e : first_error [a; b; c; x; e] = None -> first_error [a; b; c; None; e] = None.
Proof. destruct a, b, c, x; cbn; try discriminate; auto. Qed.
Section Fits.
Context (su : setup) (u0 : fitter) (ft : fit) (p : part) (V : Qc -> Prop) (s0 : spectra) (ls : list (list Qc)).
Hypothesis LR : limit_ready su u0 ft p s0.
Hypothesis DP : distinct_printing ft V.
Hypothesis PTS : Forall (good_args ft V) (combinations ls).
Notation h0 := (z_heap (u_set u0)).
Context (WW : list Qc -> option spectra -> res (ndarray * ndarray)).
Hypothesis WAT : forall v sig b m, stands sig b m -> fitted_at ft p h0 b m v = WW v sig.
Context (d : spectra).
Hypothesis AD : abs h0 (ft_data ft) = Some d.
Hypothesis WD : wf_spectra d.
Hypothesis RD : forall q, In q (ft_floating ft) \/ (global_pars ft <> [] /\ q = p) -> exists s, abs h0 (pt_ref q) = Some s /\ fit_ready d s.
Notation uinv := (uinv u0 ft p V s0 d).

(** The search is ready for another fit. *)
Record sinv (u : fitter) : Prop := SInv {
  si_search : exists g, u_search u = Some g /\ grid_of (su_grid su) (gs_pars g) ls /\ ready g ls /\ gs_per_bin g = false /\
    (gs_use_numpy g = true \/ ls <> []) /\ Forall2 (fun q p => q_prior q = fp_prior p /\ q_sigma q = fp_sigma p) (su_pars su) (gs_pars g);
  si_total : su_per_bin su = false;
  si_some : Forall (fun l => l <> []) ls;
  si_checked : u_checked u = true \/ check_all_spectra (su_config su) (u_set u0) = None /\ su_pars su <> [] }.

Lemma float_is : exists r l ps, z_floating (u_set u0) = Some (r :: l, ps).
Proof.
  destruct (lr_fit _ _ _ _ _ LR) as (dr & dp & _ & E). pose proof (pr_some _ _ (lr_prepared _ _ _ _ _ LR)) as N. rewrite E in N. cbn [fit_of ft_floating] in N.
  destruct (z_floating (u_set u0)) as [[[|r l] ps]|]; try congruence; [|eauto]. cbn in N. congruence.
Qed.
Lemma check_kept m b L u : uinv m b L u -> check_all_spectra (su_config su) (u_set u0) = None -> check_all_spectra (su_config su) (u_set u) = None.
Proof.
  intros (E1 & E2 & E3 & E4 & E5 & I). unfold check_all_spectra, the_roi. rewrite E1, E2, E3, E4, E5.
  destruct (p_is su u0 ft p s0 LR) as (_ & ->). destruct (lr_fit _ _ _ _ _ LR) as (dr & dp & Ed & Ef). rewrite Ed.
  destruct (lr_apart _ _ _ _ _ LR) as (SD & SF). pose proof (data_there ft p h0 V d s0 AD SD m L _ I) as A1. cbn [u_state fs_heap] in A1.
  assert (Dr : ft_data ft = dr) by (rewrite Ef; reflexivity). rewrite Dr in A1. pose proof AD as A0. rewrite Dr in A0.
  assert (C1 : check_part match z_roi (u_set u0) with Some r => r | None => [] end (z_heap (u_set u)) (Some (dr, dp)) =
               check_part match z_roi (u_set u0) with Some r => r | None => [] end h0 (Some (dr, dp))).
  { unfold check_part, check_obj. rewrite A1, A0. reflexivity. }
  assert (C2 : check_part match z_roi (u_set u0) with Some r => r | None => [] end (z_heap (u_set u)) (z_fixed (u_set u0)) =
               check_part match z_roi (u_set u0) with Some r => r | None => [] end h0 (z_fixed (u_set u0))).
  { assert (Ff : ft_fixed ft = z_fixed (u_set u0)) by (rewrite Ef; reflexivity). rewrite <- Ff. case_eq (ft_fixed ft); [intros [r pars] F|reflexivity].
    destruct (pr_fixed _ _ (lr_prepared _ _ _ _ _ LR) r pars F) as (s & As). pose proof (fixed_there ft p h0 V d s0 SF m L _ r pars s I F As) as A2. cbn [u_state fs_heap] in A2.
    unfold check_part, check_obj. now rewrite A2, As. }
  assert (C3 : check_part match z_roi (u_set u0) with Some r => r | None => [] end (z_heap (u_set u)) (Some (pt_ref p, pt_pars p)) =
               check_part match z_roi (u_set u0) with Some r => r | None => [] end h0 (Some (pt_ref p, pt_pars p))).
  { destruct (i_signal _ _ _ _ _ _ _ _ _ I) as (c & A & S). cbn [u_state fs_heap] in A. unfold check_part, check_obj. rewrite A, (lr_spectrum _ _ _ _ _ LR).
    destruct S as [(_ & _ & K & _) _]. rewrite K. destruct (level_kept s0 m (i_level _ _ _ _ _ _ _ _ _ I)) as (-> & _). reflexivity. }
  rewrite C1, C2. destruct b; [now rewrite C3|]. apply drop_signal.
Qed.
Lemma logged_ok g : grid_of (su_grid su) (gs_pars g) ls -> values_logged (su_grid su) g = None.
Proof.
  clear PTS. unfold values_logged, grid_of. generalize (gs_pars g). intro l. induction 1 as [|q x qs xs (E & _) _ IH]; [reflexivity|]. cbn [map]. rewrite E. exact IH.
Qed.
Lemma checked_ok m b L u : uinv m b L u -> sinv u -> exists u1, (u_checked u1 = true /\ uinv m b L u1 /\ sinv u1) /\ fit_all su u = run_fit su u1.
Proof.
  intros U S. unfold fit_all. case_eq (u_checked u); intro K; [exists u; auto|]. pose proof S as [(g & Sg & Gg & Rg & Pg & Ng & Vg) T N C]. destruct C as [C|(C & C')]; [congruence|].
  unfold check_fitter, fitter_checks. rewrite (check_kept m b L u U C). destruct float_is as (r & l & ps & Fl).
  assert (Ff : floats (u_set u) = true). { unfold floats. destruct U as (_ & _ & _ & -> & _). now rewrite Fl. }
  rewrite Ff, T, Sg. destruct (length (su_pars su)) eqn:Le; [destruct (su_pars su); [congruence|discriminate]|]. cbn [Nat.eqb]. rewrite logged_ok by exact Gg.
  exists (u_with_checked u true). split; [|reflexivity]. split; [reflexivity|]. split; [exact U|]. constructor; [exists g; auto 7|exact T|exact N|now left].
Qed.

Definition values_are (sig : option spectra) : Prop := forall v, In v (combinations ls) -> exists t q, value_for su ft h0 WW sig v = Ok (RNum t, q).
Lemma answers (f : list Qc -> res (sres * Qc)) : forall l, (forall v, In v l -> exists t q, f v = Ok (RNum t, q)) ->
  exists rs, Forall2 (fun v r => f v = Ok r) l rs /\ Forall (fun r => exists t, fst r = RNum t) rs.
Proof.
  induction l as [|v l IH]; intro H; [exists []; split; constructor|]. destruct IH as (rs & F & N); [intros w I; apply H; now right|].
  destruct (H v (or_introl eq_refl)) as (t & q & E). exists ((RNum t, q) :: rs). split; constructor; auto. now exists t.
Qed.
Lemma nth_forall2 {A B} (R : A -> B -> Prop) l l' : Forall2 R l l' -> forall k a b, nth_error l k = Some a -> nth_error l' k = Some b -> R a b.
Proof. induction 1; intros [|k] a b E1 E2; cbn in *; try discriminate; [congruence|eauto]. Qed.
Lemma forall2_nth {A B} (R : A -> B -> Prop) l l' : Forall2 R l l' -> forall k a, nth_error l k = Some a -> exists b, nth_error l' k = Some b.
Proof. induction 1; intros [|k] a E; cbn in *; try discriminate; [eauto|eauto]. Qed.
Lemma fit_pair_ok m b L u sig : uinv m b L u -> sinv u -> stands sig b m -> values_are sig ->
  exists u' L' t q sa pa pens g, fit_all su u = (u', Ok (Pair sa pa)) /\ uinv m b L' u' /\ sinv u' /\ best_point (value_for su ft h0 WW sig) (combinations ls) t q /\
    u_search u' = Some g /\ summary_pens g = Ok pens /\ fold_right Qcplus 0%Qc pens = q /\ ashape sa = [] /\ aget sa [] = t /\ ashape pa = [] /\ aget pa [] = q.
Proof.
  intros U0 S0 St Va. destruct (checked_ok m b L u U0 S0) as (u1 & (K & U & S) & ->). clear U0 S0 u.
  destruct (fit_is su u0 ft p V s0 LR d m b L u1 U) as (dr & dp & D & E). pose proof S as [(g & Sg & Gg & Rg & Pg & Ng & Vg) T N _].
  destruct float_is as (r & l & ps & Fl). unfold run_fit.
  assert (Ff : floats (u_set u1) = true). { unfold floats. destruct U as (_ & _ & _ & -> & _). now rewrite Fl. }
  rewrite Ff, Sg, D, E. pose proof U as (E1 & E2 & E3 & E4 & E5 & I).
  destruct (answers (value_for su ft h0 WW sig) (combinations ls) Va) as (rs & F & Nm).
  assert (F' : Forall2 (fun v r => value_of ft h0 (su_stat su) (su_pen su) (su_per_bin su) (su_single_bin su) v (fitted_at ft p h0 b m v) = Ok r) (combinations ls) rs).
  { clear - F St WAT. induction F as [|v r l rs H _ IH]; constructor; [|exact IH]. rewrite (WAT v sig b m St). exact H. }
  destruct (lr_apart _ _ _ _ _ LR) as (SD & SF).
  destruct (calls_ok ft p h0 V d s0 (prep_is su u0 ft p V s0 LR DP) DP AD WD RD (lr_spectrum _ _ _ _ _ LR) SD SF (lr_commutes _ _ _ _ _ LR) b (su_stat su) (su_pen su) (su_per_bin su) (su_single_bin su) m
              (combinations ls) PTS rs F' L (u_state u1) I) as (o & L' & C & I').
  set (gs := SS (u_state u1) g). assert (W : answers_fit (ss_gs gs) rs).
  { unfold answers_fit. cbn [gs ss_gs]. eapply Forall_impl; [|exact Nm]. intros y (t & Et). rewrite Et. cbn. exact Pg. }
  destruct (minimise_l (su_grid su) (objective (fx ft p b) (su_stat su) (su_pen su) (su_per_bin su) (su_single_bin su)) (fun v p s => Ok (su_pen su v p s)) gs ls o rs Gg Rg W C N Ng)
    as (g1 & k & vals & rr & pen & sa & pa & M & Lr & _ & Ev & Er & Bf & Pn & (Sa1 & Sa2) & (Pa1 & Pa2) & Least & Rd & Pb & Sp).
  { apply Forall_forall. intros y _ v s _. eauto. }
  destruct (minimise_kept _ _ _ gs ls o rs _ _ Gg Rg W C M) as (Kp & Un). cbn [ss_gs gs] in *. rewrite M. cbn [rbind fst snd ss_obj ss_gs].
  pose proof (nth_forall2 _ _ _ F k vals (rr, pen) Ev Er) as Val. destruct (proj1 (Forall_forall _ _) Nm _ (nth_error_In _ _ Er)) as (t & Et). cbn [fst] in Et. subst rr.
  rewrite Pg in Sa1. cbn [answer_shape] in Sa1. assert (Us : aget sa [] = t) by (apply Sa2; rewrite Sa1; constructor).
  assert (Lv : length vals = length (gs_pars g)).
  { clear - Ev Gg. apply nth_error_In in Ev. revert vals Ev. induction Gg as [|q y qs ys _ _ IH]; intros vals Ev; cbn in Ev; [destruct Ev as [<-|[]]; reflexivity|].
    apply in_flat_map in Ev as (v & _ & Ev). apply in_map_iff in Ev as (w & <- & Ev). cbn. f_equal. now apply IH. }
  destruct (summary_ok (su_pen su) (su_pars su) (gs_pars g) (gs_pars g1) vals Vg Lv Bf Pn) as (pens & Ep & Sm).
  assert (Pq : pen = penalties (su_pen su) (su_pars su) vals).
  { unfold value_for, value_of in Val. destruct (WW vals sig) as [oe|]; [|discriminate]. cbn [rbind] in Val. destruct (su_stat su _ _) as [y|]; [|discriminate]. cbn [rbind] in Val.
    destruct (shown h0 (ft_data ft)) as [ds|]; [|discriminate]. cbn [rbind] in Val. rewrite T in Val. cbn [rbind] in Val. injection Val as _ <-.
    destruct (lr_fit _ _ _ _ _ LR) as (? & ? & _ & ->). reflexivity. }
  exists (u_after u1 o (Some g1)), L', t, pen, sa, pa, pens, g1. split; [reflexivity|]. split; [|split; [|split; [|split; [reflexivity|split; [exact Ep|split; [congruence|auto]]]]]].
  - repeat (split; [assumption|]). destruct o. exact I'.
  - constructor; [|exact T|exact N|left; exact K]. exists g1. split; [reflexivity|]. split; [exact (grid_kept _ _ _ _ Kp Gg)|]. split; [exact Rd|]. split; [congruence|]. split; [rewrite Un; exact Ng|].
    clear - Vg Kp. revert Vg. generalize (su_pars su). induction Kp as [|y y' ys ys' (K1 & K2 & _) _ IH]; intros qs H; inversion H as [|? ? ? ? (H1 & H2) H']; subst; constructor; [|now apply IH].
    split; congruence.
  - exists k, vals. split; [exact Ev|]. split; [exact Val|]. intros k' v' t' q' E1' E2'. destruct (forall2_nth _ _ _ F k' v' E1') as (r' & Er').
    pose proof (nth_forall2 _ _ _ F k' v' r' E1' Er') as V'. cbn beta in V'. assert (r' = (RNum t', q')) as -> by congruence. pose proof (Least k' _ _ Er') as Q. rewrite Pg in Q. assert (AT : forall sp x, answer_total false sp (RNum x) = x) by (intros sp x; unfold answer_total; rewrite total_sum_over; reflexivity). rewrite !AT in Q. exact Q.
Qed.
Lemma fit_ok m b L u sig : uinv m b L u -> sinv u -> stands sig b m -> values_are sig ->
  exists u' L' t q pens g, u_fit su u = (u', Ok (RNum t)) /\ uinv m b L' u' /\ sinv u' /\ best_point (value_for su ft h0 WW sig) (combinations ls) t q /\
    u_search u' = Some g /\ summary_pens g = Ok pens /\ fold_right Qcplus 0%Qc pens = q.
Proof.
  intros U S St Va. destruct (fit_pair_ok m b L u sig U S St Va) as (u' & L' & t & q & sa & pa & pens & g & E & U' & S' & B & G1 & G2 & G3 & A1 & A2 & _).
  exists u', L', t, q, pens, g. split; [|auto 7]. unfold u_fit. rewrite E. cbn [rmap stat_only]. unfold unboxed. now rewrite A1, A2.
Qed.

Lemma fps_length u : sinv u -> exists g, u_search u = Some g.
Proof. intros [(g & E & _) _ _ _]. eauto. Qed.
Lemma select_ok m b L u k : uinv m b L u -> sinv u -> (isclose k 0 = true \/ (0 < k / s_decays s0)%Qc) -> forall ok, ok = (if isclose k 0 then None else Some k) ->
  exists u' m' b', select (pt_ref p) ok u = (u', None) /\ uinv m' b' L u' /\ sinv u' /\ stands (at_scale s0 k) b' m'.
Proof.
  intros U S H ok ->. unfold at_scale. destruct (isclose k 0).
  - exists (remove_signal u), m, false. split; [reflexivity|]. split; [exact (remove_uinv u0 ft p V s0 d m b L u U)|]. split; [|reflexivity]. destruct S. constructor; assumption.
  - destruct H as [H|H]; [discriminate|]. destruct (select_uinv su u0 ft p V s0 LR d m b L u k U H) as (u' & m' & E & Sc & U' & K1 & K2). exists u', m', true. split; [exact E|].
    split; [exact U'|]. split; [|split; [reflexivity|]; unfold scaled_to; now rewrite Sc]. destruct S. constructor; rewrite ?K1, ?K2; assumption.
Qed.
Definition fit_right (sig : option spectra) (f : fitout) : Prop := exists t, fo_stat f = RNum t /\ best_point (value_for su ft h0 WW sig) (combinations ls) t (penalty_of f).
Lemma limit_fit_ok m b L u k : uinv m b L u -> sinv u -> (isclose k 0 = true \/ (0 < k / s_decays s0)%Qc) -> values_are (at_scale s0 k) ->
  exists u' m' b' L' f, limit_fit su (pt_ref p) u (if isclose k 0 then None else Some k) = (u', Ok f) /\ uinv m' b' L' u' /\ sinv u' /\ fit_right (at_scale s0 k) f.
Proof.
  intros U S H Va. destruct (select_ok m b L u k U S H _ eq_refl) as (u1 & m1 & b1 & E & U1 & S1 & St). unfold limit_fit. rewrite E.
  destruct (fit_ok m1 b1 L u1 _ U1 S1 St Va) as (u' & L' & t & q & pens & g & -> & U' & S' & B & -> & -> & Sm). cbn [rbind rmap].
  eexists u', m1, b1, L', _. split; [reflexivity|]. split; [exact U'|]. split; [exact S'|]. exists t. split; [reflexivity|]. unfold penalty_of. cbn [fo_pens]. now rewrite Sm.
Qed.
Lemma zero_close : isclose 0 0 = true.
Proof. vm_compute. reflexivity. Qed.
Lemma fits_ok : forall scales m b L u, uinv m b L u -> sinv u -> Forall (fun k => isclose k 0 = true \/ (0 < k / s_decays s0)%Qc) scales ->
  (forall k, In k scales -> values_are (at_scale s0 k)) ->
  exists u' m' b' L' fs, fits_made (limit_fit su (pt_ref p)) u scales u' fs /\ uinv m' b' L' u' /\ sinv u' /\ Forall2 (fun k f => fit_right (at_scale s0 k) f) scales fs.
Proof.
  induction scales as [|k scales IH]; intros m b L u U S F Va; [exists u, m, b, L, []; split; [reflexivity|]; split; [exact U|]; split; [exact S|constructor]|]. inversion F as [|? ? Fk F']; subst.
  destruct (limit_fit_ok m b L u k U S Fk (Va k (or_introl eq_refl))) as (u1 & m1 & b1 & L1 & f & E & U1 & S1 & R).
  destruct (IH m1 b1 L1 u1 U1 S1 F' (fun x I => Va x (or_intror I))) as (u2 & m2 & b2 & L2 & fs & E2 & U2 & S2 & R2).
  exists u2, m2, b2, L2, (f :: fs). split; [exists u1; split; assumption|]. split; [exact U2|]. split; [exact S2|]. constructor; assumption.
Qed.

Lemma call_right m b L u fps c : uinv m b L u -> sinv u -> call_gives (value_for su ft h0 WW) s0 ls c ->
  (exists m' b' L', uinv m' b' L' (fst (run_call su (pt_ref p) fps c u)) /\ sinv (fst (run_call su (pt_ref p) fps c u))) /\
  (Forall (fun y => fp_sigma y <> None) fps -> limit_right (value_for su ft h0 WW) s0 (combinations ls) c (snd (run_call su (pt_ref p) fps c u))) /\
  (Exists (fun y => fp_sigma y = None) fps -> snd (run_call su (pt_ref p) fps c u) = Err ETypeError).
Proof.
  destruct c as [[scales lim] ms]. intros U S (NE & NZ & SC & Va). cbn [run_call limit_right]. unfold limit_of.
  assert (X : exists u1 m1 b1 L1 mm, uinv m1 b1 L1 u1 /\ sinv u1 /\
            match ms with
            | Some x => x <> 0%Qc /\ u1 = u /\ mm = x
            | None => exists f, limit_fit su (pt_ref p) u None = (u1, Ok f) /\ fo_stat f = RNum mm
            end /\ match ms with Some x => mm = x | None => exists q0, best_point (value_for su ft h0 WW None) (combinations ls) mm q0 end).
  { destruct ms as [x|].
    - exists u, m, b, L, x. split; [exact U|]. split; [exact S|]. split; [split; [congruence|now split]|reflexivity].
    - destruct (limit_fit_ok m b L u 0%Qc U S) as (u1 & m1 & b1 & L1 & f & E & U1 & S1 & (t & R1 & R2)).
      + left. exact zero_close.
      + unfold at_scale. rewrite zero_close. intros v I. apply Va; [now left|exact I].
      + unfold at_scale in R2. rewrite zero_close in *. exists u1, m1, b1, L1, t. split; [exact U1|]. split; [exact S1|]. split; eauto. }
  destruct X as (u1 & m1 & b1 & L1 & mm & U1 & S1 & Hm & Bm).
  destruct (fits_ok scales m1 b1 L1 u1 U1 S1 SC) as (u2 & m2 & b2 & L2 & fs & Fm & U2 & S2 & FR).
  { intros k I v J. apply Va; [|exact J]. unfold signals. apply in_or_app. right. now apply in_map. }
  assert (Nf : Forall number fs). { clear - FR. induction FR as [|k f ks fs (t & E & _) _ IH]; constructor; [now exists t|exact IH]. }
  assert (NW : Exists (fun y => fp_sigma y = None) fps ->
            get_limit (limit_fit su (pt_ref p)) scales (length scales) [length scales] (map fp_sigma fps) u lim ms = (u2, Err ETypeError)).
  { intro X. apply (get_limit_no_width _ _ _ _ _ _ u1 mm u2 fs NE); [|exact Hm|exact Fm|exact Nf].
    apply Exists_exists in X as (y & I & E). rewrite <- E. now apply in_map. }
  assert (Dec : Forall (fun y => fp_sigma y <> None) fps \/ Exists (fun y => fp_sigma y = None) fps).
  { clear. induction fps as [|y l [IH|IH]]; [left; constructor|..|right; now constructor 2].
    destruct (fp_sigma y) eqn:E; [left; constructor; [congruence|exact IH]|right; now constructor]. }
  destruct Dec as [SG|SG].
  2: { rewrite (NW SG). cbn [fst snd]. split; [exists m2, b2, L2; now split|]. split; [|reflexivity].
       intro F. exfalso. apply Exists_exists in SG as (y & I & E). rewrite Forall_forall in F. exact (F y I E). }
  clear NW. assert (SG' : Forall (fun s => s <> None) (map fp_sigma fps)) by (now apply Forall_map).
  destruct (get_limit_l (limit_fit su (pt_ref p)) scales (map fp_sigma fps) u lim ms u1 mm u2 fs NE SG' Hm Fm Nf) as (bb & FL & R).
  destruct (get_limit (limit_fit su (pt_ref p)) scales (length scales) [length scales] (map fp_sigma fps) u lim ms) as [u3 ans]. cbn [fst snd].
  assert (u3 = u2) as -> by (destruct ans; apply R). split; [exists m2, b2, L2; now split|].
  split; [intros _|intro X; exfalso; apply Exists_exists in X as (y & I & E); rewrite Forall_forall in SG; exact (SG y I E)].
  exists mm, (fun j => stat_of (nth j fs nofit)), (fun j => penalty_of (nth j fs nofit)), bb. split; [exact Bm|]. split; [|split; [exact FL|destruct ans; apply R]].
  intros j Hj. destruct (nth_error scales j) as [k|] eqn:Ek; [|apply nth_error_None in Ek; lia]. destruct (forall2_nth _ _ _ FR j k Ek) as (f & Ef).
  destruct (nth_forall2 _ _ _ FR j k f Ek Ef) as (t & E1 & E2). rewrite (nth_error_nth _ _ 0%Qc Ek), (nth_error_nth _ _ nofit Ef). unfold stat_of at 1. now rewrite E1.
Qed.
Lemma calls_kept fps : forall cs m b L u, uinv m b L u -> sinv u -> Forall (call_gives (value_for su ft h0 WW) s0 ls) cs ->
  exists m' b' L', uinv m' b' L' (after_calls su (pt_ref p) fps cs u) /\ sinv (after_calls su (pt_ref p) fps cs u).
Proof.
  induction cs as [|c cs IH]; intros m b L u U S F; [exists m, b, L; now split|]. inversion F as [|? ? Fc F']; subst.
  destruct (call_right m b L u fps c U S Fc) as ((m1 & b1 & L1 & U1 & S1) & _). unfold after_calls. cbn [fold_left]. exact (IH m1 b1 L1 _ U1 S1 F').
Qed.
Lemma searches_sinv g u : searches su u0 g ls -> u_search u = u_search u0 -> u_checked u = u_checked u0 -> sinv u.
Proof.
  intros [E1 E2 E3 (E4 & E4') (E5 & E5') E6 E7] K1 K2. constructor; [|exact E4'|exact E5|].
  - exists g. rewrite K1. auto 7.
  - rewrite K2. destruct E7 as [E7|E7]; [now left|right]. unfold fitter_checks in E7. destruct (check_all_spectra (su_config su) (u_set u0)); [discriminate|].
    split; [reflexivity|]. destruct float_is as (r & l & ps & Fl). unfold floats in E7. rewrite Fl in E7. intro Z. rewrite Z in E7. discriminate.
Qed.
End Fits.

Section Result.
Context (su : setup) (u : fitter) (ft : fit) (p : part) (V : Qc -> Prop) (s0 : spectra) (g : gsearch) (ls : list (list Qc)).
Context (W : list Qc -> option spectra -> res (ndarray * ndarray)).
Hypothesis WAT : forall v sig b m, stands sig b m -> fitted_at ft p (z_heap (u_set u)) b m v = W v sig.
Notation value := (value_for su ft (z_heap (u_set u)) W).
Lemma limit_for history calls_before c :
  limit_ready su u ft p s0 -> distinct_printing ft V -> searches su u g ls -> Forall (good_args ft V) (combinations ls) ->
  Forall (event_ok ft V s0) history -> Forall (call_gives value s0 ls) calls_before ->
  call_gives value s0 ls c ->
  let answer := snd (run_call su (pt_ref p) (gs_pars g) c (after_calls su (pt_ref p) (gs_pars g) calls_before (u_run su (pt_ref p) history u))) in
  (Forall (fun y => fp_sigma y <> None) (gs_pars g) -> limit_right value s0 (combinations ls) c answer) /\
  (Exists (fun y => fp_sigma y = None) (gs_pars g) -> answer = Err ETypeError).
Proof.
  intros LR DP SE PTS F FC CO answer. destruct (data_is su u ft p s0 LR) as (d & AD & WD & RD).
  destruct (run_uinv su u ft p V s0 LR DP d AD WD RD history F (Some s0) s0 true _ u (start_uinv su u ft p V s0 LR DP d AD RD) (conj eq_refl eq_refl)) as (m & b & L & U & K1 & K2 & _).
  pose proof (searches_sinv su u ft p s0 ls LR g _ SE K1 K2) as S.
  destruct (calls_kept su u ft p V s0 ls LR DP PTS W WAT d AD WD RD (gs_pars g) calls_before m b L _ U S FC) as (m' & b' & L' & U' & S').
  apply (call_right su u ft p V s0 ls LR DP PTS W WAT d AD WD RD m' b' L' _ (gs_pars g) c U' S' CO).
Qed.
End Result.
Lemma limit_l su u ft p V s0 g ls history calls_before c :
  limit_ready su u ft p s0 -> distinct_printing ft V -> length (global_pars ft) <= 1 -> searches su u g ls -> Forall (good_args ft V) (combinations ls) ->
  Forall (fun y => fp_sigma y <> None) (gs_pars g) -> Forall (event_ok ft V s0) history -> Forall (call_ok su ft (z_heap (u_set u)) p s0 ls) calls_before ->
  call_ok su ft (z_heap (u_set u)) p s0 ls c ->
  limit_right (value_with su ft (z_heap (u_set u)) p) s0 (combinations ls) c
    (snd (run_call su (pt_ref p) (gs_pars g) c (after_calls su (pt_ref p) (gs_pars g) calls_before (u_run su (pt_ref p) history u)))).
Proof.
  intros LR DP ONE SE PTS SG F FC CO.
  refine (proj1 (limit_for su u ft p V s0 g ls (fitted_with ft (z_heap (u_set u)) p) _ history calls_before c LR DP SE PTS F FC CO) SG).
  intros v sig b m S. now apply fitted_with_at.
Qed.
Lemma limit_last_l su u ft p V s0 g ls history calls_before c :
  limit_ready su u ft p s0 -> distinct_printing ft V -> searches su u g ls -> Forall (good_args ft V) (combinations ls) ->
  Forall (event_ok ft V s0) history -> Forall (call_gives (value_last_with su ft (z_heap (u_set u)) p) s0 ls) calls_before ->
  call_gives (value_last_with su ft (z_heap (u_set u)) p) s0 ls c ->
  let answer := snd (run_call su (pt_ref p) (gs_pars g) c (after_calls su (pt_ref p) (gs_pars g) calls_before (u_run su (pt_ref p) history u))) in
  (Forall (fun y => fp_sigma y <> None) (gs_pars g) -> limit_right (value_last_with su ft (z_heap (u_set u)) p) s0 (combinations ls) c answer) /\
  (Exists (fun y => fp_sigma y = None) (gs_pars g) -> answer = Err ETypeError).
Proof.
  intros LR DP SE PTS F FC CO.
  refine (limit_for su u ft p V s0 g ls (fitted_last_with ft (z_heap (u_set u)) p) _ history calls_before c LR DP SE PTS F FC CO).
  intros v sig b m S. now apply fitted_last_at.
Qed.

(** ** There is one right answer *)
Lemma best_unique value pts t q t' q' : best_point value pts t q -> best_point value pts t' q' -> t = t' /\ q = q'.
Proof.
  intros (k & v & E1 & E2 & E3) (k' & v' & E1' & E2' & E3').
  destruct (E3 k' v' t' q' E1' E2') as (A & B). destruct (E3' k v t q E1 E2) as (A' & B').
  assert (k = k') as <-. { destruct (Nat.lt_trichotomy k k') as [X|[X|X]]; [exfalso|exact X|exfalso]; [exact (Qclt_not_le _ _ (B' X) A)|exact (Qclt_not_le _ _ (B X) A')]. }
  assert (v = v') as <- by congruence. rewrite E2 in E2'. injection E2' as <- <-. now split.
Qed.
Lemma right_unique value s0 pts c a a' : limit_right value s0 pts c a -> limit_right value s0 pts c a' -> a = a'.
Proof.
  destruct c as [[scales lim] ms]. intros (m & t & q & b & H1 & H2 & (H3 & H4 & H5) & H6) (m' & t' & q' & b' & K1 & K2 & (K3 & K4 & K5) & K6).
  assert (m = m') as <-. { destruct ms; [congruence|]. destruct H1 as (x & H1), K1 as (y & K1). now destruct (best_unique _ _ _ _ _ _ H1 K1). }
  assert (E : forall j, (j < length scales)%nat -> t j = t' j /\ q j = q' j). { intros j J. exact (best_unique _ _ _ _ _ _ (H2 j J) (K2 j J)). }
  assert (b = b') as <-.
  { destruct (Nat.lt_trichotomy b b') as [X|[X|X]]; [exfalso|exact X|exfalso].
    - pose proof (K5 b X) as Y. destruct (E b H3) as (Z & _), (E b' K3) as (Z' & _). rewrite <- Z, <- Z' in Y. exact (Qclt_not_le _ _ Y (H4 b' K3)).
    - pose proof (H5 b' X) as Y. destruct (E b H3) as (Z & _), (E b' K3) as (Z' & _). rewrite Z, Z' in Y. exact (Qclt_not_le _ _ Y (K4 b H3)). }
  assert (T : forall j, (j < length scales)%nat -> (t j - m + q j = t' j - m + q' j)%Qc). { intros j J. destruct (E j J) as (-> & ->). reflexivity. }
  destruct a as [x|e], a' as [x'|e'].
  - destruct H6 as (j & (J1 & J2 & J3) & ->), K6 as (j' & (J1' & J2' & J3') & ->).
    assert (j = j') as <-; [|reflexivity]. destruct (Nat.lt_trichotomy j j') as [X|[X|X]]; [exfalso|exact X|exfalso].
    + pose proof (J3' j ltac:(lia)) as Y. cbn beta in *. rewrite <- T in Y by lia. exact (Qclt_not_le _ _ J2 Y).
    + pose proof (J3 j' ltac:(lia)) as Y. cbn beta in *. rewrite T in Y by lia. exact (Qclt_not_le _ _ J2' Y).
  - exfalso. destruct H6 as (j & (J1 & J2 & J3) & _). destruct K6 as (_ & K6). pose proof (K6 j ltac:(lia)) as Y. cbn beta in *. rewrite <- T in Y by lia. exact (Qclt_not_le _ _ J2 Y).
  - exfalso. destruct K6 as (j & (J1 & J2 & J3) & _). destruct H6 as (_ & H6). pose proof (H6 j ltac:(lia)) as Y. cbn beta in *. rewrite T in Y by lia. exact (Qclt_not_le _ _ J2 Y).
  - destruct H6 as (-> & _), K6 as (-> & _). reflexivity.
Qed.

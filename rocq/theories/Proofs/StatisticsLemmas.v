(** Limit.get_statistics: the fits of all scalings of a signal. *)
From Coq Require Import Lia Permutation.
From Verif Require Import Model.Base Model.PyStr Model.NDArray Model.Param Model.Config Model.Spectra
  Model.Smear Model.Shift Model.FitParam Model.Heap Model.Minimise Model.Fit Model.FitPrepare Model.Limit Model.FitLimit Model.Statistics.
From Verif Require Import Spec.AxisSpec Spec.ArraySpec Spec.SpectraSpec Spec.ShrinkSpec Spec.HeapSpec Spec.SearchSpec Spec.FitRunSpec Spec.LimitSpec Spec.FitLimitSpec Spec.FitMethodSpec Spec.StatisticsSpec.
From Verif Require Import Proofs.QcLemmas Proofs.NDArrayLemmas Proofs.ParamLemmas Proofs.ExtLemmas Proofs.HeapLemmas Proofs.MinimiseLemmas Proofs.SearchLemmas Proofs.LimitLemmas Proofs.LimitWidths
  Proofs.FitLemmas Proofs.FitPrep Proofs.FitRun Proofs.HomogLemmas Proofs.FitScan Proofs.LimitScan Proofs.LimitFits Proofs.FitMethods.

(** ** numpy.array *)
Lemma shape_eqb_iff : forall a b, shape_eqb a b = true <-> a = b.
Proof.
  unfold shape_eqb. induction a as [|x a IH]; intros [|y b]; cbn; split; intro H; try reflexivity; try discriminate.
  - apply andb_true_iff in H as (H1 & H2). apply Nat.eqb_eq in H1. apply IH in H2. congruence.
  - injection H as -> ->. rewrite Nat.eqb_refl. now apply IH.
Qed.
Lemma stack_ok sh l : l <> [] -> Forall (fun a => ashape a = sh) l ->
  exists a, stack l = Some a /\ ashape a = length l :: sh /\ forall k b j, nth_error l k = Some b -> aget a (k :: j) = aget b j.
Proof.
  intros N F. destruct l as [|x l]; [congruence|]. unfold stack.
  assert (Fx : ashape x = sh) by now inversion F.
  assert (E : forallb (fun b => shape_eqb (ashape b) (ashape x)) (x :: l) = true).
  { apply forallb_forall. intros b I. apply shape_eqb_iff. rewrite Forall_forall in F. rewrite (F b I). congruence. }
  rewrite E. eexists. split; [reflexivity|]. split; [cbn [ashape]; congruence|]. intros k b j H. cbn [aget]. now rewrite (nth_error_nth _ _ x H).
Qed.
Definition pair_of (x : returned) (t q : Qc) : Prop := exists sa pa, x = Pair sa pa /\ ashape sa = [] /\ aget sa [] = t /\ ashape pa = [] /\ aget pa [] = q.
Lemma pair_entry x t q : pair_of x t q -> exists a, entry_array x = Some a /\ ashape a = [2] /\ aget a [0] = t /\ aget a [1] = q.
Proof.
  intros (sa & pa & -> & A1 & A2 & B1 & B2). cbn [entry_array]. destruct (stack_ok [] [sa; pa]) as (a & E & S & G); [discriminate|auto|].
  exists a. split; [exact E|]. split; [exact S|]. split; [rewrite (G 0 sa [] eq_refl); exact A2|rewrite (G 1 pa [] eq_refl); exact B2].
Qed.
Lemma pairs_stack l : l <> [] -> Forall (fun x => exists t q, pair_of x t q) l ->
  exists a, as_stats l = Some a /\ ashape a = [length l; 2] /\ forall j x t q, nth_error l j = Some x -> pair_of x t q -> aget a [j; 0] = t /\ aget a [j; 1] = q.
Proof.
  intros N F.
  assert (X : exists bs, rmapM (fun x => match entry_array x with Some a => Ok a | None => Err EValueError end) l = Ok bs /\
    Forall2 (fun x b => entry_array x = Some b /\ ashape b = [2]) l bs).
  { clear N. induction F as [|x l (t & q & P) _ (bs & IH & IF)]; [exists []; split; [reflexivity|constructor]|]. destruct (pair_entry x t q P) as (a & E & S & _).
    exists (a :: bs). cbn [rmapM]. rewrite E, IH. cbn [rbind]. split; [reflexivity|]. constructor; auto. }
  destruct X as (bs & E & F2). unfold as_stats. rewrite E.
  assert (Lb : length bs = length l) by (symmetry; clear - F2; induction F2; cbn; congruence).
  destruct (stack_ok [2] bs) as (a & Ea & Sa & Ga); [destruct l; [congruence|destruct bs; [discriminate|congruence]]| |].
  { clear - F2. induction F2 as [|x b l bs (_ & H) _ IH]; constructor; auto. }
  exists a. split; [exact Ea|]. split; [congruence|]. intros j x t q Ej P. destruct (forall2_nth _ _ _ F2 j x Ej) as (b & Eb).
  destruct (nth_forall2 _ _ _ F2 j x b Ej Eb) as (Ex & _). destruct (pair_entry x t q P) as (b' & E' & _ & V0 & V1). assert (b' = b) as -> by congruence.
  rewrite !(Ga j b _ Eb). now split.
Qed.
Lemma values_stack l ts : l = map (fun t => Value (RNum t)) ts -> exists a, as_stats l = Some a /\ ashape a = [length ts] /\ forall j t, nth_error ts j = Some t -> aget a [j] = t.
Proof.
  intros ->. unfold as_stats.
  assert (E : rmapM (fun x => match entry_array x with Some a => Ok a | None => Err EValueError end) (map (fun t => Value (RNum t)) ts) = Ok (map (fun t => as_array (RNum t)) ts)).
  { induction ts as [|t ts IH]; [reflexivity|]. cbn [map rmapM entry_array]. rewrite IH. reflexivity. }
  rewrite E. destruct ts as [|t0 ts0] eqn:Et; [eexists; split; [reflexivity|]; split; [reflexivity|]; intros [|j] t H; discriminate|]. rewrite <- Et.
  destruct (stack_ok [] (map (fun t => as_array (RNum t)) ts)) as (a & Ea & Sa & Ga); [subst; discriminate|apply Forall_forall; intros b I; apply in_map_iff in I as (t & <- & _); reflexivity|].
  exists a. split; [exact Ea|]. rewrite map_length in Sa. split; [exact Sa|]. intros j t H. rewrite (Ga j (as_array (RNum t)) []); [reflexivity|]. rewrite nth_error_map, H. reflexivity.
Qed.

(** ** With floating backgrounds *)
Section Fits.
Context (su : setup) (u0 : fitter) (ft : fit) (p : part) (V : Qc -> Prop) (s0 : spectra) (ls : list (list Qc)).
Hypothesis LR : limit_ready su u0 ft p s0.
Hypothesis DP : distinct_printing ft V.
Hypothesis PTS : Forall (good_args ft V) (combinations ls).
Notation h0 := (z_heap (u_set u0)).
Context (WW : list Qc -> option spectra -> res (ndarray * ndarray)).
Hypothesis WAT : forall v sig b m, stands sig b m -> fitted_at ft p h0 b m v = WW v sig.
Context (d : spectra).
Hypothesis AD : abs h0 (ft_data ft) = Some d.
Hypothesis WD : wf_spectra d.
Hypothesis RD : forall q, In q (ft_floating ft) \/ (global_pars ft <> [] /\ q = p) -> exists s, abs h0 (pt_ref q) = Some s /\ fit_ready d s.
Notation uinv := (uinv u0 ft p V s0 d).
Notation sinv := (sinv su u0 ls).
Notation value := (value_for su ft h0 WW).

Lemma give_ok m b L u k : uinv m b L u -> sinv u -> (isclose k 0 = true \/ (0 < k / s_decays s0)%Qc) ->
  exists u' m' b', give_signal (pt_ref p) k u = (u', None) /\ uinv m' b' L u' /\ sinv u' /\ stands (at_scale s0 k) b' m'.
Proof.
  intros U S H. unfold give_signal, at_scale. destruct (isclose k 0).
  - exists (remove_signal u), m, false. split; [reflexivity|]. split; [exact (remove_uinv u0 ft p V s0 d m b L u U)|]. split; [|reflexivity]. destruct S. constructor; assumption.
  - destruct H as [H|H]; [discriminate|]. destruct U as (E1 & E2 & E3 & E4 & E5 & I). destruct (lr_apart _ _ _ _ _ LR) as (SD & SF).
    destruct (rescale_ok ft p h0 V d s0 SD m L (u_state u) k I H) as (st' & m' & Hs & Sc & I' & C). unfold on_heap in Hs. cbn [u_state fs_heap] in Hs.
    destruct (h_scale k (pt_ref p) (z_heap (u_set u))) as [h1 e1] eqn:Eh. destruct e1 as [e1|]; [discriminate|]. injection Hs as <-.
    destruct (i_signal _ _ _ _ _ _ _ _ _ I') as (c & Ac & Sc'). cbn [u_state fs_heap fs_with_heap] in Ac.
    assert (Pc : roi_pars (the_roi (u_set u)) (s_cfg c) = Ok (pt_pars p)).
    { unfold the_roi. rewrite E1. destruct Sc' as [(_ & _ & K & _) _]. rewrite K. destruct (level_kept s0 m' (i_level _ _ _ _ _ _ _ _ _ I')) as (-> & _).
      exact (lr_pars _ _ _ _ _ LR). }
    unfold u_set_signal, set_signal, set_one, pars_of. unfold the_roi in *. cbn [u_with_set u_set z_with_heap z_heap z_roi]. cbn [u_state fs_heap fs_with_heap] in Ac. rewrite Ac, Pc.
    eexists _, m', true. split; [reflexivity|]. split; [|split; [|split; [reflexivity|]; unfold scaled_to; now rewrite Sc]].
    + repeat (split; [assumption|]). split; [reflexivity|exact I'].
    + destruct S. constructor; assumption.
Qed.
Lemma returned_ok : forall scales m b L u, uinv m b L u -> sinv u -> Forall (fun k => isclose k 0 = true \/ (0 < k / s_decays s0)%Qc) scales ->
  (forall k, In k scales -> values_are su u0 ft ls WW (at_scale s0 k)) ->
  exists u' m' b' L' xs, all_returned su (pt_ref p) scales u = (u', Ok xs) /\ uinv m' b' L' u' /\ sinv u' /\
    Forall2 (fun k x => exists t q, pair_of x t q /\ best_point (value (at_scale s0 k)) (combinations ls) t q) scales xs.
Proof.
  induction scales as [|k scales IH]; intros m b L u U S F Va; [exists u, m, b, L, []; split; [reflexivity|]; split; [exact U|]; split; [exact S|constructor]|]. inversion F as [|? ? Fk F']; subst.
  destruct (give_ok m b L u k U S Fk) as (u1 & m1 & b1 & E1 & U1 & S1 & St1).
  destruct (fit_pair_ok su u0 ft p V s0 ls LR DP PTS WW WAT d AD WD RD m1 b1 L u1 _ U1 S1 St1 (Va k (or_introl eq_refl))) as (u2 & L2 & t & q & sa & pa & pens & g & E2 & U2 & S2 & B & _ & _ & _ & A).
  destruct (IH m1 b1 L2 u2 U2 S2 F' (fun x I => Va x (or_intror I))) as (u3 & m3 & b3 & L3 & xs & E3 & U3 & S3 & R).
  exists u3, m3, b3, L3, (Pair sa pa :: xs). split; [cbn [all_returned]; rewrite E1, E2, E3; reflexivity|]. split; [exact U3|]. split; [exact S3|].
  constructor; [|exact R]. exists t, q. split; [now exists sa, pa|exact B].
Qed.
Lemma statistics_ok scales m b L u : uinv m b L u -> sinv u -> scales_give value s0 ls scales ->
  exists u' m' b' L' a, get_statistics su (pt_ref p) scales u = (u', Ok (Some a)) /\ uinv m' b' L' u' /\ sinv u' /\
    (scales <> [] -> rows_of_best value s0 (combinations ls) scales a) /\ (scales = [] -> ashape a = [0]).
Proof.
  intros U S (F & Va). destruct (returned_ok scales m b L u U S F (fun k I v J => Va k v I J)) as (u' & m' & b' & L' & xs & E & U' & S' & R).
  unfold get_statistics. rewrite E. cbn [rmap]. destruct scales as [|k0 l0] eqn:Es.
  - inversion R; subst. exists u', m', b', L', (ND [0] (fun _ => 0%Qc)). split; [reflexivity|]. split; [exact U'|]. split; [exact S'|]. split; [congruence|reflexivity].
  - rewrite <- Es in *. assert (Lx : length xs = length scales) by (symmetry; clear - R; induction R; cbn; congruence).
    destruct (pairs_stack xs) as (a & Ea & Sa & Ga).
    { intros ->. rewrite Es in Lx. discriminate. }
    { clear - R. induction R as [|k x ks xs (t & q & P & _) _ IH]; constructor; eauto. }
    rewrite Ea. exists u', m', b', L', a. split; [reflexivity|]. split; [exact U'|]. split; [exact S'|]. split; [intros _|congruence]. split; [congruence|].
    intros j k Ek. destruct (forall2_nth _ _ _ R j k Ek) as (x & Ex). destruct (nth_forall2 _ _ _ R j k x Ek Ex) as (t & q & P & B).
    destruct (Ga j x t q Ex P) as (-> & ->). exact B.
Qed.
Lemma asks_kept fps : forall qs m b L u, uinv m b L u -> sinv u -> Forall (question_gives value s0 ls) qs ->
  exists m' b' L', uinv m' b' L' (ask_all su (pt_ref p) fps qs u) /\ sinv (ask_all su (pt_ref p) fps qs u).
Proof.
  induction qs as [|c qs IH]; intros m b L u U S F; [exists m, b, L; now split|]. inversion F as [|? ? Fc F']; subst. unfold ask_all. cbn [fold_left].
  assert (X : exists m1 b1 L1, uinv m1 b1 L1 (ask su (pt_ref p) fps c u) /\ sinv (ask su (pt_ref p) fps c u)).
  { destruct c as [c|scales]; cbn [question_gives ask] in *.
    - exact (proj1 (call_right su u0 ft p V s0 ls LR DP PTS WW WAT d AD WD RD m b L u fps c U S Fc)).
    - destruct (statistics_ok scales m b L u U S Fc) as (u' & m' & b' & L' & a & -> & U' & S' & _). exists m', b', L'. now split. }
  destruct X as (m1 & b1 & L1 & U1 & S1). exact (IH m1 b1 L1 _ U1 S1 F').
Qed.
End Fits.

Lemma statistics_for su u ft p V s0 g ls W (WAT : forall v sig b m, stands sig b m -> fitted_at ft p (z_heap (u_set u)) b m v = W v sig) history before scales :
  limit_ready su u ft p s0 -> distinct_printing ft V -> searches su u g ls -> Forall (good_args ft V) (combinations ls) ->
  Forall (event_ok ft V s0) history -> Forall (question_gives (value_for su ft (z_heap (u_set u)) W) s0 ls) before ->
  scales <> [] -> scales_give (value_for su ft (z_heap (u_set u)) W) s0 ls scales ->
  exists a, snd (get_statistics su (pt_ref p) scales (ask_all su (pt_ref p) (gs_pars g) before (u_run su (pt_ref p) history u))) = Ok (Some a) /\
    rows_of_best (value_for su ft (z_heap (u_set u)) W) s0 (combinations ls) scales a.
Proof.
  intros LR DP SE PTS F FC NE SG. destruct (data_is su u ft p s0 LR) as (d & AD & WD & RD).
  destruct (run_uinv su u ft p V s0 LR DP d AD WD RD history F (Some s0) s0 true _ u (start_uinv su u ft p V s0 LR DP d AD RD) (conj eq_refl eq_refl)) as (m & b & L & U & K1 & K2 & _).
  pose proof (searches_sinv su u ft p s0 ls LR g _ SE K1 K2) as S.
  destruct (asks_kept su u ft p V s0 ls LR DP PTS W WAT d AD WD RD (gs_pars g) before m b L _ U S FC) as (m' & b' & L' & U' & S').
  destruct (statistics_ok su u ft p V s0 ls LR DP PTS W WAT d AD WD RD scales m' b' L' _ U' S' SG) as (u2 & m2 & b2 & L2 & a & E & _ & _ & R & _).
  exists a. rewrite E. split; [reflexivity|now apply R].
Qed.
Lemma statistics_last_l su u ft p V s0 g ls history before scales :
  limit_ready su u ft p s0 -> distinct_printing ft V -> searches su u g ls -> Forall (good_args ft V) (combinations ls) ->
  Forall (event_ok ft V s0) history -> Forall (question_gives (value_last_with su ft (z_heap (u_set u)) p) s0 ls) before ->
  scales <> [] -> scales_give (value_last_with su ft (z_heap (u_set u)) p) s0 ls scales ->
  exists a, snd (get_statistics su (pt_ref p) scales (ask_all su (pt_ref p) (gs_pars g) before (u_run su (pt_ref p) history u))) = Ok (Some a) /\
    rows_of_best (value_last_with su ft (z_heap (u_set u)) p) s0 (combinations ls) scales a.
Proof. refine (statistics_for su u ft p V s0 g ls (fitted_last_with ft (z_heap (u_set u)) p) _ history before scales). intros v sig b m S. now apply fitted_last_at. Qed.
Lemma statistics_l su u ft p V s0 g ls history before scales :
  limit_ready su u ft p s0 -> distinct_printing ft V -> length (global_pars ft) <= 1 -> searches su u g ls -> Forall (good_args ft V) (combinations ls) ->
  Forall (event_ok ft V s0) history -> Forall (question_gives (value_with su ft (z_heap (u_set u)) p) s0 ls) before ->
  scales <> [] -> scales_give (value_with su ft (z_heap (u_set u)) p) s0 ls scales ->
  exists a, snd (get_statistics su (pt_ref p) scales (ask_all su (pt_ref p) (gs_pars g) before (u_run su (pt_ref p) history u))) = Ok (Some a) /\
    rows_of_best (value_with su ft (z_heap (u_set u)) p) s0 (combinations ls) scales a.
Proof. intros LR DP ONE. refine (statistics_for su u ft p V s0 g ls (fitted_with ft (z_heap (u_set u)) p) _ history before scales LR DP). intros v sig b m S. now apply fitted_with_at. Qed.

(** ** Without floating backgrounds *)
Section Fixed.
Context (su : setup) (u0 : fitter) (r : nat) (sp : list string) (s0 : spectra) (o e : ndarray).
Hypothesis FR : fixed_ready su u0 r sp s0 o e.

Record finv (u : fitter) : Prop := FInv {
  fi_checked : u_checked u = true;
  fi_fixed : floats (u_set u) = false;
  fi_heap : wf_heap (z_heap (u_set u));
  fi_roi : z_roi (u_set u) = z_roi (u_set u0);
  fi_signal : exists c, abs (z_heap (u_set u)) r = Some c /\ sorbit s0 c;
  fi_data : exists d dp s, z_data (u_set u) = Some (d, dp) /\ d <> r /\ abs (z_heap (u_set u)) d = Some s /\ nd_project dp s = Ok o;
  fi_background : exists f fp s, z_fixed (u_set u) = Some (f, fp) /\ f <> r /\ abs (z_heap (u_set u)) f = Some s /\ nd_project fp s = Ok e }.
Lemma start_finv : finv u0.
Proof. destruct FR as [A B C (D & D') E F G]. constructor; try assumption; [reflexivity|]. exists s0. split; [exact D|left; apply same_refl]. Qed.
Lemma not_close_zero k : isclose k 0 = false -> k <> 0%Qc.
Proof. intros H ->. vm_compute in H. discriminate. Qed.
(** The signal of the fit is what the scaling asks for. *)
Definition has_signal (u : fitter) (sig : option spectra) : Prop :=
  match sig with
  | None => z_signal (u_set u) = None
  | Some s => z_signal (u_set u) = Some (r, sp) /\ exists c, abs (z_heap (u_set u)) r = Some c /\ same_spectra c s
  end.
Lemma give_fixed u k : finv u -> exists u', give_signal r k u = (u', None) /\ finv u' /\ has_signal u' (at_scale s0 k).
Proof.
  intros [A B C D (c & E & E') (d & dp & sd & F1 & F2 & F3 & F4) (f & fp & sf & G1 & G2 & G3 & G4)]. unfold give_signal, at_scale. destruct (isclose k 0) eqn:Z.
  - eexists. split; [reflexivity|]. split; [|reflexivity]. constructor; try assumption; [eauto|exists d, dp, sd; auto|exists f, fp, sf; auto].
  - pose proof (not_close_zero k Z) as Nk. destruct FR as [_ _ _ (S0 & N0) Pr _ _]. destruct (scale_ok k s0 N0) as (m & Em).
    pose proof (sorbit_rate k s0 c E') as R. cbn [apply_value] in R. rewrite Em in R.
    pose proof (scale_call k r _ c C E) as Gc. pose proof (frame_effect _ _ _ _ Gc (ex_intro _ c E)) as Fr.
    destruct Gc as (_ & W1 & (c1 & A1 & S1) & O1). destruct (h_scale k r (z_heap (u_set u))) as [h1 e1]. cbn [fst snd] in *. subst e1.
    destruct (scale k c) as [t [x|]]; cbn in R; [contradiction|]. cbn [fst snd] in *.
    assert (Sm : same_spectra c1 m) by (eapply same_trans; eassumption).
    assert (Pc : roi_pars (match z_roi (u_set u) with Some x => x | None => [] end) (s_cfg c1) = Ok sp).
    { destruct Sm as [(_ & _ & K & _) _]. rewrite K. destruct (scale_decays _ _ _ Em) as (_ & K2 & _). rewrite K2 || (destruct (scale_decays _ _ _ Em) as (_ & _ & K3 & _); rewrite K3).
      rewrite D. exact Pr. }
    unfold u_set_signal, set_signal, set_one, pars_of. unfold the_roi. cbn [u_with_set u_set z_with_heap z_heap z_roi]. rewrite A1, Pc.
    eexists. split; [reflexivity|]. split.
    + constructor; try assumption; cbn [u_with_set u_set z_with_signal z_with_heap z_heap z_data z_fixed].
      * exists c1. split; [exact A1|]. right. now exists k, m.
      * exists d, dp, sd. repeat (split; [assumption|]). split; [|exact F4]. apply (abs_frame _ _ _ _ _ Fr); [congruence|exact F3].
      * exists f, fp, sf. repeat (split; [assumption|]). split; [|exact G4]. apply (abs_frame _ _ _ _ _ Fr); [congruence|exact G3].
    + split; [reflexivity|]. exists c1. split; [exact A1|]. unfold scaled_to. now rewrite Em.
Qed.
Lemma fit_fixed_value u sig : finv u -> has_signal u sig -> fit_all su u = (u, rmap Value (fixed_value su o e sp sig)).
Proof.
  intros [A B C D E (d & dp & sd & F1 & F2 & F3 & F4) (f & fp & sf & G1 & G2 & G3 & G4)] H. unfold fit_all, run_fit. rewrite A, B. f_equal. f_equal.
  unfold fit_fixed. rewrite F1, G1, F3, G3, F4, G4. cbn [rbind]. destruct sig as [s|]; cbn [has_signal fixed_value] in *.
  - destruct H as (-> & c & -> & S). pose proof (nd_project_ext sp c s S) as X. destruct (nd_project sp c) as [a|x], (nd_project sp s) as [a'|x']; cbn in X; try contradiction; [|now subst].
    cbn [rbind add_to]. destruct X as (X1 & X2). destruct (shape_eqb (ashape e) (ashape a')) eqn:Y.
    + apply shape_eqb_iff in Y. destruct (list_eq_dec Nat.eq_dec (ashape e) (ashape a)) as [Y'|N]; [|congruence]. cbn [rbind]. rewrite flat_is. f_equal. apply flat_ext.
      split; [reflexivity|]. intros i Vi. cbn [aplus aget ashape] in *. rewrite X2; [reflexivity|congruence].
    + destruct (list_eq_dec Nat.eq_dec (ashape e) (ashape a)) as [Y'|N]; [|reflexivity]. exfalso. assert (ashape e = ashape a') as K by congruence. apply shape_eqb_iff in K. congruence.
  - rewrite H. cbn [rbind]. now rewrite !flat_is.
Qed.
Lemma returned_fixed : forall scales u, finv u -> exists u', all_returned su r scales u = (u', rmap (map Value) (rmapM (fun k => fixed_value su o e sp (at_scale s0 k)) scales)) /\ finv u'.
Proof.
  induction scales as [|k scales IH]; intros u I; [exists u; now split|]. cbn [all_returned rmapM]. destruct (give_fixed u k I) as (u1 & -> & I1 & H1).
  rewrite (fit_fixed_value u1 _ I1 H1). destruct (fixed_value su o e sp (at_scale s0 k)) as [x|x]; cbn [rmap rbind]; [|exists u1; now split].
  destruct (IH u1 I1) as (u2 & -> & I2). exists u2. split; [|exact I2]. destruct (rmapM _ scales); reflexivity.
Qed.
Lemma asks_fixed fps : forall before u, finv u -> finv (ask_all su r fps (map AskStatistics before) u).
Proof.
  induction before as [|l before IH]; intros u I; [exact I|]. unfold ask_all. cbn [map fold_left ask]. apply IH. unfold get_statistics.
  destruct (returned_fixed l u I) as (u' & -> & I'). exact I'.
Qed.
End Fixed.
Lemma fixed_statistics_l su u r sp s0 o e fps before scales : fixed_ready su u r sp s0 o e ->
  let answer := snd (get_statistics su r scales (ask_all su r fps (map AskStatistics before) u)) in
  (forall ts, rmapM (fun k => fixed_value su o e sp (at_scale s0 k)) scales = Ok (map RNum ts) ->
     exists a, answer = Ok (Some a) /\ ashape a = [length scales] /\ forall j t, nth_error ts j = Some t -> aget a [j] = t) /\
  (forall x, rmapM (fun k => fixed_value su o e sp (at_scale s0 k)) scales = Err x -> answer = Err x).
Proof.
  intros FR answer. subst answer. pose proof (asks_fixed su u r sp s0 o e FR fps before u (start_finv su u r sp s0 o e FR)) as I.
  destruct (returned_fixed su u r sp s0 o e FR scales _ I) as (u' & E & _). unfold get_statistics. rewrite E. cbn [snd]. split.
  - intros ts H. rewrite H. cbn [rmap]. destruct (values_stack (map Value (map RNum ts)) ts) as (a & Ea & Sa & Ga); [now rewrite map_map|]. exists a. rewrite Ea. split; [reflexivity|]. split; [|exact Ga].
    rewrite Sa. f_equal. clear - H. revert ts H. induction scales as [|k l IH]; intros ts H; cbn [rmapM] in H; [injection H as H; now destruct ts|].
    destruct (fixed_value su o e sp (at_scale s0 k)) as [x|]; [|discriminate]. cbn [rbind] in H. destruct (rmapM _ l) as [xs|]; [|discriminate]. cbn [rbind] in H.
    destruct ts as [|t ts]; [discriminate|]. injection H as _ H. subst xs. cbn. f_equal. now apply IH.
  - intros x H. rewrite H. reflexivity.
Qed.

Lemma array_limit_rows value s0 points scales a lim : scales <> [] -> rows_of_best value s0 points scales a ->
  match get_array_limit scales a lim with
  | Ok x => exists j t q, nth_error scales j = Some x /\ best_point (value (at_scale s0 x)) points t q /\ (lim < t + q)%Qc /\
      forall j' x' t' q', j' < j -> nth_error scales j' = Some x' -> best_point (value (at_scale s0 x')) points t' q' -> (t' + q' <= lim)%Qc
  | Err er => er = ELimitError /\ forall j x t q, nth_error scales j = Some x -> best_point (value (at_scale s0 x)) points t q -> (t + q <= lim)%Qc
  end.
Proof.
  intros NE (Sh & R). assert (P : 0 < length scales) by (destruct scales; [congruence|cbn; lia]).
  assert (T : forall j x t q, nth_error scales j = Some x -> best_point (value (at_scale s0 x)) points t q -> entry_total a j = (t + q)%Qc).
  { intros j x t q E B. destruct (best_unique _ _ _ _ _ _ (R j x E) B) as (<- & <-). unfold entry_total. rewrite Sh. cbn [tl]. unfold total, sum_where. cbn. ring. }
  pose proof (array_limit_l scales a lim (length scales) [2] Sh eq_refl P) as A. destruct (get_array_limit scales a lim) as [x|er].
  - destruct A as (j & (Hj & Hc & Hb) & ->). destruct (nth_error scales j) as [x|] eqn:Ex; [|apply nth_error_None in Ex; lia]. rewrite (nth_error_nth _ _ 0%Qc Ex).
    exists j, (aget a [j; 0]), (aget a [j; 1]). split; [exact Ex|]. split; [exact (R j x Ex)|]. split; [rewrite <- (T j x _ _ Ex (R j x Ex)); exact Hc|].
    intros j' x' t' q' Lt E' B'. rewrite <- (T j' x' t' q' E' B'). apply Hb. lia.
  - destruct A as (-> & A). split; [reflexivity|]. intros j x t q E B. rewrite <- (T j x t q E B). apply A. apply nth_error_Some. congruence.
Qed.

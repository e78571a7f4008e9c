(** A fit whose signal a Limit scales, removes and puts back. *)
From Coq Require Import Lia Permutation.
From Verif Require Import Model.Base Model.PyStr Model.NDArray Model.Param Model.Config Model.Spectra
  Model.Smear Model.Shift Model.FitParam Model.Heap Model.Minimise Model.Fit Model.FitPrepare Model.Limit Model.FitLimit.
From Verif Require Import Spec.AxisSpec Spec.ArraySpec Spec.SpectraSpec Spec.ShrinkSpec Spec.HeapSpec Spec.SearchSpec Spec.FitRunSpec Spec.LimitSpec Spec.FitLimitSpec.
From Verif Require Import Proofs.QcLemmas Proofs.NDArrayLemmas Proofs.ParamLemmas Proofs.ExtLemmas Proofs.HeapLemmas Proofs.MinimiseLemmas
  Proofs.FitLemmas Proofs.FitPrep Proofs.FitRun Proofs.HomogLemmas Proofs.FitScan.

Section Run.
Context (su : setup) (u0 : fitter) (ft : fit) (p : part) (V : Qc -> Prop) (s0 : spectra).
Hypothesis LR : limit_ready su u0 ft p s0.
Hypothesis DP : distinct_printing ft V.
Notation h0 := (z_heap (u_set u0)).
Notation z0 := (u_set u0).
Notation G := (global_pars ft).

Lemma ft_is : fx ft p true = ft.
Proof. pose proof (lr_signal _ _ _ _ _ LR) as S. unfold fx. rewrite <- S. destruct ft; reflexivity. Qed.
Lemma p_is : p = Part (pt_ref p) [] (pt_pars p) /\ z_signal z0 = Some (pt_ref p, pt_pars p).
Proof.
  destruct (lr_fit _ _ _ _ _ LR) as (dr & dp & _ & E). pose proof (lr_signal _ _ _ _ _ LR) as S. rewrite E in S. cbn [fit_of ft_signal] in S.
  destruct (z_signal z0) as [[r l]|]; [|discriminate]. injection S as <-. now split.
Qed.
Lemma data_is : exists d, abs h0 (ft_data ft) = Some d /\ wf_spectra d /\
  (forall q, In q (ft_floating ft) \/ (G <> [] /\ q = p) -> exists s, abs h0 (pt_ref q) = Some s /\ fit_ready d s).
Proof.
  destruct (pr_data _ _ (lr_prepared _ _ _ _ _ LR)) as (d & A & W & R). exists d. split; [exact A|]. split; [exact W|]. intros q K. apply R.
  destruct K as [K|[K ->]]; [now left|right]. split; [exact K|exact (lr_signal _ _ _ _ _ LR)].
Qed.
Lemma prep_is : prepared (fx ft p true) h0.
Proof. rewrite ft_is. exact (lr_prepared _ _ _ _ _ LR). Qed.

Section Data.
Context (d : spectra).
Hypothesis AD : abs h0 (ft_data ft) = Some d.
Hypothesis WD : wf_spectra d.
Hypothesis RD : forall q, In q (ft_floating ft) \/ (G <> [] /\ q = p) -> exists s, abs h0 (pt_ref q) = Some s /\ fit_ready d s.
Notation inv := (FitScan.inv ft p h0 V d s0).

(** [b]: whether the fit has its signal. *)
Definition uinv (m : spectra) (b : bool) (L : list entry) (u : fitter) : Prop :=
  z_roi (u_set u) = z_roi z0 /\ z_data (u_set u) = z_data z0 /\ z_fixed (u_set u) = z_fixed z0 /\ z_floating (u_set u) = z_floating z0 /\
  z_signal (u_set u) = (if b then Some (pt_ref p, pt_pars p) else None) /\ inv m L (u_state u).
Lemma fit_is m b L u : uinv m b L u -> exists dr dp, z_data (u_set u) = Some (dr, dp) /\ fit_of (su_str su) (su_pars su) (su_owns su) (u_set u) dr dp = fx ft p b.
Proof.
  intros (E1 & E2 & E3 & E4 & E5 & _). destruct (lr_fit _ _ _ _ _ LR) as (dr & dp & D & E). exists dr, dp. split; [congruence|].
  unfold fit_of, fx. rewrite E3, E4, E5. rewrite E. unfold fit_of. cbn [ft_str ft_pars ft_data ft_data_pars ft_fixed ft_floating]. f_equal.
  destruct b; [|reflexivity]. now destruct p_is as (<- & _).
Qed.
Lemma start_uinv : uinv s0 true (live0 ft h0 d) u0.
Proof.
  repeat (split; [reflexivity|]). split; [now destruct p_is as (_ & ->)|].
  assert (E : u_state u0 = f_start ft h0).
  { unfold u_state, f_start. destruct (lr_start _ _ _ _ _ LR) as (-> & ->). destruct (lr_fit _ _ _ _ _ LR) as (dr & dp & _ & ->). reflexivity. }
  rewrite E. apply start_inv; [exact prep_is|exact RD|exact (lr_spectrum _ _ _ _ _ LR)|exact (lr_commutes _ _ _ _ _ LR)].
Qed.
Notation SDx := (proj1 (lr_apart _ _ _ _ _ LR)).
Notation SFx := (proj2 (lr_apart _ _ _ _ _ LR)).
Notation CMx := (lr_commutes _ _ _ _ _ LR).

Lemma eval_uinv m b L u args : uinv m b L u -> good_args ft V args -> forall x, u_eval su args u = x ->
  exists L', uinv m b L' (fst x) /\ res_eq pair_eq (snd x) (fitted_at ft p h0 b m args).
Proof.
  intros U Ga x. destruct (fit_is m b L u U) as (dr & dp & D & E). unfold u_eval. rewrite D, E. destruct U as (E1 & E2 & E3 & E4 & E5 & I).
  destruct (spectra_of_ok ft p h0 V d s0 prep_is DP AD WD RD (lr_spectrum _ _ _ _ _ LR) SDx SFx CMx b m L (u_state u) args I Ga _ eq_refl) as (L' & I' & _ & R).
  destruct (spectra_of (fx ft p b) args (u_state u)) as [st r]. cbn [fst snd] in *. intros <-. exists L'. split; [|exact R].
  repeat (split; [assumption|]). cbn [fst]. destruct st; exact I'.
Qed.
Lemma remove_uinv m b L u : uinv m b L u -> uinv m false L (remove_signal u).
Proof. intros (E1 & E2 & E3 & E4 & E5 & I). repeat (split; [assumption|]). split; [reflexivity|exact I]. Qed.
Lemma select_uinv m b L u k : uinv m b L u -> (0 < k / s_decays s0)%Qc -> exists u' m', select (pt_ref p) (Some k) u = (u', None) /\
  scale k s0 = (m', None) /\ uinv m' true L u' /\ u_search u' = u_search u /\ u_checked u' = u_checked u.
Proof.
  intros (E1 & E2 & E3 & E4 & E5 & I) P.
  destruct (rescale_ok ft p h0 V d s0 SDx m L (u_state u) k I P) as (st' & m' & H & S & I' & C). unfold on_heap in H. cbn [u_state fs_heap] in H.
  destruct (i_signal _ _ _ _ _ _ _ _ _ I) as (c & Ac & Sc). cbn [u_state fs_heap] in Ac.
  assert (Pc : roi_pars (the_roi (u_set u)) (s_cfg c) = Ok (pt_pars p)).
  { unfold the_roi. rewrite E1. destruct Sc as [(_ & _ & K & _) _]. rewrite K. destruct (level_kept s0 m (i_level _ _ _ _ _ _ _ _ _ I)) as (-> & _).
    exact (lr_pars _ _ _ _ _ LR). }
  destruct (h_scale k (pt_ref p) (z_heap (u_set u))) as [h1 e1] eqn:Eh. destruct e1 as [e1|]; [discriminate|]. injection H as <-.
  unfold select. destruct b; rewrite E5.
  - rewrite E5, Eh. eexists _, m'. split; [reflexivity|]. split; [exact S|]. split; [|split; reflexivity]. repeat (split; [assumption|]). exact I'.
  - unfold u_set_signal, set_signal, set_one, pars_of. rewrite Ac, Pc. cbn [u_with_set u_set z_with_signal z_with_heap z_signal z_heap]. rewrite Eh.
    eexists _, m'. split; [reflexivity|]. split; [exact S|]. split; [|split; reflexivity]. repeat (split; [assumption|]). split; [reflexivity|]. exact I'.
Qed.

(** The signal a state stands for. *)
Definition stands (sig : option spectra) (b : bool) (m : spectra) : Prop := match sig with Some s => b = true /\ s = m | None => b = false end.
Lemma run_uinv l : Forall (event_ok ft V s0) l -> forall sig m b L u, uinv m b L u -> stands sig b m ->
  exists m' b' L', uinv m' b' L' (u_run su (pt_ref p) l u) /\ u_search (u_run su (pt_ref p) l u) = u_search u /\ u_checked (u_run su (pt_ref p) l u) = u_checked u /\
    stands (fold_left (fun x e => match e with Eval _ => x | Select None => None | Select (Some k) => Some (scaled_to k s0) end) l sig) b' m'.
Proof.
  induction 1 as [|e l Ok _ IH]; intros sig m b L u U S; [exists m, b, L; auto|]. unfold u_run. cbn [fold_left]. fold (u_run su (pt_ref p) l).
  destruct e as [args|[k|]]; cbn [event_ok u_step] in *.
  - destruct (eval_uinv m b L u args U Ok _ eq_refl) as (L' & U' & _).
    assert (K : u_search (fst (u_eval su args u)) = u_search u /\ u_checked (fst (u_eval su args u)) = u_checked u).
    { unfold u_eval. destruct (z_data (u_set u)) as [[? ?]|]; [|split; reflexivity]. destruct (spectra_of _ _ _); split; reflexivity. }
    destruct (IH sig m b L' _ U' S) as (m2 & b2 & L2 & U2 & K1 & K2 & S2). exists m2, b2, L2. destruct K as (K3 & K4). rewrite <- K3, <- K4. auto.
  - destruct (select_uinv m b L u k U Ok) as (u' & m' & E & Sc & U' & K3 & K4). rewrite E. cbn [fst]. rewrite <- K3, <- K4. unfold scaled_to at 2. rewrite Sc. cbn [fst].
    destruct (IH (Some m') m' true L u' U' (conj eq_refl eq_refl)) as (m2 & b2 & L2 & U2 & S2). exists m2, b2, L2. auto.
  - cbn [select fst]. apply remove_uinv in U. destruct (IH None m false L _ U eq_refl) as (m2 & b2 & L2 & U2 & S2). exists m2, b2, L2. auto.
Qed.
Lemma fitted_last_at args sig b m : stands sig b m -> fitted_at ft p h0 b m args = fitted_last_with ft h0 p args sig.
Proof. intro S. destruct sig as [s|]; cbn [stands] in S; [destruct S as [-> ->]|subst b]; reflexivity. Qed.
End Data.
End Run.
Lemma fitted_with_at u ft p args sig b m : length (global_pars ft) <= 1 -> stands sig b m -> fitted_at ft p (z_heap (u_set u)) b m args = fitted_with ft (z_heap (u_set u)) p args sig.
Proof.
  intros Le S. unfold fitted_at, fitted_with, with_signal, signal_at.
  assert (E : apply_last (ft_pars ft) args (global_pars ft) m m = apply_values (ft_pars ft) args (global_pars ft) m).
  { destruct (global_pars ft) as [|i [|j l]]; [reflexivity| |exfalso; apply le_S_n in Le; inversion Le]. cbn [apply_last]. destruct (apply_values (ft_pars ft) args [i] m); reflexivity. }
  rewrite E. destruct sig as [s|]; cbn [stands] in S; [destruct S as [-> ->]|subst b]; reflexivity.
Qed.

Lemma history_last_l su u ft p V s0 l args : limit_ready su u ft p s0 -> distinct_printing ft V -> Forall (event_ok ft V s0) l -> good_args ft V args ->
  same_res same_pair (snd (u_eval su args (u_run su (pt_ref p) l u))) (fitted_last_with ft (z_heap (u_set u)) p args (signal_after s0 l)).
Proof.
  intros LR DP F Ga. destruct (data_is su u ft p s0 LR) as (d & AD & WD & RD).
  destruct (run_uinv su u ft p V s0 LR DP d AD WD RD l F (Some s0) s0 true _ u (start_uinv su u ft p V s0 LR DP d AD RD) (conj eq_refl eq_refl)) as (m & b & L & U & _ & _ & S).
  destruct (eval_uinv su u ft p V s0 LR DP d AD WD RD m b L _ args U Ga _ eq_refl) as (L' & _ & R). unfold signal_after. now rewrite <- (fitted_last_at u ft p args _ b m S).
Qed.
Lemma history_l su u ft p V s0 l args : limit_ready su u ft p s0 -> distinct_printing ft V -> Forall (event_ok ft V s0) l -> good_args ft V args -> length (global_pars ft) <= 1 ->
  same_res same_pair (snd (u_eval su args (u_run su (pt_ref p) l u))) (fitted_with ft (z_heap (u_set u)) p args (signal_after s0 l)).
Proof.
  intros LR DP F Ga Le. destruct (data_is su u ft p s0 LR) as (d & AD & WD & RD).
  destruct (run_uinv su u ft p V s0 LR DP d AD WD RD l F (Some s0) s0 true _ u (start_uinv su u ft p V s0 LR DP d AD RD) (conj eq_refl eq_refl)) as (m & b & L & U & _ & _ & S).
  destruct (eval_uinv su u ft p V s0 LR DP d AD WD RD m b L _ args U Ga _ eq_refl) as (L' & _ & R). unfold signal_after. now rewrite <- (fitted_with_at u ft p args _ b m Le S).
Qed.

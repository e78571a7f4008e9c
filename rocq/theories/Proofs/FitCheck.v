(** Fit.check_fitter. *)
From Coq Require Import Lia.
From Verif Require Import Model.Base Model.PyStr Model.NDArray Model.Param Model.Config Model.Spectra
  Model.Smear Model.Shift Model.FitParam Model.Heap Model.Minimise Model.Fit Model.FitPrepare Model.Limit Model.FitLimit.
From Verif Require Import Spec.AxisSpec Spec.ArraySpec Spec.SpectraSpec Spec.ShrinkSpec Spec.HeapSpec Spec.FitMethodSpec Spec.FitCheckSpec.
From Verif Require Import Proofs.FitSetLemmas Proofs.FitSetReady Proofs.FitMethods.

Lemma first_error_none l : first_error l = None <-> Forall (fun x => x = None) l.
Proof.
  induction l as [|[e|] l IH]; cbn.
  - split; [constructor|reflexivity].
  - split; [discriminate|]. intro H. inversion H; subst. discriminate.
  - rewrite IH. split; intro H; [now constructor|now inversion H].
Qed.
Lemma part_covers z x : check_part (the_roi z) (z_heap z) x = None -> covers z x.
Proof.
  intros H r ps ->. cbn in H. destruct ps as [|a ps]; [discriminate|]. split; [discriminate|]. unfold check_obj in H.
  destruct (abs (z_heap z) r) as [s|]; [|discriminate]. exists s. split; [reflexivity|]. intros d lo hi I. exact (check_spectra_close _ _ H d lo hi I).
Qed.
Lemma covers_part z x : (forall r ps s, x = Some (r, ps) -> abs (z_heap z) r = Some s -> named_axes (s_cfg s)) -> covers z x -> check_part (the_roi z) (z_heap z) x = None.
Proof.
  intros N H. destruct x as [[r ps]|]; [|reflexivity]. destruct (H r ps eq_refl) as (NE & s & A & W). cbn. destruct ps; [congruence|]. unfold check_obj. rewrite A.
  apply check_within; [exact (N r _ s eq_refl A)|exact W].
Qed.
Lemma floating_none config x : check_floating config x = None <-> (forall l ps, x = Some (l, ps) -> l <> [] -> length ps = length l /\ forall r, In r l -> config r = None).
Proof.
  destruct x as [[[|r l] ps]|]; cbn.
  - split; [|reflexivity]. intros _ l ps' E NE. congruence.
  - split.
    + intros H l' ps' E _. injection E as <- <-. destruct ps as [|q ps]; [discriminate|]. cbn in H. destruct (length ps =? length l) eqn:X; [|discriminate].
      apply Nat.eqb_eq in X. split; [cbn; congruence|]. change (first_error (map config (r :: l)) = None) in H. apply first_error_none in H. rewrite Forall_map, Forall_forall in H. exact H.
    + intro H. destruct (H _ _ eq_refl) as (L & C); [discriminate|]. destruct ps as [|q ps]; [discriminate|]. cbn in L. injection L as L. cbn. rewrite L, Nat.eqb_refl.
      change (first_error (map config (r :: l)) = None). apply first_error_none. rewrite Forall_map, Forall_forall. exact C.
  - split; [|reflexivity]. discriminate.
Qed.
Lemma spectra_of_check su z : check_all_spectra (su_config su) z = None -> spectra_ready su z.
Proof.
  unfold check_all_spectra. intro H. destruct (z_data z) as [d|] eqn:D; [|discriminate]. apply first_error_none in H.
  inversion H as [|? ? H1 H']; subst. inversion H' as [|? ? H2 H'']; subst. inversion H'' as [|? ? H3 H3']; subst. inversion H3' as [|? ? H4 H4']; subst. inversion H4' as [|? ? H5 _]; subst.
  constructor; [congruence|rewrite D; now apply part_covers| |now apply part_covers|now apply part_covers|now apply floating_none].
  destruct (z_fixed z); [left; discriminate|]. destruct (z_floating z); [right; discriminate|discriminate].
Qed.
Lemma check_of_spectra su z : axes_named z -> spectra_ready su z -> check_all_spectra (su_config su) z = None.
Proof.
  intros N [S1 S2 S3 S4 S5 S6]. unfold check_all_spectra. destruct (z_data z) as [d|] eqn:D; [|congruence]. apply first_error_none.
  assert (NN : forall x, In x [z_data z; z_fixed z; z_signal z] -> covers z x -> check_part (the_roi z) (z_heap z) x = None).
  { intros x I C. apply covers_part; [|exact C]. intros r ps s E A. exact (N x r ps s I E A). }
  rewrite D in NN.
  constructor; [apply NN; [now left|exact S2]|]. constructor. { destruct (z_fixed z), (z_floating z); try reflexivity. destruct S3; congruence. }
  constructor; [apply NN; [right; now left|exact S4]|]. constructor; [apply NN; [right; right; now left|exact S5]|]. constructor; [now apply floating_none|constructor].
Qed.
Lemma floats_iff z : floats z = true <-> has_floating z.
Proof.
  unfold floats, has_floating. destruct (z_floating z) as [[[|r l] ps]|]; split; try discriminate; try (intros (r0 & l0 & p0 & E); congruence); intros _; eauto.
Qed.
Lemma pars_iff su z : pars_ready su z <-> (if floats z then if (length (su_pars su) =? 0) then Some EIndexError else None
             else if (su_spectra_pars su =? 0) then None else Some EValueError) = None.
Proof.
  unfold pars_ready. rewrite <- floats_iff. destruct (floats z).
  - destruct (su_pars su); cbn; split; try discriminate; try reflexivity. { intros (H & _). now elim (H eq_refl). } intros _. split; [discriminate|congruence].
  - destruct (Nat.eqb_spec (su_spectra_pars su) 0) as [E|E]; split; try reflexivity; try discriminate; [intros _; split; [discriminate|auto]|]. intros (_ & H). elim E. apply H. discriminate.
Qed.
Lemma search_iff su u : search_ready su u <->
  match u_search u with None => Some EAttributeError | Some g => if su_per_bin su then if gs_per_bin g then if su_stat_per_bin su then None else Some EValueError else Some EValueError else None end = None.
Proof.
  unfold search_ready. destruct (u_search u) as [g|].
  - destruct (su_per_bin su), (gs_per_bin g) eqn:G, (su_stat_per_bin su); split; try discriminate; try reflexivity; intro H;
      try (exists g; split; [reflexivity|]; intro X; try discriminate; split; (reflexivity || assumption)).
    all: destruct H as (g' & [= <-] & H); destruct (H eq_refl); congruence.
  - split; [intros (g & E & _); discriminate|discriminate].
Qed.
Lemma ready_of_check su u : fitter_checks su u = None -> fit_is_ready su u.
Proof.
  unfold fitter_checks. intro H. destruct (check_all_spectra (su_config su) (u_set u)) eqn:A; [discriminate|]. split; [now apply spectra_of_check|].
  destruct (if floats (u_set u) then _ else _) eqn:B; [discriminate|]. split; [now apply pars_iff|now apply search_iff].
Qed.
Lemma check_of_ready su u : axes_named (u_set u) -> fit_is_ready su u -> fitter_checks su u = None.
Proof.
  intros N (A & B & C). unfold fitter_checks. rewrite (check_of_spectra su _ N A). apply pars_iff in B. rewrite B. now apply search_iff.
Qed.
Lemma refused_l su u : u_checked u = false -> ~ fit_is_ready su u -> exists e, fit_all su u = (u, Err e).
Proof.
  intros K N. unfold fit_all, check_fitter. rewrite K. destruct (fitter_checks su u) as [e|] eqn:C; [eauto|]. elim N. now apply ready_of_check.
Qed.
Lemma accepted_l su u g : u_checked u = false -> axes_named (u_set u) -> fit_is_ready su u -> u_search u = Some g ->
  (forall y, In y (gs_pars g) -> exists l, snd (get_values (su_grid su) y) = Ok l) -> fit_all su u = run_fit su (u_with_checked u true).
Proof.
  intros K N R S G. unfold fit_all, check_fitter. rewrite K, (check_of_ready su u N R), S.
  assert (X : values_logged (su_grid su) g = None).
  { unfold values_logged. apply first_error_none. rewrite Forall_map, Forall_forall. intros y I. destruct (G y I) as (l & ->). reflexivity. }
  now rewrite X.
Qed.
Lemma reasons_l su u : u_checked u = false ->
  (z_data (u_set u) = None -> fit_all su u = (u, Err ECompatibilityError)) /\
  (axes_named (u_set u) -> spectra_ready su (u_set u) ->
     (has_floating (u_set u) -> su_pars su = [] -> fit_all su u = (u, Err EIndexError)) /\
     (~ has_floating (u_set u) -> su_spectra_pars su <> 0 -> fit_all su u = (u, Err EValueError)) /\
     (pars_ready su (u_set u) -> u_search u = None -> fit_all su u = (u, Err EAttributeError)) /\
     (forall g, pars_ready su (u_set u) -> u_search u = Some g -> su_per_bin su = true -> gs_per_bin g = false \/ su_stat_per_bin su = false -> fit_all su u = (u, Err EValueError))).
Proof.
  intro K. unfold fit_all, check_fitter, fitter_checks. rewrite K. split.
  - intro D. unfold check_all_spectra. now rewrite D.
  - intros N S. rewrite (check_of_spectra su _ N S). rewrite <- floats_iff. split; [|split; [|split]].
    + intros F P. now rewrite F, P.
    + intros F P. destruct (floats (u_set u)); [congruence|]. destruct (Nat.eqb_spec (su_spectra_pars su) 0); [congruence|reflexivity].
    + intros P E. apply pars_iff in P. now rewrite P, E.
    + intros g P E B M. apply pars_iff in P. rewrite P, E, B. destruct M as [-> | ->]; [reflexivity|]. now destruct (gs_per_bin g).
Qed.
Lemma minimiser_l su fps name u : axes_named (u_set u) ->
  (forall r l ps, z_floating (u_set u) = Some (r :: l, ps) -> exists s, abs (z_heap (u_set u)) r = Some s) ->
  (~ spectra_ready su (u_set u) -> exists e, set_minimiser su fps name u = (u, Some e)) /\
  (spectra_ready su (u_set u) -> exists g r s, set_minimiser su fps name u = (Fitter (u_set u) (u_cache u) (u_cur u) (Some g) (u_checked u), None) /\
     gs_pars g = fps /\ gs_per_bin g = su_per_bin su /\ abs (z_heap (u_set u)) r = Some s /\ gs_spec g = map Z.to_nat (get_shape (s_cfg s)) /\
     measured su (u_set u) r).
Proof.
  intros N F. unfold set_minimiser. split.
  - intro H. destruct (check_all_spectra (su_config su) (u_set u)) as [e|] eqn:C; [eauto|]. elim H. now apply spectra_of_check.
  - intro H. rewrite (check_of_spectra su _ N H). destruct H as [S1 S2 S3 S4 S5 S6]. destruct (z_data (u_set u)) as [[d dp]|] eqn:D; [|congruence].
    destruct (S2 d dp eq_refl) as (_ & sd & Ad & _). unfold measured, has_floating.
    destruct (su_per_bin su) eqn:B.
    + destruct (z_floating (u_set u)) as [[[|r l] ps]|] eqn:Z.
      * rewrite Ad. eexists _, d, sd. split; [reflexivity|]. cbn. repeat (split; [auto|]). right. split; [|now exists dp]. intros (_ & r & l & q & E). congruence.
      * destruct (F r l ps eq_refl) as (s & A). rewrite A. eexists _, r, s. split; [reflexivity|]. cbn. repeat (split; [auto|]). left. split; [reflexivity|]. now exists l, ps.
      * rewrite Ad. eexists _, d, sd. split; [reflexivity|]. cbn. repeat (split; [auto|]). right. split; [|now exists dp]. intros (_ & r & l & q & E). congruence.
    + rewrite Ad. eexists _, d, sd. split; [reflexivity|]. cbn. repeat (split; [auto|]). right. split; [|now exists dp]. intros (E & _). discriminate.
Qed.
Lemma minimiser_ready_l su fps name u : axes_named (u_set u) ->
  (forall r l ps, z_floating (u_set u) = Some (r :: l, ps) -> exists s, abs (z_heap (u_set u)) r = Some s) ->
  spectra_ready su (u_set u) -> pars_ready su (u_set u) -> (su_per_bin su = true -> su_stat_per_bin su = true) -> fit_is_ready su (fst (set_minimiser su fps name u)).
Proof.
  intros N F S P B. destruct (minimiser_l su fps name u N F) as (_ & H). destruct (H S) as (g & r & s & -> & _ & G & _). split; [exact S|]. split; [exact P|].
  exists g. split; [reflexivity|]. intro X. split; [congruence|now apply B].
Qed.

(** C97: rebinning, shrinking, smearing, shifting by whole bins and projecting the sum of two
    spectra gives the sum of what they make of the two. *)
From Verif Require Import Model.Base Model.PyStr Model.NDArray Model.Param Model.Config Model.Spectra
  Model.Smear Model.Shift Model.Heap Model.Minimise Model.Fit.
From Verif Require Import Spec.ArraySpec Spec.SpectraSpec Spec.FitRunSpec Spec.FitLimitSpec.
From Verif Require Import Spec.AddUpSpec Proofs.AddUp.
From Verif Require Import Proofs.QcLemmas.
Local Open Scope string_scope.
Local Open Scope list_scope.

(** C97: rebinning and shrinking, whatever is in the bins; *)
Theorem C97_rebin : forall bins, adds_up any_spectrum (fun s => done (rebin bins s)).
Proof. intro bins. exact (op_adds _ (rebin_s bins)). Qed.
Theorem C97_shrink : forall kw, adds_up any_spectrum (fun s => done (shrink kw s)).
Proof. intro kw. exact (op_adds _ (shrink_s kw)). Qed.
(** they are refused for the sum exactly when they are for either part, with the same error. *)
Theorem C97_refused : forall bins kw s o t e, s_cfg o = s_cfg s -> s_add o s = (t, None) ->
  (done (rebin bins t) = Err e <-> done (rebin bins s) = Err e) /\ (done (rebin bins t) = Err e <-> done (rebin bins o) = Err e) /\
  (done (shrink kw t) = Err e <-> done (shrink kw s) = Err e) /\ (done (shrink kw t) = Err e <-> done (shrink kw o) = Err e).
Proof.
  intros bins kw s o t e C A. destruct (op_refused _ (rebin_s bins) s o t e C A) as [R1 R2]. destruct (op_refused _ (shrink_s kw) s o t e C A) as [S1 S2]. auto.
Qed.
(** C97: smearing with weights, whatever is in the bins, for every window and every weight. *)
Theorem C97_smear : forall suffix nsig sigma W par, adds_up any_spectrum (weighted_smear suffix nsig sigma W par).
Proof. exact smear_adds. Qed.
(** C97: shifting by whole bins, for contents that are not negative. *)
Theorem C97_shift_partial : forall suffix shift dim, adds_up nonneg (shift_by_bin suffix shift dim).
Proof. exact shift_adds. Qed.
(** C97: the projections of the sum are the sums of the projections. *)
Theorem C97_project : forall d s o t a b, s_cfg o = s_cfg s -> s_add o s = (t, None) -> project d s = Ok a -> project d o = Ok b ->
  exists c, project d t = Ok c /\ ashape a = ashape c /\ ashape b = ashape c /\
    forall i, valid_idx (ashape c) i -> aget c i = (aget a i + aget b i)%Qc.
Proof. intros d s o t a b C A Pa Pb. destruct (project_s d s o t a b C A Pa Pb) as (c & E & S1 & S2 & G). eauto. Qed.
Theorem C97_nd_project : forall dims s o t a b, s_cfg o = s_cfg s -> s_add o s = (t, None) -> nd_project dims s = Ok a -> nd_project dims o = Ok b ->
  exists c, nd_project dims t = Ok c /\ ashape a = ashape c /\ ashape b = ashape c /\
    forall i, valid_idx (ashape c) i -> aget c i = (aget a i + aget b i)%Qc.
Proof. intros d s o t a b C A Pa Pb. destruct (nd_s d s o t a b C A Pa Pb) as (c & E & S1 & S2 & G). eauto. Qed.

Definition add_ex (x y z w : Z) : spectra :=
  Spec "b_mc" None [("energy_mc", SPar (zq 0) (zq 4) 4)] (ND [4] (fun idx => zq (nth (nth 0 idx 0) [x; y; z; w] 0%Z))) (zq 10) 10 0 [].
Definition shown (r : res spectra) : option (list Qc * Qc) :=
  match r with
  | Ok s => match ashape (s_data s) with [n] => Some (map (fun i => aget (s_data s) [i]) (seq 0 n), s_decays s) | _ => None end
  | Err _ => None
  end.
Lemma ex_nonneg_l x y z w : (0 <= x -> 0 <= y -> 0 <= z -> 0 <= w -> nonneg (add_ex x y z w))%Z.
Proof.
  intros X Y Z W i _. cbn. destruct (nth 0 i 0) as [|[|[|[|[|n]]]]]; cbn [nth]; rewrite <- zq_0; rewrite <- zq_le; first [assumption|apply Z.le_refl|destruct n; apply Z.le_refl].
Qed.
Ltac ex_nonneg := apply ex_nonneg_l; easy.
(** Two spectra with different contents meet the hypotheses of all of these. *)
Example C97_ex :
  let s := add_ex 1 2 3 4 in let o := add_ex 5 0 0 7 in
  s_cfg o = s_cfg s /\ snd (s_add o s) = None /\ nonneg s /\ nonneg o /\
  shown (done (rebin [2%Z] s)) = Some ([zq 3; zq 7], zq 10) /\ shown (done (rebin [2%Z] o)) = Some ([zq 5; zq 7], zq 10) /\
  shown (done (rebin [2%Z] (fst (s_add o s)))) = Some ([zq 8; zq 14], zq 20) /\
  shown (shift_by_bin "_s" (zq 1) "energy_mc" (fst (s_add o s))) = Some ([zq 0; zq 6; zq 2; zq 3], zq 20) /\
  shown (weighted_smear "_r" (zq 1) (fun _ => zq 1) (fun _ _ => zq 1) "energy_mc" s) <> None.
Proof.
  cbn zeta. split; [reflexivity|]. split; [vm_compute; reflexivity|].
  split; [ex_nonneg|]. split; [ex_nonneg|]. split; [vm_compute; reflexivity|]. split; [vm_compute; reflexivity|]. split; [vm_compute; reflexivity|].
  split; [vm_compute; reflexivity|]. vm_compute. discriminate.
Qed.

Lemma same_shown a b : same_spectra a b -> shown (Ok a) = shown (Ok b).
Proof.
  intros [(_ & _ & _ & D & _ & _ & _ & S) G]. cbn. rewrite <- S, <- D. destruct (ashape (s_data a)) as [|n [|]]; try reflexivity.
  do 2 f_equal. apply map_ext_in. intros i I. apply in_seq in I. apply G. constructor; [apply I|constructor].
Qed.
(** What an operation that adds up shows. *)
Lemma adds_shown ok f s o : adds_up ok f -> ok s -> ok o -> s_cfg o = s_cfg s -> snd (s_add o s) = None -> shown (f s) <> None -> shown (f o) <> None ->
  shown (f (fst (s_add o s))) = shown (do s1 <- f s; do o1 <- f o; done (s_add o1 s1)).
Proof.
  intros H K1 K2 C A N1 N2. destruct (s_add o s) as [t [|]] eqn:E; [discriminate|]. destruct (f s) as [s1|] eqn:E1; [|destruct (N1 eq_refl)].
  destruct (f o) as [o1|] eqn:E2; [|destruct (N2 eq_refl)]. destruct (H s o t s1 o1 K1 K2 C E E1 E2) as (t1 & u & T & U & S). cbn [rbind fst]. rewrite T, U. now apply same_shown.
Qed.

(** C97, contents below zero: the slices of a spectrum whose sum is not positive are not moved
    by a shift, so a shifted sum is not the sum of the shifted. *)
Theorem C97_shift_negative_refuted : ~ (forall suffix shift dim, adds_up any_spectrum (shift_by_bin suffix shift dim)).
Proof.
  intro H. specialize (H "_s" (zq 1) "energy_mc").
  assert (E := adds_shown _ _ (add_ex 1 0 0 0) (add_ex (-1) 0 0 0) H I I eq_refl eq_refl ltac:(vm_compute; discriminate) ltac:(vm_compute; discriminate)).
  vm_compute in E. discriminate.
Qed.

(** C97, a shift or a stretch by other than whole bins: what leaves the axis is put back in
    proportion, separately in each spectrum. *)
Definition flat (x y : list Qc) (v : Qc) : Qc := qsum y.
Lemma flat_linear : linear_spline flat.
Proof.
  intros x y c v _. unfold flat, qsum. induction y as [|b y IH]; cbn [map fold_right]; [ring|]. rewrite IH. ring.
Qed.
Theorem C97_interpolated_shift_refuted : ~ (forall spline suffix shift dim, linear_spline spline ->
  adds_up nonneg (fun s => do f <- interpolate1d spline dim s; shift_axis suffix shift f dim s)).
Proof.
  intro H. specialize (H flat "_s" (qq 1 2) "energy_mc" flat_linear).
  assert (E := adds_shown _ _ (add_ex 1 0 0 0) (add_ex 0 0 0 1) H ltac:(ex_nonneg) ltac:(ex_nonneg) eq_refl eq_refl ltac:(vm_compute; discriminate) ltac:(vm_compute; discriminate)).
  vm_compute in E. discriminate.
Qed.
Theorem C97_stretch_refuted : ~ (forall spline suffix sf dim, linear_spline spline ->
  adds_up nonneg (fun s => do f <- interpolate1d spline dim s; scale_axis suffix sf f dim s)).
Proof.
  intro H. specialize (H flat "_s" (qq 3 2) "energy_mc" flat_linear).
  assert (E := adds_shown _ _ (add_ex 1 0 0 0) (add_ex 0 0 1 1) H ltac:(ex_nonneg) ltac:(ex_nonneg) eq_refl eq_refl ltac:(vm_compute; discriminate) ltac:(vm_compute; discriminate)).
  vm_compute in E. discriminate.
Qed.
(** C97, cut: the decays are cut in proportion, separately in each spectrum. *)
Theorem C97_cut_refuted : ~ (forall kw, adds_up nonneg (fun s => done (cut kw s))).
Proof.
  intro H. specialize (H [("energy_mc_high", zq 2)]).
  assert (E := adds_shown _ _ (add_ex 1 0 0 0) (add_ex 0 1 1 2) H ltac:(ex_nonneg) ltac:(ex_nonneg) eq_refl eq_refl ltac:(vm_compute; discriminate) ltac:(vm_compute; discriminate)).
  vm_compute in E. discriminate.
Qed.
Print Assumptions C97_rebin.
Print Assumptions C97_shrink.
Print Assumptions C97_refused.
Print Assumptions C97_smear.
Print Assumptions C97_shift_partial.
Print Assumptions C97_project.
Print Assumptions C97_nd_project.
Print Assumptions C97_shift_negative_refuted.
Print Assumptions C97_interpolated_shift_refuted.
Print Assumptions C97_stretch_refuted.
Print Assumptions C97_cut_refuted.

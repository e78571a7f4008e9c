(** C65: smearing, shifting, stretching, rebinning, shrinking and projecting commute with the
    normalisation of the spectrum. *)
From Verif Require Import Model.Base Model.PyStr Model.NDArray Model.Param Model.Config Model.Spectra
  Model.Smear Model.Shift Model.Heap Model.Minimise Model.Fit.
From Verif Require Import Spec.AxisSpec Spec.ArraySpec Spec.SpectraSpec Spec.SmearSpec Spec.ShiftSpec Spec.FitRunSpec Spec.FitLimitSpec.
From Verif Require Import Proofs.QcLemmas Proofs.HomogLemmas.
Local Open Scope string_scope.

(** C65: smearing a spectrum scaled to any number of decays, and scaling the smeared one. *)
Theorem C65_smear : forall suffix nsig sigma W par, keeps_scaling (weighted_smear suffix nsig sigma W par).
Proof. exact keeps_smear. Qed.
(** C65: shifting and stretching with the interpolation of the spectrum itself. *)
Theorem C65_shift : forall suffix shift spline dim, linear_spline spline ->
  keeps_scaling (fun s => do f <- interpolate1d spline dim s; shift_axis suffix shift f dim s).
Proof. exact keeps_shift. Qed.
Theorem C65_stretch : forall suffix sf spline dim, linear_spline spline ->
  keeps_scaling (fun s => do f <- interpolate1d spline dim s; scale_axis suffix sf f dim s).
Proof. exact keeps_stretch. Qed.
Theorem C65_shrink : forall kw, keeps_scaling (fun s => done (shrink kw s)).
Proof. exact keeps_shrink. Qed.
Theorem C65_rebin : forall bins, keeps_scaling (fun s => done (rebin bins s)).
Proof. exact keeps_rebin. Qed.
(** C65: the projections of the scaled spectrum are the multiples of those of the spectrum. *)
Theorem C65_project : forall n s t dims a, scale n s = (t, None) -> nd_project dims s = Ok a ->
  exists b, nd_project dims t = Ok b /\ ashape b = ashape a /\
    forall i, valid_idx (ashape a) i -> aget b i = (aget a i * (n / s_decays s))%Qc.
Proof. exact project_scaled. Qed.
(** C65: so do the systematic parameters of a fit. *)
Theorem C65_parameters : forall str spline dim n1 n2 s1 s2 w, linear_spline spline ->
  commutes (shift_kind str spline dim) /\ commutes (scale_kind str spline dim) /\ commutes (resolution_kind n1 n2 s1 s2 w dim).
Proof.
  intros. split; [now apply commutes_shift|]. split; [now apply commutes_scale|apply commutes_resolution].
Qed.

Definition norm_ex : spectra :=
  Spec "b_mc" None [("energy_mc", SPar (zq 0) (zq 4) 4)] (ND [4] (fun idx => nq (nth 0 idx 0 + 1))) (zq 10) 10 0 [].
(** C65, what is false: random_smear moves whole events. *)
Theorem C65_random_refuted : ~ (forall draw, keeps_scaling (random_smear "_ly" draw "energy_mc")).
Proof.
  intro H. specialize (H (fun b _ => nq (hd 0%nat b)) (zq 15) norm_ex).
  assert (P : (0 < zq 15 / s_decays norm_ex)%Qc) by (vm_compute; reflexivity). specialize (H P).
  destruct (do s1 <- done (scale (zq 15) norm_ex); random_smear "_ly" (fun b _ => nq (hd 0%nat b)) "energy_mc" s1) as [x|] eqn:E1; [|vm_compute in E1; discriminate].
  destruct (do t <- random_smear "_ly" (fun b _ => nq (hd 0%nat b)) "energy_mc" norm_ex; done (scale (zq 15) t)) as [y|] eqn:E2; [|vm_compute in E2; discriminate].
  destruct H as [(_ & _ & _ & _ & _ & _ & _ & S) H].
  assert (V : valid_idx (ashape (s_data x)) [0%nat]). { vm_compute in E1. injection E1 as <-. cbn. repeat constructor. }
  specialize (H _ V). vm_compute in E1. injection E1 as <-. vm_compute in E2. injection E2 as <-. vm_compute in H. discriminate.
Qed.
(** C65, what is false: cut rescales the number of decays itself, so it does not commute. *)
Theorem C65_cut_refuted : ~ (forall kw, keeps_scaling (fun s => done (cut kw s))).
Proof.
  intro H. specialize (H [("energy_mc_high", zq 2)] (zq 20) norm_ex).
  assert (P : (0 < zq 20 / s_decays norm_ex)%Qc) by (vm_compute; reflexivity). specialize (H P).
  destruct (do s1 <- done (scale (zq 20) norm_ex); done (cut [("energy_mc_high", zq 2)] s1)) as [x|] eqn:E1; [|vm_compute in E1; discriminate].
  destruct (do t <- done (cut [("energy_mc_high", zq 2)] norm_ex); done (scale (zq 20) t)) as [y|] eqn:E2; [|vm_compute in E2; discriminate].
  destruct H as [(_ & _ & _ & D & _) _].
  vm_compute in E1. injection E1 as <-. vm_compute in E2. injection E2 as <-. vm_compute in D. discriminate.
Qed.

(** Example: an interpolation that is linear in the contents, and a shift by part of a bin. *)
Fixpoint step_spline (x y : list Qc) (v : Qc) : Qc :=
  match x, y with
  | a :: x', b :: y' => if qle v a then b else step_spline x' y' v
  | _, _ => 0%Qc
  end.
Example C65_ex :
  linear_spline step_spline /\ (0 < zq 25 / s_decays norm_ex)%Qc /\
  match (do s1 <- done (scale (zq 25) norm_ex); do f <- interpolate1d step_spline "energy_mc" s1; shift_axis "_shift0.3" (qq 3 10) f "energy_mc" s1),
        (do f <- interpolate1d step_spline "energy_mc" norm_ex; shift_axis "_shift0.3" (qq 3 10) f "energy_mc" norm_ex) with
  | Ok a, Ok b => this (s_sum a) = this (zq 25) /\ this (s_sum b) = this (zq 10) /\
      map (fun i => this (aget (s_data a) [i])) [0; 1; 2; 3] = map (fun i => this (aget (s_data b) [i] * qq 5 2)%Qc) [0; 1; 2; 3] /\
      qlt 0 (aget (s_data b) [1]) = true
  | _, _ => False
  end /\
  match (do s1 <- done (scale (zq 25) norm_ex); weighted_smear "_ly" (zq 5) (fun _ => qq 1 4) (fun e m => 1 + (e - m) * (e - m))%Qc "energy_mc" s1) with
  | Ok a => qlt 0 (aget (s_data a) [1]) = true
  | _ => False
  end.
Proof.
  split.
  - intros x. induction x as [|a x IH]; intros [|b y] c v P; cbn [map step_spline]; try ring. destruct (qle v a); [reflexivity|now apply IH].
  - split; [vm_compute; reflexivity|]. split; vm_compute; repeat split.
Qed.

Print Assumptions C65_smear.
Print Assumptions C65_shift.
Print Assumptions C65_stretch.
Print Assumptions C65_shrink.
Print Assumptions C65_rebin.
Print Assumptions C65_project.
Print Assumptions C65_parameters.
Print Assumptions C65_random_refuted.
Print Assumptions C65_cut_refuted.

(** C06-C08: projections. *)
From Verif Require Import Model.Base Model.PyStr Model.NDArray Model.Param Model.Config Model.Spectra.
From Verif Require Import Spec.AxisSpec Spec.ArraySpec Spec.SpectraSpec.
From Verif Require Import Proofs.FillLemmas Proofs.ProjectLemmas Proofs.NDProjectLemmas.
Local Open Scope string_scope.

(** C06: project gives the marginal on the named axis, for any number of dimensions. *)
Theorem C06_project : forall s d axis,
  consistent s -> nth_error (map fst (s_cfg s)) axis = Some d -> NoDup (map fst (s_cfg s)) ->
  exists a, project d s = Ok a /\
    ashape a = [nth axis (ashape (s_data s)) 0] /\
    (forall i, i < nth axis (ashape (s_data s)) 0 ->
       aget a [i] = marginal (ashape (s_data s)) (aget (s_data s)) [axis] [i]) /\
    asum a = s_sum s.
Proof. exact project_l. Qed.
Theorem C06_project_unknown : forall s d,
  ~ In d (map fst (s_cfg s)) -> project d s = Err EIndexError.
Proof. exact project_err_l. Qed.

(** C07: what nd_project computes, for every spectrum and every list of names.  Wanted:
    the axes summed over are those not requested. Actually summed: [drift 0] of them. *)
Theorem C07_nd_project_characterised : forall s dims,
  NoDup (map fst (s_cfg s)) -> consistent s -> NoDup dims ->
  (forall d, In d dims -> In d (map fst (s_cfg s))) ->
  let n := length (s_cfg s) in
  let summed := drift 0 (axes_except n (axes_of (s_cfg s) dims)) in
  (Forall (fun x => x < n) summed ->
   exists a, nd_project dims s = Ok a /\ marginal_of s (axes_except n summed) a /\ asum a = s_sum s) /\
  (Exists (fun x => n <= x) summed -> nd_project dims s = Err EAxisError).
Proof. exact nd_project_char. Qed.
(** C07 holds when at most one axis is summed over (full statement: without the last
    hypothesis; refuted below). *)
Theorem C07_nd_project_partial : forall s dims,
  NoDup (map fst (s_cfg s)) -> consistent s -> NoDup dims ->
  (forall d, In d dims -> In d (map fst (s_cfg s))) ->
  length (s_cfg s) <= length dims + 1 ->
  exists a, nd_project dims s = Ok a /\ marginal_of s (axes_of (s_cfg s) dims) a /\ asum a = s_sum s.
Proof. exact nd_project_partial_l. Qed.
(** C07 is false when two axes are summed over: the wrong marginal, or AxisError. *)
Theorem C07_nd_project_refuted :
  exists s d1 d2, wf_spectra s /\ In d1 (map fst (s_cfg s)) /\ In d2 (map fst (s_cfg s)) /\
    (exists a, nd_project [d1] s = Ok a /\ ~ marginal_of s (axes_of (s_cfg s) [d1]) a) /\
    nd_project [d2] s = Err EAxisError.
Proof. exact nd_project_refuted_l. Qed.

(** C08: likewise for surface: right up to three dimensions, wrong in four. *)
Theorem C08_surface_characterised : forall s d1 d2,
  NoDup (map fst (s_cfg s)) -> consistent s -> d1 <> d2 ->
  In d1 (map fst (s_cfg s)) -> In d2 (map fst (s_cfg s)) ->
  let n := length (s_cfg s) in
  let summed := drift 0 (axes_except n (axes_of (s_cfg s) [d1; d2])) in
  (Forall (fun x => x < n) summed ->
   exists a, surface d1 d2 s = Ok a /\ marginal_of s (axes_except n summed) a /\ asum a = s_sum s) /\
  (Exists (fun x => n <= x) summed -> surface d1 d2 s = Err EAxisError).
Proof. exact surface_char. Qed.
Theorem C08_surface_partial : forall s d1 d2,
  NoDup (map fst (s_cfg s)) -> consistent s -> d1 <> d2 ->
  In d1 (map fst (s_cfg s)) -> In d2 (map fst (s_cfg s)) -> length (s_cfg s) <= 3 ->
  exists a, surface d1 d2 s = Ok a /\ marginal_of s (axes_of (s_cfg s) [d1; d2]) a /\ asum a = s_sum s.
Proof. exact surface_partial_l. Qed.
Theorem C08_surface_refuted :
  exists s d1 d2, wf_spectra s /\ d1 <> d2 /\ In d1 (map fst (s_cfg s)) /\ In d2 (map fst (s_cfg s)) /\
    exists a, surface d1 d2 s = Ok a /\ ~ marginal_of s (axes_of (s_cfg s) [d1; d2]) a.
Proof. exact surface_refuted_l. Qed.

(** A 2 x 3 spectrum: the second marginal. *)
Example C06_ex : exists s a, wf_spectra s /\ nth_error (map fst (s_cfg s)) 1 = Some "b" /\
  project "b" s = Ok a /\ ashape a = [3] /\ map (fun i => this (aget a [i])) [0; 1; 2] = map this [zq 3; zq 5; zq 7].
Proof.
  pose (s := Spec "x" None [("a", SPar (zq 0) (zq 1) 2); ("b", SPar (zq 0) (zq 1) 3)]
    (ND [2; 3] (fun idx => match idx with [i; j] => nq (3 * i + j) | _ => 0%Qc end)) 1 0 0 []).
  assert (F : match project "b" s with Ok a => (ashape a, map (fun i => this (aget a [i])) [0; 1; 2]) | Err _ => ([], []) end
              = ([3], map this [zq 3; zq 5; zq 7])) by (vm_compute; reflexivity).
  exists s. destruct (project "b" s) as [a|e]; [|discriminate F].
  exists a. assert (F1 := f_equal fst F). assert (F2 := f_equal snd F). split.
  - split; [split; [repeat constructor; cbn; intuition congruence|repeat constructor; vm_compute; reflexivity]|reflexivity].
  - split; [reflexivity|]. split; [reflexivity|]. split; [exact F1|exact F2].
Qed.
Example C07_ex : exists s, wf_spectra s /\ length (s_cfg s) <= length ["b"] + 1 /\ NoDup ["b"] /\
  (forall d, In d ["b"] -> In d (map fst (s_cfg s))).
Proof.
  exists (Spec "x" None [("a", SPar (zq 0) (zq 1) 2); ("b", SPar (zq 0) (zq 1) 3)] (azeros [2; 3]) 1 0 0 []).
  split; [split; [split; [repeat constructor; cbn; intuition congruence|repeat constructor; vm_compute; reflexivity]|reflexivity]|].
  split; [cbn; auto|]. split; [repeat constructor; auto|]. cbn; intuition.
Qed.

Print Assumptions C06_project.
Print Assumptions C07_nd_project_characterised.
Print Assumptions C07_nd_project_refuted.
Print Assumptions C08_surface_partial.
Print Assumptions C08_surface_refuted.

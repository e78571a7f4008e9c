(** C99: projecting a spectrum whose other dimensions were transformed. *)
From Verif Require Import Model.Base Model.PyStr Model.NDArray Model.Param Model.Config Model.Spectra Model.Smear.
From Verif Require Import Spec.AxisSpec Spec.ArraySpec Spec.SpectraSpec Spec.RebinSpec Spec.SmearSpec.
From Verif Require Import Proofs.RebinProject Proofs.SmearProject.
Local Open Scope string_scope.
Local Open Scope list_scope.

(** C99: the projection of a rebinned spectrum onto a dimension is the projection of the original
    spectrum with its neighbouring entries merged as that dimension's bins were; the new bins of the
    other dimensions have no influence on it. *)
Theorem C99_project : forall s bs d axis, wf_spectra s -> divides_bins (s_cfg s) bs -> nth_error (map fst (s_cfg s)) axis = Some d ->
  exists s' a b, rebin bs s = (s', None) /\ project d s = Ok a /\ project d s' = Ok b /\ ashape b = [Z.to_nat (nth axis bs 0%Z)] /\
    forall j, j < Z.to_nat (nth axis bs 0%Z) -> aget b [j] = merged (ashape a) [nth axis (merge_factors (s_cfg s) bs) 0] (aget a) [j].
Proof. exact rebin_project_l. Qed.

(** C99: smearing a dimension leaves the projection onto every other one as it was, when nothing is
    lost at the upper end of the smeared axis (the condition of C22). *)
Theorem C99_smear : forall c k par p nsig sigma W suffix s s' axis d,
  wf_spectra s -> s_cfg s = c -> nth_error c k = Some (par, p) -> (forall e m, 0 < W e m)%Qc ->
  (forall src, valid_idx (ashape (s_data s)) src -> aget (s_data s) src <> 0%Qc ->
     (0 < nsig * sigma (middle p (coord k src)))%Qc /\
     ((Z.of_nat (coord k src) + 1 < sp_bins p)%Z \/
      ((2 <= sp_bins p)%Z /\ (bin_width p * qq 1 2 < nsig * sigma (middle p (coord k src)))%Qc))) ->
  weighted_smear suffix nsig sigma W par s = Ok s' -> nth_error (map fst c) axis = Some d -> axis <> k ->
  exists a b, project d s = Ok a /\ project d s' = Ok b /\ ashape b = ashape a /\
    forall j, valid_idx (ashape a) [j] -> aget b [j] = aget a [j].
Proof. exact smear_project_l. Qed.

Definition rp_sp : spectra :=
  Spec "x" None [("energy_mc", SPar 0 (zq 4) 4); ("radial_mc", SPar 0 (zq 6) 6)]
    (ND [4; 6] (fun idx => match idx with [i; j] => nq (6 * i + j) | _ => 0%Qc end)) 1 0 0 [].
(** Four by six bins rebinned to two by three, projected onto the energy. *)
Example C99_ex : wf_spectra rp_sp /\ divides_bins (s_cfg rp_sp) [2; 3]%Z /\ nth_error (map fst (s_cfg rp_sp)) 0 = Some "energy_mc" /\
  (exists a, project "energy_mc" rp_sp = Ok a /\ map (fun i => aget a [i]) (seq 0 4) = map zq [15; 51; 87; 123]%Z) /\
  (exists b, project "energy_mc" (fst (rebin [2; 3]%Z rp_sp)) = Ok b /\ map (fun i => aget b [i]) (seq 0 2) = map zq [66; 210]%Z).
Proof.
  split; [split; [split; [repeat constructor; cbn; intuition congruence|repeat constructor; vm_compute; reflexivity]|reflexivity]|].
  split. { repeat constructor; cbn; [exists 2%Z|exists 2%Z]; reflexivity. }
  split; [reflexivity|]. split; (eexists; split; [reflexivity|vm_compute; reflexivity]).
Qed.
(** The energy smeared over a bin and a half to either side with equal weights. *)
Example C99_smear_ex : (forall e m : Qc, 0 < (fun _ _ => zq 1) e m)%Qc /\
  (forall src, valid_idx (ashape (s_data rp_sp)) src -> aget (s_data rp_sp) src <> 0%Qc ->
     (0 < zq 3 * (fun _ => qq 1 2) (middle (SPar 0 (zq 4) 4) (coord 0 src)))%Qc /\
     ((Z.of_nat (coord 0 src) + 1 < 4)%Z \/
      ((2 <= 4)%Z /\ (bin_width (SPar 0 (zq 4) 4) * qq 1 2 < zq 3 * (fun _ => qq 1 2) (middle (SPar 0 (zq 4) 4) (coord 0 src)))%Qc))) /\
  match weighted_smear "_s" (zq 3) (fun _ => qq 1 2) (fun _ _ => zq 1) "energy_mc" rp_sp with
  | Ok s' => negb (qeq (aget (s_data s') [0; 0]) (aget (s_data rp_sp) [0; 0])) &&
             match project "radial_mc" s' with Ok b => qeq (aget b [1]) (zq 40) | _ => false end
  | _ => false
  end = true.
Proof.
  split; [reflexivity|]. split.
  - intros src _ _. split; [vm_compute; reflexivity|right; split; [discriminate|vm_compute; reflexivity]].
  - vm_compute. reflexivity.
Qed.
Print Assumptions C99_project.
Print Assumptions C99_smear.

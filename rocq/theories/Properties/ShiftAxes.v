(** C101: shifts along different axes. *)
From Verif Require Import Model.Base Model.PyStr Model.NDArray Model.Param Model.Config Model.Spectra Model.Smear Model.Shift.
From Verif Require Import Spec.AxisSpec Spec.ArraySpec Spec.SpectraSpec Spec.SmearSpec Spec.ShiftSpec.
From Verif Require Import Proofs.QcLemmas Proofs.ShiftAxes.
Local Open Scope string_scope.
Local Open Scope list_scope.

(** C101: shifts by whole bins along two different axes give the same contents and description in either
    order. *)
Theorem C101_order : forall c k l dk dl p q suffix suffix' sa sb a b s,
  wf_spectra s -> s_cfg s = c -> nth_error c k = Some (dk, p) -> nth_error c l = Some (dl, q) -> k <> l -> nonneg s ->
  about_bins p sa a -> about_bins q sb b ->
  forall interp interp', exists s1 s2 t1 t2,
    shift_axis suffix sa interp dk s = Ok s1 /\ shift_axis suffix' sb interp' dl s1 = Ok s2 /\
    shift_axis suffix' sb interp' dl s = Ok t1 /\ shift_axis suffix sa interp dk t1 = Ok t2 /\
    same_but_name s2 t2 /\ forall idx, valid_idx (ashape (s_data s)) idx -> aget (s_data s2) idx = aget (s_data t2) idx.
Proof. exact shift_swap_l. Qed.
(** C101: the projection of a shifted spectrum onto the shifted dimension is the projection of the original
    moved by as many bins. With contents below zero it need not be: shift_by_bin drops bins then (C25). *)
Theorem C101_project : forall c k dim p suffix shift d s,
  wf_spectra s -> s_cfg s = c -> nth_error c k = Some (dim, p) -> nonneg s -> about_bins p shift d ->
  forall interp, exists s' a b, shift_axis suffix shift interp dim s = Ok s' /\ project dim s = Ok a /\ project dim s' = Ok b /\ ashape b = ashape a /\
    forall j, valid_idx (ashape a) [j] -> aget b [j] = moved (aget a) 0 (sp_bins p) d [j].
Proof. exact shift_project_l. Qed.

Definition sx_sp : spectra :=
  Spec "x" None [("energy_mc", SPar 0 (zq 3) 3); ("radial_mc", SPar 0 (zq 2) 2)]
    (ND [3; 2] (fun idx => match idx with [i; j] => nq (2 * i + j) | _ => 0%Qc end)) 1 0 0 [].
Definition sx_shown (dim : string) (r : res spectra) : list Qc :=
  match rbind r (project dim) with Ok a => map (fun i => aget a [i]) (seq 0 (nth 0 (ashape a) 0)) | _ => [] end.
(** Up one bin in energy and down one in radius. *)
Example C101_ex : wf_spectra sx_sp /\ nonneg sx_sp /\ about_bins (SPar 0 (zq 3) 3) (zq 1) 1 /\ about_bins (SPar 0 (zq 2) 2) (zq (-1)) (-1) /\
  sx_shown "energy_mc" (Ok sx_sp) = map zq [1; 5; 9]%Z /\
  sx_shown "energy_mc" (shift_axis "_s" (zq 1) (fun x => x) "energy_mc" sx_sp) = map zq [0; 1; 5]%Z /\
  sx_shown "energy_mc" (rbind (shift_axis "_s" (zq 1) (fun x => x) "energy_mc" sx_sp) (shift_axis "_r" (zq (-1)) (fun x => x) "radial_mc")) = map zq [0; 1; 3]%Z.
Proof.
  split; [split; [split; [repeat constructor; cbn; intuition congruence|repeat constructor; vm_compute; reflexivity]|reflexivity]|].
  split. { intros idx _. cbn. destruct idx as [|i [|j [|? ?]]]; first [apply Qcle_refl|apply nq_nonneg]. }
  split. { exists 0%Qc. split; [apply Qc_is_canon; vm_compute; reflexivity|]. repeat split; vm_compute; discriminate. }
  split. { exists 0%Qc. split; [apply Qc_is_canon; vm_compute; reflexivity|]. repeat split; vm_compute; discriminate. }
  repeat split; vm_compute; reflexivity.
Qed.
Print Assumptions C101_order.
Print Assumptions C101_project.

(** C09-C11: rebinning. *)
From Verif Require Import Model.Base Model.PyStr Model.NDArray Model.Param Model.Config Model.Spectra.
From Verif Require Import Spec.AxisSpec Spec.ArraySpec Spec.SpectraSpec Spec.RebinSpec.
From Verif Require Import Proofs.RebinLemmas.
Local Open Scope string_scope.

(** C09: every new bin is the sum of the old bins that fall into it; bounds, names, decays
    and the total are unchanged. *)
Theorem C09_rebin : forall s bs,
  wf_spectra s -> divides_bins (s_cfg s) bs ->
  exists s', rebin bs s = (s', None) /\ wf_spectra s' /\
    s_cfg s' = set_bins (s_cfg s) bs /\
    s_decays s' = s_decays s /\ s_raw s' = s_raw s /\ s_name s' = s_name s /\ s_rois s' = s_rois s /\
    (forall key, valid_idx (ashape (s_data s')) key ->
       aget (s_data s') key = merged (ashape (s_data s)) (merge_factors (s_cfg s) bs) (aget (s_data s)) key) /\
    s_sum s' = s_sum s.
Proof. exact rebin_l. Qed.

(** C10: rebinning in two steps is rebinning in one; rebinning to the current numbers is
    the identity. *)
Theorem C10_rebin_compose : forall s a b,
  wf_spectra s -> divides_bins (s_cfg s) a -> divides_bins (set_bins (s_cfg s) a) b ->
  exists s1 s2 s3, rebin a s = (s1, None) /\ rebin b s1 = (s2, None) /\ rebin b s = (s3, None) /\ same_spectra s2 s3.
Proof. exact rebin_compose_l. Qed.
Theorem C10_rebin_identity : forall s,
  wf_spectra s -> exists s', rebin (get_shape (s_cfg s)) s = (s', None) /\ same_spectra s' s.
Proof. exact rebin_identity_l. Qed.

(** C11: a rejected rebin never touches the data; it has no effect at all if the number of
    dimensions is wrong or already the first new number is unusable.  Missing for the full
    statement: rejection by a later dimension, which is refuted below. *)
Theorem C11_rebin_rejected_data : forall bs s e,
  snd (rebin bs s) = Some e -> s_data (fst (rebin bs s)) = s_data s.
Proof. exact rebin_rejected_data_l. Qed.
Theorem C11_rebin_rejected_partial : forall bs s,
  length bs <> length (s_cfg s) \/
  (exists v p c b bs', s_cfg s = (v, p) :: c /\ bs = b :: bs' /\ (b = 0 \/ ~ (b | sp_bins p))%Z) ->
  exists e, rebin bs s = (s, Some e) /\ (e = EValueError \/ e = EZeroDivisionError).
Proof. exact rebin_rejected_partial_l. Qed.
Theorem C11_rebin_rejected_refuted :
  exists s bs s' e, wf_spectra s /\ rebin bs s = (s', Some e) /\ s_cfg s' <> s_cfg s /\ ~ consistent s'.
Proof. exact rebin_refuted_l. Qed.

(** 4 x 6 -> 2 x 3 -> 1 x 3. *)
Definition ex46 : spectra :=
  Spec "x" None [("a", SPar (zq 0) (zq 1) 4); ("b", SPar (zq 0) (zq 3) 6)]
    (ND [4; 6] (fun idx => match idx with [i; j] => nq (6 * i + j) | _ => 0%Qc end)) 1 0 0 [].
Example C09_ex : wf_spectra ex46 /\ divides_bins (s_cfg ex46) [2; 3]%Z /\
  divides_bins (set_bins (s_cfg ex46) [2; 3]%Z) [1; 3]%Z /\
  this (aget (s_data (fst (rebin [2; 3]%Z ex46))) [1; 2]) = this (nq (16 + 17 + 22 + 23)).
Proof.
  split; [split; [split; [repeat constructor; cbn; intuition congruence|repeat constructor; vm_compute; reflexivity]|reflexivity]|].
  split; [|split; [|vm_compute; reflexivity]].
  - constructor; [split; [reflexivity|exists 2%Z; reflexivity]|].
    constructor; [split; [reflexivity|exists 2%Z; reflexivity]|constructor].
  - constructor; [split; [reflexivity|exists 2%Z; reflexivity]|].
    constructor; [split; [reflexivity|exists 1%Z; reflexivity]|constructor].
Qed.
Example C11_ex : snd (rebin [3; 3]%Z ex46) = Some EValueError /\ snd (rebin [2]%Z ex46) = Some EValueError.
Proof. split; vm_compute; reflexivity. Qed.

Print Assumptions C09_rebin.
Print Assumptions C10_rebin_compose.
Print Assumptions C10_rebin_identity.
Print Assumptions C11_rebin_rejected_partial.
Print Assumptions C11_rebin_rejected_refuted.

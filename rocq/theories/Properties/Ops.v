(** C17-C20 and C56: scaling, adding, histories of operations, background names. *)
From Verif Require Import Model.Base Model.PyStr Model.NDArray Model.Param Model.Config Model.Spectra.
From Verif Require Import Spec.AxisSpec Spec.ArraySpec Spec.SpectraSpec Spec.RebinSpec Spec.ShrinkSpec Spec.OpsSpec.
From Verif Require Import Proofs.QcLemmas Proofs.OpsLemmas Proofs.NameLemmas.
Local Open Scope string_scope.

(** C17 *)
Theorem C17_scale : forall s n,
  s_decays s <> 0%Qc ->
  exists s', scale n s = (s', None) /\ s_decays s' = n /\ s_cfg s' = s_cfg s /\ s_raw s' = s_raw s /\
    s_name s' = s_name s /\ s_rois s' = s_rois s /\ ashape (s_data s') = ashape (s_data s) /\
    (forall idx, aget (s_data s') idx = (aget (s_data s) idx * (n / s_decays s))%Qc) /\
    s_sum s' = (s_sum s * (n / s_decays s))%Qc.
Proof. exact scale_l. Qed.
Theorem C17_scale_compose : forall s a b,
  s_decays s <> 0%Qc -> a <> 0%Qc ->
  exists s1 s2 s3, scale a s = (s1, None) /\ scale b s1 = (s2, None) /\ scale b s = (s3, None) /\ same_spectra s2 s3.
Proof. exact scale_compose_l. Qed.
Theorem C17_scale_inverse : forall s n,
  s_decays s <> 0%Qc -> n <> 0%Qc ->
  exists s1 s2, scale n s = (s1, None) /\ scale (s_decays s) s1 = (s2, None) /\ same_spectra s2 s.
Proof. exact scale_inverse_l. Qed.
Theorem C17_scale_zero : forall s n, s_decays s = 0%Qc -> scale n s = (s, Some EZeroDivisionError).
Proof. exact scale_zero_l. Qed.

(** C18 *)
Theorem C18_add : forall s o s',
  s_add o s = (s', None) ->
  ashape (s_data s) = ashape (s_data o) /\ ashape (s_data s') = ashape (s_data s) /\
  (forall idx, aget (s_data s') idx = (aget (s_data s) idx + aget (s_data o) idx)%Qc) /\
  s_decays s' = (s_decays s + s_decays o)%Qc /\ s_raw s' = (s_raw s + s_raw o)%Z /\
  s_cfg s' = s_cfg s /\ s_name s' = s_name s /\ s_rois s' = s_rois s /\ s_bg s' = s_bg s /\ s_bipo s' = s_bipo s /\
  s_sum s' = (s_sum s + s_sum o)%Qc.
Proof. exact add_l. Qed.
Theorem C18_add_rejected : forall s o s' e, s_add o s = (s', Some e) -> s' = s.
Proof. exact add_rejected_l. Qed.
Theorem C18_add_comm : forall s o a b,
  s_add o s = (a, None) -> s_add s o = (b, None) ->
  ashape (s_data a) = ashape (s_data b) /\ (forall idx, aget (s_data a) idx = aget (s_data b) idx) /\
  s_decays a = s_decays b /\ s_raw a = s_raw b.
Proof. exact add_comm_l. Qed.

(** C19.  Missing for the full statement: spectra that list their dimensions in different
    orders, for which it is false. *)
Theorem C19_add_regions_partial : forall s o s',
  s_add o s = (s', None) ->
  map get_dim (map fst (s_cfg s)) = map get_dim (map fst (s_cfg o)) -> NoDup (map get_dim (map fst (s_cfg s))) ->
  same_regions (s_cfg s) (s_cfg o).
Proof. exact add_regions_l. Qed.
Theorem C19_add_regions_names_partial : forall s o s',
  s_add o s = (s', None) -> map fst (s_cfg s) = map fst (s_cfg o) -> NoDup (map fst (s_cfg s)) ->
  same_regions (s_cfg s) (s_cfg o).
Proof. exact add_regions_names_l. Qed.
Theorem C19_add_regions_refuted :
  exists s o s', wf_spectra s /\ wf_spectra o /\ s_add o s = (s', None) /\ ~ same_regions (s_cfg s) (s_cfg o).
Proof. exact add_regions_refuted_l. Qed.

(** C20 *)
Theorem C20_history : forall h s, wf_spectra s -> ops_ok h s -> wf_spectra (run do_op h s).
Proof. exact history_l. Qed.
Theorem C20_history_nonneg : forall h s,
  wf_spectra s -> ops_ok h s -> Forall op_nonneg h -> nonneg s -> (0 <= s_decays s)%Qc -> nonneg (run do_op h s).
Proof. exact history_nonneg_l. Qed.

(** C56.  The last theorem shows why the first marker found in the fixed order mc, mix,
    reco has to be the first one in the name. *)
Theorem C56_name_set : forall s b, b <> "" -> s_bg s = Some b -> get_background_name s = (s, Ok b).
Proof. exact name_set_l. Qed.
Theorem C56_name_mc_partial : forall s bg rest,
  s_bg s = None \/ s_bg s = Some "" -> s_name s = (bg ++ "_" ++ "mc" ++ rest)%string -> contains "mc" bg = false ->
  snd (get_background_name s) = Ok bg.
Proof. exact name_mc_l. Qed.
Theorem C56_name_mix_partial : forall s bg rest,
  s_bg s = None \/ s_bg s = Some "" -> s_name s = (bg ++ "_" ++ "mix" ++ rest)%string ->
  contains "mc" (s_name s) = false -> contains "mix" bg = false ->
  snd (get_background_name s) = Ok bg.
Proof. exact name_mix_l. Qed.
Theorem C56_name_reco_partial : forall s bg rest,
  s_bg s = None \/ s_bg s = Some "" -> s_name s = (bg ++ "_" ++ "reco" ++ rest)%string ->
  contains "mc" (s_name s) = false -> contains "mix" (s_name s) = false -> contains "reco" bg = false ->
  snd (get_background_name s) = Ok bg.
Proof. exact name_reco_l. Qed.
Theorem C56_name_stable : forall s,
  snd (get_background_name (fst (get_background_name s))) = snd (get_background_name s) /\
  s_name (fst (get_background_name s)) = s_name s /\ s_data (fst (get_background_name s)) = s_data s /\
  s_cfg (fst (get_background_name s)) = s_cfg s /\ s_decays (fst (get_background_name s)) = s_decays s.
Proof. exact name_stable_l. Qed.
Theorem C56_name_error : forall s,
  snd (get_background_name s) = Err EValueError <->
  (s_bg s = None \/ s_bg s = Some "") /\ contains "mc" (s_name s) = false /\ contains "mix" (s_name s) = false /\ contains "reco" (s_name s) = false.
Proof. exact name_error_l. Qed.
Theorem C56_name_refuted :
  exists s bg, s_bg s = None /\ s_name s = (bg ++ "_mix_mcfit")%string /\ snd (get_background_name s) <> Ok bg.
Proof. exact name_refuted_l. Qed.

(** Non-vacuity. *)
Definition exs : spectra :=
  Spec "Te130_2n2b_mc_smeared" None [("energy_mc", SPar (zq 0) (zq 10) 4); ("radial_mc", SPar (zq 0) (zq 6) 2)]
    (ND [4; 2] (fun idx => match idx with [i; j] => nq (2 * i + j) | _ => 0%Qc end)) (zq 10) 3 0 [].
Definition exo : spectra :=
  Spec "data" None [("energy_reco", SPar (zq 0) (zq 10) 4); ("radial_reco", SPar (zq 0) (zq 6) 2)]
    (ND [4; 2] (fun _ => 1%Qc)) (zq 2) 8 0 [].
Lemma exs_wf : wf_spectra exs.
Proof. split; [split; [repeat constructor; cbn; intuition congruence|repeat constructor; vm_compute; reflexivity]|reflexivity]. Qed.
Example C17_ex : s_decays exs <> 0%Qc. Proof. intro H. apply (f_equal this) in H. discriminate. Qed.
Example C18_ex : snd (s_add exo exs) = None /\ snd (s_add exs exo) = None.
Proof. split; vm_compute; reflexivity. Qed.
Example C19_ex : map get_dim (map fst (s_cfg exs)) = ["energy"; "radial"] /\
  map get_dim (map fst (s_cfg exo)) = ["energy"; "radial"].
Proof. split; vm_compute; reflexivity. Qed.
Definition exh : list op :=
  [OFill (zq 2) [("energy_mc", zq 3); ("radial_mc", zq 5)]; OScale (zq 20); OAdd exo; ORebin [2; 2]%Z;
   OShrink [("energy_mc_low", zq 5)]].
Example C20_ex : ops_ok exh exs /\ Forall op_nonneg exh /\ nonneg exs.
Proof.
  assert (E : forall b, op_nonneg (OScale b) -> (0 <= b)%Qc) by (intros b H; exact H).
  split; [|split].
  - cbn [ops_ok exh]. unfold op_ok. repeat (split; [vm_compute; reflexivity|] || (split; [split; [vm_compute; reflexivity|exact I]|])).
    split; [|exact I]. split; [vm_compute; reflexivity|]. split.
    + intros k x [H|[]]. injection H as <- <-. exists "energy_mc". eexists. split; [reflexivity|]. left. split; [reflexivity|].
      vm_compute. discriminate.
    + intros v p H. vm_compute in H.
      destruct v as [|a v]; [discriminate|]. revert H.
      repeat match goal with |- context [if ?b then _ else _] => destruct b end; intro H;
        try discriminate; injection H as <-; vm_compute; reflexivity.
  - repeat constructor; cbn; try (vm_compute; discriminate); try (intros idx _; vm_compute; discriminate).
  - intros idx _. cbn. destruct idx as [|i [|j [|]]]; try (vm_compute; discriminate). apply nq_nonneg.
Qed.
Example C56_ex : snd (get_background_name exs) = Ok "Te130_2n2b" /\ contains "mc" "Te130_2n2b" = false.
Proof. split; vm_compute; reflexivity. Qed.

Print Assumptions C17_scale.
Print Assumptions C17_scale_compose.
Print Assumptions C17_scale_inverse.
Print Assumptions C17_scale_zero.
Print Assumptions C18_add.
Print Assumptions C18_add_rejected.
Print Assumptions C18_add_comm.
Print Assumptions C19_add_regions_partial.
Print Assumptions C19_add_regions_names_partial.
Print Assumptions C19_add_regions_refuted.
Print Assumptions C20_history.
Print Assumptions C20_history_nonneg.
Print Assumptions C56_name_set.
Print Assumptions C56_name_mc_partial.
Print Assumptions C56_name_mix_partial.
Print Assumptions C56_name_reco_partial.
Print Assumptions C56_name_stable.
Print Assumptions C56_name_error.
Print Assumptions C56_name_refuted.

(** The projections of a smeared spectrum onto the other dimensions. *)
From Coq Require Import Lia.
From Verif Require Import Model.Base Model.PyStr Model.NDArray Model.Param Model.Config Model.Spectra Model.Smear.
From Verif Require Import Spec.AxisSpec Spec.ArraySpec Spec.SpectraSpec Spec.SmearSpec.
From Verif Require Import Proofs.QcLemmas Proofs.NDArrayLemmas Proofs.ParamLemmas Proofs.DictLemmas
  Proofs.FillLemmas Proofs.ProjectLemmas Proofs.SmearLemmas Proofs.RebinProject.

Lemma smear_project_l c k par p nsig sigma W suffix s s' axis d :
  wf_spectra s -> s_cfg s = c -> nth_error c k = Some (par, p) -> (forall e m, 0 < W e m)%Qc ->
  (forall src, valid_idx (ashape (s_data s)) src -> aget (s_data s) src <> 0%Qc ->
     (0 < nsig * sigma (middle p (coord k src)))%Qc /\
     ((Z.of_nat (coord k src) + 1 < sp_bins p)%Z \/
      ((2 <= sp_bins p)%Z /\ (bin_width p * qq 1 2 < nsig * sigma (middle p (coord k src)))%Qc))) ->
  weighted_smear suffix nsig sigma W par s = Ok s' -> nth_error (map fst c) axis = Some d -> axis <> k ->
  exists a b, project d s = Ok a /\ project d s' = Ok b /\ ashape b = ashape a /\
    forall j, valid_idx (ashape a) [j] -> aget b [j] = aget a [j].
Proof.
  intros Ws Ec Hk HW R E Na Ne. pose proof Ws as [[NDp Wa] Cs]. assert (Wc : wf_cfg (s_cfg s)) by (split; assumption).
  pose proof Cs as Cs0. unfold consistent in Cs. rewrite Ec in Wc, Cs, NDp.
  destruct (smear_kernel_l c k par p nsig sigma W Wc Hk HW) as (K & (_ & K2 & _ & K4) & H).
  destruct (H suffix s Ws Ec) as (s1 & E1 & _ & S). rewrite E in E1. injection E1 as <-.
  destruct S as (_ & Cf & _ & _ & _ & _ & Sh & C).
  assert (Cs' : consistent s') by (unfold consistent; rewrite Sh, Cf; exact Cs0).
  destruct (project_l s d axis Cs0) as (a & Pa & Sa & Ga & _); [rewrite Ec; exact Na|rewrite Ec; exact NDp|].
  destruct (project_l s' d axis Cs') as (b & Pb & Sb & Gb & _); [rewrite Cf, Ec; exact Na|rewrite Cf, Ec; exact NDp|].
  exists a, b. split; [exact Pa|]. split; [exact Pb|]. split; [now rewrite Sa, Sb, Sh|]. intros j V. rewrite Sa in V. inversion V as [|? ? ? ? J _]; subst.
  rewrite Ga by exact J. rewrite Gb by (rewrite Sh; exact J). unfold marginal. rewrite Sh, !sum_where_over.
  set (sh := ashape (s_data s)) in *. set (f := aget (s_data s)) in *.
  set (P := fun idx : list nat => if list_eq_dec Nat.eq_dec (map (fun ax => nth ax idx 0) [axis]) [j] then true else false).
  transitivity (sum_over sh (fun tgt => sum_over sh (fun src => if P src then (f src * K src tgt)%Qc else 0%Qc))).
  - apply sum_over_ext. intros tgt Vt. change (if list_eq_dec Nat.eq_dec (map (fun ax => nth ax tgt 0) [axis]) [j] then true else false) with (P tgt).
    rewrite C by exact Vt. rewrite total_sum_over.
    transitivity (sum_over sh (fun src => if P tgt then (f src * K src tgt)%Qc else 0%Qc)).
    { destruct (P tgt); [reflexivity|]. symmetry. now apply sum_over_0. }
    apply sum_over_ext. intros src Vs. destruct (qeqP (K src tgt) 0) as [Z|NZ]; [rewrite Z; destruct (P tgt), (P src); ring|].
    rewrite Cs in Vs, Vt. destruct (K2 src tgt Vs Vt NZ) as [[_ L] _]. unfold P. cbn [map]. specialize (L axis Ne). unfold coord in L. now rewrite L.
  - rewrite sum_over_swap. apply sum_over_ext. intros src Vs. change (if list_eq_dec Nat.eq_dec (map (fun ax => nth ax src 0) [axis]) [j] then true else false) with (P src).
    destruct (P src); [|now apply sum_over_0].
    destruct (qeqP (f src) 0) as [Z|NZ]; [rewrite Z; apply sum_over_0; intros; ring|].
    destruct (R src Vs NZ) as [R1 R2]. rewrite Cs in Vs. pose proof (K4 src Vs R1 R2) as T. rewrite total_sum_over in T.
    transitivity (sum_over sh (K src) * f src)%Qc; [|rewrite Cs; rewrite T; ring].
    rewrite <- sum_over_scale. apply sum_over_ext. intros. ring.
Qed.

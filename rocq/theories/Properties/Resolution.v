(** C24: the arithmetic of re-smearing. *)
From Coq Require Import Reals Lra.
From Verif Require Import Model.Base Model.Resolution Proofs.ResolutionLemmas.
Local Open Scope R_scope.

(** Smearing data of light yield [cur] with the light yield returned by calc_smear_ly
    gives, at every energy, the variance of light yield [new]. *)
Theorem C24_light_yield : forall own new cur, 0 < new -> new < cur ->
  exists ly, calc_smear_ly own new (Some cur) = Ok ly /\ 0 < ly /\ set_ly ly = Ok ly /\
    forall e, 0 <= e -> ly_sigma cur e ^ 2 + ly_sigma ly e ^ 2 = ly_sigma new e ^ 2.
Proof. exact ly_compose_l. Qed.
Theorem C24_light_yield_better : forall own new cur,
  cur <> 0 -> cur < new -> calc_smear_ly own new (Some cur) = Err EValueError.
Proof. exact ly_better_l. Qed.
(** An unset (or zero) current value means the object's own. *)
Theorem C24_light_yield_default : forall own new,
  calc_smear_ly own new None = calc_smear_ly own new (Some 0).
Proof. exact ly_default_l. Qed.
(** Re-smearing to the current light yield is not the identity but an error. *)
Theorem C24_light_yield_equal_refuted : forall own cur,
  cur <> 0 -> calc_smear_ly own cur (Some cur) = Err EZeroDivisionError.
Proof. exact ly_equal_l. Qed.
(** The same for resolutions; equal resolutions are allowed here. *)
Theorem C24_resolution : forall own new cur, 0 < cur -> cur <= new ->
  exists r, calc_smear_res own new (Some cur) = Ok r /\ 0 <= r /\
    forall e, 0 <= e -> res_sigma cur e ^ 2 + res_sigma r e ^ 2 = res_sigma new e ^ 2.
Proof. exact res_compose_l. Qed.
Theorem C24_resolution_better : forall own new cur,
  cur <> 0 -> new < cur -> calc_smear_res own new (Some cur) = Err EValueError.
Proof. exact res_better_l. Qed.
Theorem C24_resolution_default : forall own new,
  calc_smear_res own new None = calc_smear_res own new (Some 0).
Proof. exact res_default_l. Qed.

(** set_resolution accepts exactly the positive light yields, and the resolutions between 0 and 1. *)
Theorem C24_set_light_yield : forall ly, (0 < ly -> set_ly ly = Ok ly) /\ (ly <= 0 -> set_ly ly = Err EValueError).
Proof. intro ly. unfold set_ly. destruct (Rlt_dec 0 ly); split; intro; first [reflexivity|lra]. Qed.
Theorem C24_set_resolution : forall r, (0 < r < 1 -> set_res r = Ok r) /\ (r <= 0 \/ 1 <= r -> set_res r = Err EValueError).
Proof.
  intro r. unfold set_res. destruct (Rlt_dec 0 r); [destruct (Rlt_dec r 1)|]; split; intro; first [reflexivity|lra].
Qed.
(** The resolution returned by calc_smear_res is accepted if the new one is really worse ... *)
Theorem C24_resolution_usable : forall own new cur, 0 < cur -> cur < new -> new < 1 ->
  exists r, calc_smear_res own new (Some cur) = Ok r /\ set_res r = Ok r.
Proof. exact res_usable_l. Qed.
(** ... but not if it is equal: calc_smear_res returns 0, which set_resolution refuses. *)
Theorem C24_resolution_equal_refuted : forall own cur, cur <> 0 ->
  calc_smear_res own cur (Some cur) = Ok 0 /\ set_res 0 = Err EValueError.
Proof. exact res_equal_l. Qed.

Example C24_ex : (0 < 160 /\ 160 < 200) /\ (0 < 0.05 /\ 0.05 <= 0.07).
Proof. lra. Qed.

Print Assumptions C24_light_yield.
Print Assumptions C24_resolution.
Print Assumptions C24_set_light_yield.
Print Assumptions C24_set_resolution.
Print Assumptions C24_resolution_usable.
Print Assumptions C24_resolution_equal_refuted.

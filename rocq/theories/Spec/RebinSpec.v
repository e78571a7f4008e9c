(** Specification of rebinning: merging neighbouring bins. *)
From Verif Require Import Model.Base Model.PyStr Model.NDArray Model.Param Model.Config Model.Spectra.
From Verif Require Import Spec.AxisSpec Spec.ArraySpec Spec.SpectraSpec.

(** New bin numbers that divide the old ones, one for each parameter. *)
Definition divides_bins (c : sconfig) (new_bins : list Z) : Prop :=
  Forall2 (fun kp b => (0 < b)%Z /\ (b | sp_bins (snd kp))%Z) c new_bins.

(** How many old bins go into each new one, per axis. *)
Fixpoint merge_factors (c : sconfig) (new_bins : list Z) : list nat :=
  match c, new_bins with
  | (_, p) :: c', b :: bs => Z.to_nat (sp_bins p / b) :: merge_factors c' bs
  | _, _ => []
  end.

(** The new bin into which an old bin falls. *)
Fixpoint coarse (r idx : list nat) : list nat :=
  match r, idx with
  | n :: r', i :: idx' => i / n :: coarse r' idx'
  | _, _ => []
  end.

(** Sum of all old bins that fall into the new bin [key]. *)
Definition merged (sh r : list nat) (f : list nat -> Qc) (key : list nat) : Qc :=
  sum_where sh f (fun idx => if list_eq_dec Nat.eq_dec (coarse r idx) key then true else false).

(** The configuration with other bin numbers, same names and bounds. *)
Fixpoint set_bins (c : sconfig) (new_bins : list Z) : sconfig :=
  match c, new_bins with
  | (v, p) :: c', b :: bs => (v, SPar (sp_low p) (sp_high p) b) :: set_bins c' bs
  | _, _ => c
  end.

(** What it means to move a histogram along one axis. *)
From Verif Require Import Model.Base Model.PyStr Model.NDArray Model.Param Model.Config Model.Spectra.
From Verif Require Import Spec.AxisSpec Spec.ArraySpec Spec.SpectraSpec Spec.SmearSpec.

(** The bin [idx] with its index on axis [k] replaced by [b]. *)
Definition at_bin (k b : nat) (idx : list nat) : list nat := firstn k idx ++ b :: skipn (S k) idx.

(** Content of bin [idx] after moving [f] by [d] bins along axis [k] of [n] bins: the
    content [d] bins below, nothing if that is outside the axis. *)
Definition moved (f : list nat -> Qc) (k : nat) (n d : Z) (idx : list nat) : Qc :=
  let b := (Z.of_nat (coord k idx) - d)%Z in
  if ((0 <=? b) && (b <? n))%Z then f (at_bin k (Z.to_nat b) idx) else 0%Qc.

(** Same description; only name and contents differ. *)
Definition same_but_name (s s' : spectra) : Prop :=
  s_bg s' = s_bg s /\ s_cfg s' = s_cfg s /\ s_decays s' = s_decays s /\ s_raw s' = s_raw s /\
  s_bipo s' = s_bipo s /\ s_rois s' = s_rois s /\ ashape (s_data s') = ashape (s_data s).

(** [shift] is [d] widths of [p] up to a remainder that numpy.isclose takes for zero and
    that is at most half a bin. *)
Definition about_bins (p : spar) (shift : Qc) (d : Z) : Prop :=
  exists r, shift = (zq d * bin_width p + r)%Qc /\ (0 <= r)%Qc /\
    (r <= qq 1 100000000)%Qc /\ (r <= bin_width p * qq 1 2)%Qc.

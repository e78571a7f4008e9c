(** What a binned axis is, independent of the model's lookup functions. *)
From Verif Require Import Model.Base Model.Param.

(** A usable axis: non-empty range and at least one bin. *)
Definition wf_axis (p : spar) : Prop := (sp_low p < sp_high p)%Qc /\ (0 < sp_bins p)%Z.

Definition bin_width (p : spar) : Qc := ((sp_high p - sp_low p) / zq (sp_bins p))%Qc.

(** The i-th bin edge, i = 0 .. bins. *)
Definition edge (p : spar) (i : Z) : Qc := (sp_low p + zq i * bin_width p)%Qc.

(** x lies in the i-th bin, lower edge included, upper edge excluded. *)
Definition in_bin (p : spar) (i : Z) (x : Qc) : Prop := (edge p i <= x)%Qc /\ (x < edge p (i + 1))%Qc.

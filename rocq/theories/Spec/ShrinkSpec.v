(** Specification of shrinking a spectrum to a range. *)
From Verif Require Import Model.Base Model.PyStr Model.NDArray Model.Param Model.Config Model.Spectra.
From Verif Require Import Spec.AxisSpec Spec.ArraySpec Spec.SpectraSpec.
Local Open Scope string_scope.

(** The bin [i] and the range [lo, hi) have points in common. *)
Definition overlaps (p : spar) (lo hi : Qc) (i : Z) : Prop := (lo < edge p (i + 1))%Qc /\ (edge p i < hi)%Qc.
(** ... at least a hundredth of a bin of them, seen from either end. *)
Definition substantial (p : spar) (lo hi : Qc) (i : Z) : Prop :=
  (lo + bin_width p * qq 1 100 <= edge p (i + 1))%Qc /\ (edge p i + bin_width p * qq 1 100 <= hi)%Qc.
Definition on_edge (p : spar) (x : Qc) : Prop := exists k, x = edge p k.

(** The lower bound of the axis is a multiple of its bin width. *)
Definition aligned (p : spar) : Prop := exists m, sp_low p = (zq m * bin_width p)%Qc.

(** The range requested by the keywords for one parameter (default: its bounds). *)
Definition req_low (kw : dict Qc) (v : string) (p : spar) : Qc :=
  match dget (v ++ "_low") kw with Some x => x | None => sp_low p end.
Definition req_high (kw : dict Qc) (v : string) (p : spar) : Qc :=
  match dget (v ++ "_high") kw with Some x => x | None => sp_high p end.

(** Only known keywords are given, and each bound is inside the axis. *)
Definition good_keywords (c : sconfig) (kw : dict Qc) : Prop :=
  forall k x, In (k, x) kw ->
    exists v p, dget v c = Some p /\
      ((k = v ++ "_low" /\ sp_low p <= x) \/ (k = v ++ "_high" /\ x <= sp_high p))%Qc.

(** [p'] is [p] restricted to the bins [start .. start + bins p' - 1]. *)
Definition sub_axis (p p' : spar) (start : nat) : Prop :=
  sp_low p' = edge p (Z.of_nat start) /\ sp_high p' = edge p (Z.of_nat start + sp_bins p') /\
  bin_width p' = bin_width p.

(** [c'] is [c] with every axis restricted to the bins satisfying [P] (which form a block);
    [starts] lists the first kept bin of every axis. *)
Definition restricted (P : string -> spar -> Z -> Prop) (c c' : sconfig) (starts : list nat) : Prop :=
  length c' = length c /\ length starts = length c /\
  forall k v p, nth_error c k = Some (v, p) ->
    exists p' st, nth_error c' k = Some (v, p') /\ nth_error starts k = Some st /\ sub_axis p p' st /\
      forall i, P v p i <-> (Z.of_nat st <= i < Z.of_nat st + sp_bins p')%Z.

(** [s'] is [s] restricted to a block of bins: same contents, everything else unchanged. *)
Definition block_of (s s' : spectra) (starts : list nat) : Prop :=
  ashape (s_data s') = cfg_shape (s_cfg s') /\
  (forall idx, valid_idx (ashape (s_data s')) idx ->
     valid_idx (ashape (s_data s)) (zip_with Nat.add starts idx) /\
     aget (s_data s') idx = aget (s_data s) (zip_with Nat.add starts idx)) /\
  s_name s' = s_name s /\ s_bg s' = s_bg s /\ s_decays s' = s_decays s /\
  s_raw s' = s_raw s /\ s_bipo s' = s_bipo s /\ s_rois s' = s_rois s.

(** The keywords request at least one bin on every axis. *)
Definition some_bin (P : string -> spar -> Z -> Prop) (c : sconfig) : Prop :=
  forall v p, In (v, p) c -> exists i, P v p i.

(** The requested range of one parameter: substantially overlapped / overlapped bins. *)
Definition req_substantial (kw : dict Qc) (v : string) (p : spar) (i : Z) : Prop :=
  substantial p (req_low kw v p) (req_high kw v p) i.
Definition req_overlap (kw : dict Qc) (v : string) (p : spar) (i : Z) : Prop :=
  overlaps p (req_low kw v p) (req_high kw v p) i.
(** Only current bounds are given. *)
Definition current_bounds (c : sconfig) (kw : dict Qc) : Prop :=
  forall k x, In (k, x) kw -> exists v p, dget v c = Some p /\
    ((k = (v ++ "_low")%string /\ x = sp_low p) \/ (k = (v ++ "_high")%string /\ x = sp_high p)).

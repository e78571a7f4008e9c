(** Specification of shrinking on axes whose edges are not multiples of the bin width. *)
From Verif Require Import Model.Base Model.PyStr Model.NDArray Model.Param Model.Config Model.Spectra.
From Verif Require Import Spec.AxisSpec Spec.ArraySpec Spec.SpectraSpec Spec.ShrinkSpec.
Local Open Scope string_scope.

(** [y] is the multiple of [w] nearest to [x]; half way between two, the one further from 0. *)
Definition nearest_multiple (w x y : Qc) : Prop :=
  (exists m, y = (zq m * w)%Qc) /\
  (x - w * qq 1 2 <= y /\ y <= x + w * qq 1 2 /\
   (0 <= x -> x - w * qq 1 2 < y) /\ (x <= 0 -> y < x + w * qq 1 2))%Qc.
Definition rounded_edge (p : spar) (i : Z) (y : Qc) : Prop := nearest_multiple (bin_width p) (edge p i) y.

(** The bins kept for the range [lo, hi): the bin shares points with it, and the part shared,
    measured from the rounded edge at the far side of the bin, is at least a hundredth of
    a bin. *)
Definition shared (p : spar) (lo hi : Qc) (i : Z) : Prop :=
  overlaps p lo hi i /\
  exists a b, rounded_edge p i a /\ rounded_edge p (i + 1) b /\
    (lo + bin_width p * qq 1 100 <= a + bin_width p)%Qc /\
    (b - bin_width p + bin_width p * qq 1 100 <= hi)%Qc.
Definition req_shared (kw : dict Qc) (v : string) (p : spar) (i : Z) : Prop :=
  shared p (req_low kw v p) (req_high kw v p) i.

(** [p'] describes the bins [start .. start + bins p' - 1] of [p]: its bounds are the rounded outer
    edges, except that the lower bound is the edge itself when the range reaches below it. *)
Definition near_axis (p p' : spar) (lo : Qc) (start : nat) : Prop :=
  ((edge p (Z.of_nat start) <= lo)%Qc -> rounded_edge p (Z.of_nat start) (sp_low p')) /\
  ((lo < edge p (Z.of_nat start))%Qc -> sp_low p' = edge p (Z.of_nat start)) /\
  rounded_edge p (Z.of_nat start + sp_bins p') (sp_high p').
Definition near_restricted (P : string -> spar -> Z -> Prop) (kw : dict Qc) (c c' : sconfig) (starts : list nat) : Prop :=
  length c' = length c /\ length starts = length c /\
  forall k v p, nth_error c k = Some (v, p) ->
    exists p' st, nth_error c' k = Some (v, p') /\ nth_error starts k = Some st /\
      near_axis p p' (req_low kw v p) st /\
      forall i, P v p i <-> (Z.of_nat st <= i < Z.of_nat st + sp_bins p')%Z.

(** Every axis keeps its name and number of bins; its bounds move to the nearest multiples of its
    bin width. *)
Definition bounds_rounded (c c' : sconfig) : Prop :=
  length c' = length c /\
  forall k v p, nth_error c k = Some (v, p) ->
    exists p', nth_error c' k = Some (v, p') /\ sp_bins p' = sp_bins p /\
      nearest_multiple (bin_width p) (sp_low p) (sp_low p') /\
      nearest_multiple (bin_width p) (sp_high p) (sp_high p').

(** What a picture of a spectrum should show, independent of how it is drawn. *)
From Verif Require Import Model.Base Model.PyStr Model.NDArray Model.Param Model.Config Model.Spectra Model.Plot.
From Verif Require Import Spec.AxisSpec Spec.ArraySpec Spec.SpectraSpec.

(** The coordinate of the bin [idx] along the axis called [d]. *)
Fixpoint coord (c : sconfig) (d : string) (idx : list nat) : option nat :=
  match c, idx with
  | (k, _) :: c', i :: idx' => if (k =? d)%string then Some i else coord c' d idx'
  | _, _ => None
  end.
Definition at_coord (c : sconfig) (d : string) (i : nat) (idx : list nat) : bool :=
  match coord c d idx with Some k => (k =? i)%nat | None => false end.

(** The counts of [s] with coordinate [i] along [d], and with coordinates [i] along [d1] and [j]
    along [d2]. *)
Definition counts (s : spectra) (d : string) (i : nat) : Qc :=
  sum_where (ashape (s_data s)) (aget (s_data s)) (at_coord (s_cfg s) d i).
Definition counts2 (s : spectra) (d1 d2 : string) (i j : nat) : Qc :=
  sum_where (ashape (s_data s)) (aget (s_data s))
    (fun idx => at_coord (s_cfg s) d1 i idx && at_coord (s_cfg s) d2 j idx).

(** The histogram has the axis [p], [f i] in its i-th bin (ROOT counts from 1) and nothing in the
    underflow, the overflow or anywhere else. *)
Definition shows (h : hist1) (p : spar) (f : nat -> Qc) : Prop :=
  h1_bins h = sp_bins p /\ h1_low h = sp_low p /\ h1_high h = sp_high p /\
  (forall i : nat, (Z.of_nat i < sp_bins p)%Z -> h1_at h (Z.of_nat i + 1) = f i) /\
  (forall b : Z, (b <= 0)%Z \/ (sp_bins p < b)%Z -> h1_at h b = 0%Qc).
Definition shows2 (h : hist2) (px py : spar) (f : nat -> nat -> Qc) : Prop :=
  h2_xbins h = sp_bins px /\ h2_xlow h = sp_low px /\ h2_xhigh h = sp_high px /\
  h2_ybins h = sp_bins py /\ h2_ylow h = sp_low py /\ h2_yhigh h = sp_high py /\
  (forall i j : nat, (Z.of_nat i < sp_bins px)%Z -> (Z.of_nat j < sp_bins py)%Z ->
     h2_at h (Z.of_nat i + 1) (Z.of_nat j + 1) = f i j) /\
  (forall x y : Z, (x <= 0)%Z \/ (sp_bins px < x)%Z \/ (y <= 0)%Z \/ (sp_bins py < y)%Z -> h2_at h x y = 0%Qc).
(** One bar for each bin of the axis [p]: from the lower to the upper edge of the bin, [f i] high. *)
Definition draws (b : bars) (p : spar) (f : nat -> Qc) : Prop :=
  b_edges b = map (fun k => edge p (Z.of_nat k)) (seq 0 (S (Z.to_nat (sp_bins p)))) /\
  b_heights b = map f (seq 0 (Z.to_nat (sp_bins p))).
(** The centres of the bins of an axis. *)
Definition centres (p : spar) : list Qc :=
  map (fun k => edge p (Z.of_nat k) + bin_width p / zq 2)%Qc (seq 0 (Z.to_nat (sp_bins p))).
(** The spectrum has an axis called [d], which is [p]. *)
Definition has_axis (s : spectra) (d : string) (p : spar) : Prop := wf_spectra s /\ In (d, p) (s_cfg s).

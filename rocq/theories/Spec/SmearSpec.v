(** What smearing one axis means: every bin's content is redistributed along that axis. *)
From Verif Require Import Model.Base Model.PyStr Model.NDArray Model.Param Model.Config Model.Spectra.
From Verif Require Import Spec.AxisSpec Spec.ArraySpec Spec.SpectraSpec.

(** The middle of the i-th bin. *)
Definition middle (p : spar) (i : nat) : Qc := (edge p (Z.of_nat i) + bin_width p * qq 1 2)%Qc.

(** The index on axis [k]. *)
Definition coord (k : nat) (idx : list nat) : nat := nth k idx 0.

(** Two bins differ at most on axis [k]. *)
Definition same_line (k : nat) (a b : list nat) : Prop :=
  length a = length b /\ forall i, i <> k -> coord i a = coord i b.

(** [K src tgt] is the fraction of the content of bin [src] that goes to bin [tgt] when
    axis [k] (with bins as in [p]) is smeared with half-width [reach m] around the middle
    [m] of the source bin: non-negative; along the axis only, to bins that hold a point
    within the reach (up to 1.5 bin widths of rounding); a bin is moved completely or (only
    at the upper end of the axis) dropped. *)
Definition is_smearing (c : sconfig) (k : nat) (p : spar) (reach : Qc -> Qc)
  (K : list nat -> list nat -> Qc) : Prop :=
  let sh := cfg_shape c in
  (forall src tgt, valid_idx sh src -> valid_idx sh tgt -> (0 <= K src tgt)%Qc) /\
  (forall src tgt, valid_idx sh src -> valid_idx sh tgt -> K src tgt <> 0%Qc ->
     same_line k src tgt /\
     exists e, in_bin p (Z.of_nat (coord k tgt)) e /\
       (middle p (coord k src) - reach (middle p (coord k src)) - bin_width p * qq 1 2 <= e)%Qc /\
       (e < middle p (coord k src) + reach (middle p (coord k src)) + bin_width p * qq 3 2)%Qc) /\
  (forall src, valid_idx sh src -> total sh (K src) = 1%Qc \/ total sh (K src) = 0%Qc) /\
  (forall src, valid_idx sh src ->
     (0 < reach (middle p (coord k src)))%Qc ->
     (Z.of_nat (coord k src) + 1 < sp_bins p)%Z \/
     ((2 <= sp_bins p)%Z /\ (bin_width p * qq 1 2 < reach (middle p (coord k src)))%Qc) ->
     total sh (K src) = 1%Qc).

(** A smeared spectrum: the same description (but for the name), contents moved by [K]. *)
Definition smeared_by (K : list nat -> list nat -> Qc) (s s' : spectra) : Prop :=
  s_bg s' = s_bg s /\ s_cfg s' = s_cfg s /\ s_decays s' = s_decays s /\ s_raw s' = s_raw s /\
  s_bipo s' = s_bipo s /\ s_rois s' = s_rois s /\ ashape (s_data s') = ashape (s_data s) /\
  forall tgt, valid_idx (ashape (s_data s)) tgt ->
    aget (s_data s') tgt =
    total (ashape (s_data s)) (fun src => aget (s_data s) src * K src tgt)%Qc.

(** The random draws made for a spectrum: for each bin, one per whole event of content. *)
Definition n_draws (s : spectra) (src : list nat) : nat := Z.to_nat (qtrunc (aget (s_data s) src)).
(** All draws: (source bin, drawn value). *)
Definition all_draws (s : spectra) (draw : list nat -> nat -> Qc) : list (list nat * Qc) :=
  flat_map (fun src => map (fun i => (src, draw src i)) (seq 0 (n_draws s src))) (all_idx (ashape (s_data s))).
(** The draw [(src, x)] falls in bin [tgt]: same line, and [x] between the edges. *)
Definition draw_in (c : sconfig) (k : nat) (p : spar) (tgt : list nat) (d : list nat * Qc) : bool :=
  (if list_eq_dec Nat.eq_dec (remove_at k (fst d)) (remove_at k tgt) then true else false) &&
  qle (edge p (Z.of_nat (coord k tgt))) (snd d) && qlt (snd d) (edge p (Z.of_nat (coord k tgt) + 1)).

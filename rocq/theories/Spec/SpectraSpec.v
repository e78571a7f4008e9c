(** Specification vocabulary for spectra: well-formedness, which values belong to which
    bin, histograms of fill histories.  Uses only the data types of the model. *)
From Verif Require Import Model.Base Model.PyStr Model.NDArray Model.Param Model.Config Model.Spectra.
From Verif Require Import Spec.AxisSpec Spec.ArraySpec.

(** A usable configuration: distinct names, usable axes. *)
Definition wf_cfg (c : sconfig) : Prop :=
  NoDup (map fst c) /\ Forall (fun kp => wf_axis (snd kp)) c.

(** The shape announced by the configuration. *)
Definition cfg_shape (c : sconfig) : list nat := map (fun kp => Z.to_nat (sp_bins (snd kp))) c.

(** The data array has the shape announced by the configuration. *)
Definition consistent (s : spectra) : Prop := ashape (s_data s) = cfg_shape (s_cfg s).

Definition wf_spectra (s : spectra) : Prop := wf_cfg (s_cfg s) /\ consistent s.

(** Keyword values: every parameter has a value inside [low, high) and nothing else is
    given. *)
Definition valid_point (c : sconfig) (kw : dict Qc) : Prop :=
  (forall k, In k (map fst kw) -> In k (map fst c)) /\
  Forall (fun vp => exists x, dget (fst vp) kw = Some x /\
                    (sp_low (snd vp) <= x)%Qc /\ (x < sp_high (snd vp))%Qc) c.

(** The bin [idx] contains the point: on every axis the value lies between the edges. *)
Definition point_in_bin (c : sconfig) (kw : dict Qc) (idx : list nat) : Prop :=
  Forall2 (fun vp i => exists x, dget (fst vp) kw = Some x /\ in_bin (snd vp) (Z.of_nat i) x) c idx.

(** Boolean versions, used to write down sums over histories. *)
Definition accepted (c : sconfig) (kw : dict Qc) : bool :=
  forallb (fun k => existsb (String.eqb k) (map fst c)) (map fst kw) &&
  forallb (fun vp => match dget (fst vp) kw with
                     | Some x => qle (sp_low (snd vp)) x && qlt x (sp_high (snd vp))
                     | None => false
                     end) c.
Fixpoint inside (c : sconfig) (kw : dict Qc) (idx : list nat) : bool :=
  match c, idx with
  | [], [] => true
  | (v, p) :: c', i :: idx' =>
      match dget v kw with
      | Some x => qle (edge p (Z.of_nat i)) x && qlt x (edge p (Z.of_nat i + 1))
      | None => false
      end && inside c' kw idx'
  | _, _ => false
  end.

(** Sum of the weights of the entries of a history selected by a predicate. *)
Definition weight_of (P : dict Qc -> bool) (h : list (Qc * dict Qc)) : Qc :=
  qsum (map fst (filter (fun wk => P (snd wk)) h)).

(** Everything of a spectrum but its bin contents is the same. *)
Definition same_meta (s s' : spectra) : Prop :=
  s_name s = s_name s' /\ s_bg s = s_bg s' /\ s_cfg s = s_cfg s' /\
  s_decays s = s_decays s' /\ s_raw s = s_raw s' /\ s_bipo s = s_bipo s' /\
  s_rois s = s_rois s' /\ ashape (s_data s) = ashape (s_data s').

(** Two spectra with the same observable state (bins outside the shape do not exist). *)
Definition same_spectra (s s' : spectra) : Prop :=
  same_meta s s' /\
  (forall idx, valid_idx (ashape (s_data s)) idx -> aget (s_data s) idx = aget (s_data s') idx).

(** Non-negative content. *)
Definition nonneg (s : spectra) : Prop :=
  forall idx, valid_idx (ashape (s_data s)) idx -> (0 <= aget (s_data s) idx)%Qc.

(** Apply a history of mutating calls, ignoring the exceptions they raise (each call is
    wrapped in try/except by the caller). *)
Definition run {A} (step : A -> spectra -> spectra * out) (h : list A) (s : spectra) : spectra :=
  fold_left (fun s a => fst (step a s)) h s.

(** One entry of a fill history: a weight and the keyword values. *)
Definition fill1 (wk : Qc * dict Qc) (s : spectra) : spectra * out := fill (fst wk) (snd wk) s.

(** The axes (positions) of the named parameters, in configuration order. *)
Definition axes_of (c : sconfig) (dims : list string) : list nat :=
  filter (fun a => match nth_error (map fst c) a with
                   | Some v => existsb (String.eqb v) dims
                   | None => false
                   end) (seq 0 (length c)).

(** [a] is the marginal distribution of [s] on the axes [axes]. *)
Definition marginal_of (s : spectra) (axes : list nat) (a : ndarray) : Prop :=
  is_marginal (ashape (s_data s)) (aget (s_data s)) axes (ashape a) (aget a).

(** Axes reached when the k-th axis to be summed is looked up in an array that has
    already lost k axes to its left: i + k instead of i. *)
Fixpoint drift (k : nat) (ds : list nat) : list nat :=
  match ds with [] => [] | d :: r => (d + k) :: drift (S k) r end.

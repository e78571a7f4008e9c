(** Specification vocabulary for C53: a region of interest, spectra that can be restricted to
    it, and spectra that have been. *)
From Verif Require Import Model.Base Model.PyStr Model.NDArray Model.Param Model.Config Model.Spectra Model.Heap Model.Fit Model.FitPrepare.
From Verif Require Import Spec.AxisSpec Spec.ArraySpec Spec.SpectraSpec Spec.ShrinkSpec Spec.HeapSpec Spec.FitRunSpec.

(** The bounds the region gives to the axis [v]: its own bounds if the region does not
    mention its dimension. *)
Definition roi_low (roi : rdict) (v : string) (p : spar) : Qc :=
  match dget (get_dim v) roi with Some (lo, _) => lo | None => sp_low p end.
Definition roi_high (roi : rdict) (v : string) (p : spar) : Qc :=
  match dget (get_dim v) roi with Some (_, hi) => hi | None => sp_high p end.

(** The region can be cut out of a spectrum with axes [c] exactly: each of its dimensions is
    an axis, its bounds are bin edges inside the axis. *)
Definition axes_ok (c : sconfig) : Prop :=
  c <> [] /\ Forall (fun vp => aligned (snd vp)) c /\
  NoDup (map (fun y => get_dim (fst y)) c) /\ Forall (fun y => typed_name (fst y)) c.
Definition suits (roi : rdict) (c : sconfig) : Prop :=
  NoDup (map fst roi) /\
  forall d lo hi, In (d, (lo, hi)) roi -> (lo < hi)%Qc /\
    exists v p, In (v, p) c /\ get_dim v = d /\ (sp_low p <= lo)%Qc /\ (hi <= sp_high p)%Qc /\ on_edge p lo /\ on_edge p hi.

(** [c'] is [c] with the bounds of the region on the dimensions of the region: the same
    names, the bounds of the region, bins of the same width. *)
Definition cut_axes (roi : rdict) (c c' : sconfig) : Prop :=
  Forall2 (fun x y => fst x = fst y /\ sp_low (snd y) = roi_low roi (fst x) (snd x) /\
                      sp_high (snd y) = roi_high roi (fst x) (snd x) /\ bin_width (snd y) = bin_width (snd x)) c c'.
(** The first bin of each axis inside the region. *)
Definition first_bins (roi : rdict) (c : sconfig) (starts : list nat) : Prop :=
  Forall2 (fun x n => edge (snd x) (Z.of_nat n) = roi_low roi (fst x) (snd x)) c starts.
(** [s'] is [s] restricted to the region. *)
Definition in_region (roi : rdict) (s s' : spectra) : Prop :=
  wf_spectra s' /\ cut_axes roi (s_cfg s) (s_cfg s') /\
  exists starts, first_bins roi (s_cfg s) starts /\ block_of s s' starts.

(** The region in the form check_roi leaves it: low before high. *)
Definition ordered_pair (a b : Qc) (lh : Qc * Qc) : Prop :=
  (fst lh <= snd lh)%Qc /\ (lh = (a, b) \/ lh = (b, a)).

(** Configuration object of a spectrum. *)
Definition cfg_of (h : heap) (r : nat) : option nat := option_map o_cfg (nth_error (h_objs h) r).
(** The spectra [l] have a configuration object each. *)
Definition own_configs (h : heap) (l : list nat) : Prop := NoDup (map (cfg_of h) l) /\ ~ In None (map (cfg_of h) l).

(** [s'] is [s] but for its configuration. *)
Definition only_config (s s' : spectra) : Prop :=
  s_name s' = s_name s /\ s_bg s' = s_bg s /\ s_data s' = s_data s /\ s_decays s' = s_decays s /\
  s_raw s' = s_raw s /\ s_bipo s' = s_bipo s /\ s_rois s' = s_rois s.

(** The content that the fixed background has in bin [i]: each spectrum scaled to its number
    of decays, in the bin that is [i] inside the region. *)
Definition scaled_content (x : spectra * Qc * list nat) (i : list nat) : Qc :=
  match x with (s, n, starts) => (aget (s_data s) (zip_with Nat.add starts i) * (n / s_decays s))%Qc end.

(** The axes have the bounds of the region within the tolerance of numpy.isclose. *)
Definition close (a b : Qc) : Prop := (qabs (a - b) <= qq 1 100000000 + qq 1 100000 * qabs b)%Qc.

(** The region can be cut out of the spectrum. *)
Definition restrictable roi s : Prop := wf_spectra s /\ axes_ok (s_cfg s) /\ suits roi (s_cfg s).
(** The same dimensions (of any type) in the same order with the same bounds and bins. *)
Definition same_dims (c c' : sconfig) : Prop := Forall2 (fun x y => get_dim (fst x) = get_dim (fst y) /\ snd x = snd y) c c'.
(** The spectra have the same axes inside the region. *)
Definition alike (roi : rdict) (c c' : sconfig) : Prop :=
  Forall2 (fun x y => get_dim (fst x) = get_dim (fst y) /\ bin_width (snd x) = bin_width (snd y) /\
                      roi_low roi (fst x) (snd x) = roi_low roi (fst y) (snd y) /\
                      roi_high roi (fst x) (snd x) = roi_high roi (fst y) (snd y)) c c'.
(** An entry of the dict of fixed backgrounds, and the spectrum, number of decays and first
    bins it stands for. *)
Definition fixed_part (roi : rdict) (h : heap) (rn : nat * Qc) (p : spectra * Qc * list nat) : Prop :=
  abs h (fst rn) = Some (fst (fst p)) /\ snd (fst p) = snd rn /\ first_bins roi (s_cfg (fst (fst p))) (snd p).
(** The configuration object of the spectrum now has the axes of the region. *)
Definition recut (roi : rdict) (h h' : heap) (r : nat) : Prop :=
  exists s x c1, abs h r = Some s /\ cfg_of h r = Some x /\ cut_axes roi (s_cfg s) c1 /\ nth_error (h_cfgs h') x = Some c1.
(** The axes the spectrum is projected to: those of the dimensions of the region, in its
    order. *)
Definition roi_axes (roi : rdict) (c : sconfig) (ps : list string) : Prop :=
  Forall2 (fun x v => get_dim v = fst x /\ In v (map fst c)) roi ps.
(** The object [r] now shows the spectrum it showed before, restricted to the region. *)
Definition restricted (roi : rdict) (h h' : heap) (r : nat) : Prop :=
  exists s s', abs h r = Some s /\ abs h' r = Some s' /\ in_region roi s s'.

(** The attribute [y] of the fit holds the spectrum [x], restricted, and its ROI axes. *)
Definition one_made (roi : rdict) (h h' : heap) (x : option nat) (y : option (nat * list string)) : Prop :=
  match x with
  | None => y = None
  | Some r => exists ps s', y = Some (r, ps) /\ restricted roi h h' r /\ abs h' r = Some s' /\ roi_axes roi (s_cfg s') ps
  end.
(** [T] is the sum of the spectra of the dict [l], each restricted to the region and scaled. *)
Definition is_total (roi : rdict) (h : heap) (l : list (nat * Qc)) (T : spectra) : Prop :=
  exists parts, Forall2 (fixed_part roi h) l parts /\
    (forall i, valid_idx (cfg_shape (s_cfg T)) i -> aget (s_data T) i = qsum (map (fun p => scaled_content p i) parts)) /\
    s_decays T = qsum (map snd l) /\ s_name T = "Fixed Background"%string /\ wf_spectra T /\
    match l with
    | [] => False
    | (r, _) :: _ => exists s, abs h r = Some s /\ cut_axes roi (s_cfg s) (s_cfg T)
    end.
(** The fit holds what it was given, restricted to the region. *)
Record fit_made (roi : rdict) (h : heap) (data : option nat) (fixed : list (nat * Qc)) (floating : list nat) (signal : option nat) (z : fitset) : Prop := FitMade {
  fm_roi : z_roi z = Some roi;
  fm_heap : wf_heap (z_heap z);
  fm_data : one_made roi h (z_heap z) data (z_data z);
  fm_fixed : match fixed with
             | [] => z_fixed z = None
             | _ => exists t ps T, z_fixed z = Some (t, ps) /\ (length (h_objs h) <= t)%nat /\ abs (z_heap z) t = Some T /\ is_total roi h fixed T /\
                      roi_axes roi (s_cfg T) ps
             end;
  fm_floating : match floating with
                | [] => z_floating z = None
                | _ => exists pss, z_floating z = Some (floating, pss) /\
                         Forall2 (fun r ps => one_made roi h (z_heap z) (Some r) (Some (r, ps))) floating pss
                end;
  fm_signal : one_made roi h (z_heap z) signal (z_signal z) }.
(** A spectrum that can go into the fixed background with spectra of axes [c]. *)
Definition fixes (roi : rdict) (c0 : sconfig) (h : heap) (rn : nat * Qc) : Prop :=
  exists s, abs h (fst rn) = Some s /\ restrictable roi s /\ s_decays s <> 0%Qc /\ alike roi c0 (s_cfg s).
(** The spectrum exists and the region can be cut out of it. *)
Definition can (roi : rdict) (h : heap) (r : nat) : Prop := exists s, abs h r = Some s /\ restrictable roi s.
Definition ol (x : option nat) : list nat := match x with Some r => [r] | None => [] end.

(** Name of the spectrum as the fit asks for it. *)
Definition bg_name (h : heap) (r : nat) : option string := name_of h (Part r [] []).

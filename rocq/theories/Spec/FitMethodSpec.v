(** Specification vocabulary for C84: the methods of a fit that take spectra. *)
From Verif Require Import Model.Base Model.PyStr Model.NDArray Model.Param Model.Config Model.Spectra Model.Heap Model.Fit Model.FitPrepare.
From Verif Require Import Spec.AxisSpec Spec.ArraySpec Spec.SpectraSpec Spec.HeapSpec Spec.FitRunSpec Spec.FitSetSpec.

(** The fit has the same region and the same attributes; spectra may have changed. *)
Definition same_fit (z z' : fitset) : Prop :=
  z_roi z' = z_roi z /\ z_data z' = z_data z /\ z_fixed z' = z_fixed z /\ z_floating z' = z_floating z /\ z_signal z' = z_signal z.
(** The three attributes that hold one spectrum. *)
Inductive slot := Data | Fixed | Signal.
Definition in_slot (k : slot) (z : fitset) : option (nat * list string) :=
  match k with Data => z_data z | Fixed => z_fixed z | Signal => z_signal z end.
(** The method that sets it. *)
Definition set_slot (k : slot) : nat -> bool -> fitset -> fitset * out :=
  match k with Data => set_data | Fixed => set_fixed_background | Signal => set_signal end.
(** Only the attribute [k] is different. *)
Definition other_slots (k : slot) (z z' : fitset) : Prop :=
  z_roi z' = z_roi z /\ z_floating z' = z_floating z /\ forall j, j <> k -> in_slot j z' = in_slot j z.

(** The axes are named dimension_type, one for each dimension. *)
Definition named_axes (c : sconfig) : Prop :=
  NoDup (map (fun y => get_dim (fst y)) c) /\ Forall (fun y => typed_name (fst y)) c.
(** The axis of a dimension is there. *)
Definition has_dim (c : sconfig) (d : string) : Prop := exists v p, In (v, p) c /\ get_dim v = d.
(** The bounds are those of the region within the tolerance. *)
Definition within (roi : rdict) (c : sconfig) : Prop :=
  forall d lo hi, In (d, (lo, hi)) roi -> exists v p, In (v, p) c /\ get_dim v = d /\ close lo (sp_low p) /\ close hi (sp_high p).
(** The two spectra do not share their array. *)
Definition own_array (h : heap) (t r : nat) : Prop :=
  t <> r /\ forall ot o, nth_error (h_objs h) t = Some ot -> nth_error (h_objs h) r = Some o -> o_buf ot <> o_buf o.
(** Spectra whose configuration object is not one of those of [l] show what they showed. *)
Definition others_same (h h' : heap) (l : list nat) : Prop :=
  forall r s, abs h r = Some s -> ~ In r l -> ~ In (cfg_of h r) (map (cfg_of h) l) -> abs h' r = Some s.

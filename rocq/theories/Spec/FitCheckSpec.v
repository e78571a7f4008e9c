(** Specification vocabulary for C93: fits that are ready to be run. *)
From Verif Require Import Model.Base Model.PyStr Model.NDArray Model.Param Model.Config Model.Spectra
  Model.Smear Model.Shift Model.FitParam Model.Heap Model.Minimise Model.Fit Model.FitPrepare Model.Limit Model.FitLimit.
From Verif Require Import Spec.AxisSpec Spec.ArraySpec Spec.SpectraSpec Spec.ShrinkSpec Spec.HeapSpec Spec.FitMethodSpec.

(** If given, the spectrum has its axes of the region, with the bounds of the region. *)
Definition covers (z : fitset) (x : option (nat * list string)) : Prop :=
  forall r pars, x = Some (r, pars) -> pars <> [] /\ exists s, abs (z_heap z) r = Some s /\ within (the_roi z) (s_cfg s).
(** At least one floating background. *)
Definition has_floating (z : fitset) : Prop := exists r l pars, z_floating z = Some (r :: l, pars).
(** Data, and a background of some kind; data, fixed background and signal cover the region;
    every floating background has its list of axes, and its own parameters pass their checks. *)
Record spectra_ready (su : setup) (z : fitset) : Prop := SpectraReady {
  sr_data : z_data z <> None;
  sr_data_covers : covers z (z_data z);
  sr_background : z_fixed z <> None \/ z_floating z <> None;
  sr_fixed : covers z (z_fixed z);
  sr_signal : covers z (z_signal z);
  sr_floating : forall l pars, z_floating z = Some (l, pars) -> l <> [] -> length pars = length l /\ forall r, In r l -> su_config su r = None }.
(** Parameters if there are floating backgrounds; no parameters of spectra if there are none. *)
Definition pars_ready (su : setup) (z : fitset) : Prop :=
  (has_floating z -> su_pars su <> []) /\ (~ has_floating z -> su_spectra_pars su = 0%nat).
(** A minimiser that, like the statistic, keeps the statistics of the bins if the fit does. *)
Definition search_ready (su : setup) (u : fitter) : Prop :=
  exists g, u_search u = Some g /\ (su_per_bin su = true -> gs_per_bin g = true /\ su_stat_per_bin su = true).
Definition fit_is_ready (su : setup) (u : fitter) : Prop := spectra_ready su (u_set u) /\ pars_ready su (u_set u) /\ search_ready su u.
(** The axes of the given spectra have names with a dimension each. *)
Definition axes_named (z : fitset) : Prop :=
  forall x r pars s, In x [z_data z; z_fixed z; z_signal z] -> x = Some (r, pars) -> abs (z_heap z) r = Some s -> named_axes (s_cfg s).
(** The spectrum whose bins the statistics are kept for: the first floating background if bins
    are kept and there is one, else the data. *)
Definition measured (su : setup) (z : fitset) (r : nat) : Prop :=
  (su_per_bin su = true /\ exists l pars, z_floating z = Some (r :: l, pars)) \/
  (~ (su_per_bin su = true /\ has_floating z) /\ exists pars, z_data z = Some (r, pars)).

(** Specification vocabulary for C97: transforming a sum of spectra. *)
From Verif Require Import Model.Base Model.PyStr Model.NDArray Model.Param Model.Config Model.Spectra.
From Verif Require Import Spec.ArraySpec Spec.SpectraSpec.

(** What an operation makes of the sum of two spectra with the same axes is the sum of what
    it makes of the two. *)
Definition adds_up (ok : spectra -> Prop) (f : spectra -> res spectra) : Prop :=
  forall s o t s1 o1, ok s -> ok o -> s_cfg o = s_cfg s -> s_add o s = (t, None) -> f s = Ok s1 -> f o = Ok o1 ->
    exists t1 u, f t = Ok t1 /\ s_add o1 s1 = (u, None) /\ same_spectra t1 u.
(** Any spectrum. *)
Definition any_spectrum (s : spectra) : Prop := True.

(** Specification vocabulary for C98: shrinking in steps. *)
From Verif Require Import Model.Base Model.PyStr Model.Param Model.Config.
From Verif Require Import Spec.AxisSpec Spec.ShrinkSpec.

Definition later (a b : Qc) : Qc := if qle a b then b else a.
Definition earlier (a b : Qc) : Qc := if qle a b then a else b.
(** On every axis, [kw] asks for what both [kw1] and [kw2] ask for. *)
Definition asks_both (c : sconfig) (kw1 kw2 kw : dict Qc) : Prop :=
  forall v p, In (v, p) c ->
    req_low kw v p = later (req_low kw1 v p) (req_low kw2 v p) /\
    req_high kw v p = earlier (req_high kw1 v p) (req_high kw2 v p).

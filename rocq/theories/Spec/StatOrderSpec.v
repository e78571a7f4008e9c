(** Specification vocabulary for C96: bins of a statistic in other orders and groups. *)
From Coq Require Import Reals.
From Verif Require Import Model.Base Model.TestStat Spec.StatSpec.
Local Open Scope R_scope.

(** Contents that the statistic takes as they are: expected at least 1e-34; observed that or 0
    (not 0 for Neyman, which divides by it). *)
Definition taken_as_is (t : tstat) (o e : list R) : Prop := regular e /\ zero_or_regular o /\ (t = Neyman -> regular o).
(** [x] lies between [a] and [b]. *)
Definition between (a x b : R) : Prop := a <= x <= b \/ b <= x <= a.
(** The groups of two lists have the same sizes, and are not empty. *)
Definition grouped_alike (os es : list (list R)) : Prop := Forall2 (fun o e => length o = length e /\ o <> []) os es.

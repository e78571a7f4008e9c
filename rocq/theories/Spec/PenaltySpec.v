(** Specification vocabulary for C35: numbers of a penalty term. *)
From Coq Require Import Reals.
From Verif Require Import Model.Base Model.TestStat.
Local Open Scope R_scope.

(** The statistics that convert sigma to a float. *)
Definition converts (t : tstat) : bool := match t with BakerCousinsChi | BakerCousinsChiUp => true | _ => false end.
(** The number is an integer; all three are. *)
Definition is_int (x : pynum) : bool := match x with PInt _ => true | PFloat _ => false end.
Definition all_ints (v p s : pynum) : bool := is_int v && is_int p && is_int s.
(** The penalty of a value, as a formula. *)
Definition penalty_of (t : tstat) (v p s : R) : R := (match t with BakerCousinsLL => 1 / 2 | _ => 1 end) * ((v - p) / s) ^ 2.

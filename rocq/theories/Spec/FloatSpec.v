(** Vocabulary for C55. *)
From Coq Require Import ZArith Reals.
From Flocq Require Import Core IEEE754.Binary IEEE754.Bits.
From Verif Require Import Model.FloatFill.
Local Open Scope R_scope.

(** The real number that a finite binary64 number stands for. *)
Definition real (x : binary64) : R := B2R 53 1024 x.
Definition is_number (x : binary64) : Prop := is_finite 53 1024 x = true.
(** Finite bounds whose difference does not overflow, up to 2^53 bins, and a value that the
    range check accepts. *)
Definition accepted_value (low high : binary64) (bins : Z) (v : binary64) : Prop :=
  is_number low /\ is_number high /\ is_number v /\ is_number (f_sub high low) /\ (1 <= bins <= 2 ^ 53)%Z /\
  real low <= real v < real high.
(** Distance of neighbouring binary64 numbers around x (unit in the last place). *)
Definition spacing (x : R) : R := ulp radix2 (FLT_exp (-1074) 53) x.

(** Vocabulary for C82. *)
From Coq Require Import ZArith Reals.
From Flocq Require Import Core IEEE754.Binary IEEE754.Bits.
From Verif Require Import Model.FloatFill Spec.FloatSpec.
Local Open Scope R_scope.

(** Width and edges of the bins as real numbers. *)
Definition bin_width (low high : binary64) (bins : Z) : R := (real high - real low) / IZR bins.
Definition bin_edge (low high : binary64) (bins i : Z) : R := real low + IZR i * bin_width low high bins.
(** Finite bounds, between 1 and 2^46 bins, nothing near the overflow or underflow threshold. *)
Definition plain_axis (low high : binary64) (bins : Z) : Prop :=
  is_number low /\ is_number high /\ (1 <= bins <= 2 ^ 46)%Z /\
  Rabs (real low) <= 2 ^ 1000 /\ Rabs (real high) <= 2 ^ 1000 /\ / 2 ^ 800 <= real high - real low.
(** The bins are not too narrow for numbers as large as the bounds. *)
Definition fine_axis (low high : binary64) (bins : Z) : Prop :=
  plain_axis low high bins /\ Rabs (real low) <= 2 ^ 49 * bin_width low high bins /\ Rabs (real high) <= 2 ^ 49 * bin_width low high bins.
Definition very_fine_axis (low high : binary64) (bins : Z) : Prop :=
  plain_axis low high bins /\ IZR bins * Rabs (real low) <= 2 ^ 48 * bin_width low high bins /\
  IZR bins * Rabs (real high) <= 2 ^ 48 * bin_width low high bins.
(** x is in bin i and at least (i + 1) * 2^-50 of a bin away from its edges. *)
Definition well_inside (low high : binary64) (bins i : Z) (x : binary64) : Prop :=
  is_number x /\
  bin_edge low high bins i + (IZR i + 1) * / 2 ^ 50 * bin_width low high bins <= real x <=
  bin_edge low high bins (i + 1) - (IZR i + 1) * / 2 ^ 50 * bin_width low high bins.

(** Real centre of bin i, and lookups of x in both ways: get_bin and the index of a fill. *)
Definition bin_centre (low high : binary64) (bins i : Z) : R := real low + (IZR i + / 2) * bin_width low high bins.

(** Vocabulary for C89. *)
From Coq Require Import ZArith Reals.
From Flocq Require Import Core IEEE754.Binary IEEE754.Bits.
From Verif Require Import Model.FloatFill Spec.FloatSpec Spec.FloatAxisSpec.
Local Open Scope R_scope.

(** An axis whose bins are wider than 2^-36 of its bounds and whose lower bound is a multiple of the
    bin width, up to a thousandth of a bin. *)
Definition aligned_axis (low high : binary64) (bins : Z) : Prop :=
  plain_axis low high bins /\ Rabs (real low) <= 2 ^ 36 * bin_width low high bins /\ Rabs (real high) <= 2 ^ 36 * bin_width low high bins /\
  exists m : Z, Rabs (real low - IZR m * bin_width low high bins) <= / 1000 * bin_width low high bins.
(** A lower bound in bin i, or at its lower edge up to 1/200 of a bin, and not within 1/50 of a bin of
    the next edge. *)
Definition lower_request (low high : binary64) (bins i : Z) (x : binary64) : Prop :=
  is_number x /\ bin_edge low high bins i - / 200 * bin_width low high bins <= real x <= bin_edge low high bins (i + 1) - / 50 * bin_width low high bins.
(** An upper bound in bin j - 1, or at its upper edge up to 1/200 of a bin, and not within 1/50 of a bin
    of the edge before. *)
Definition upper_request (low high : binary64) (bins j : Z) (x : binary64) : Prop :=
  is_number x /\ bin_edge low high bins (j - 1) + / 50 * bin_width low high bins <= real x <= bin_edge low high bins j + / 200 * bin_width low high bins.

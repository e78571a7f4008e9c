(** Vocabulary for decay conversions. *)
From Coq Require Import Reals.
From Verif Require Import Model.Base Model.Decay.
Local Open Scope R_scope.

(** A physical isotope. *)
Definition physical (i : isotope) : Prop :=
  0 < i_weight i /\ 0 < i_weight_nat i /\ 0 < i_abundance i <= 1 /\ 0 < i_phase i /\ i_matrix i <> 0 /\
  0 < i_loading i <= 1 /\ 0 < i_radius i /\ 0 < i_density i.
(** The number of atoms in use: the one given, or the calculated one. *)
Definition with_atoms (i : isotope) (n : option R) (N : R) : Prop :=
  match n with Some x => x = N | None => get_n_atoms i None None None None None = Ok N end.

(** Vocabulary for the weights of a smearing. *)
From Coq Require Import Reals.
From Verif Require Import Model.Base Model.Weights.
Local Open Scope R_scope.

(** The Poisson probability of [n] when [mu] are expected. *)
Definition poisson (mu : R) (n : nat) : R := mu ^ n * exp (- mu) / INR (fact n).
(** A use of a smearing object, and what any sequence of uses makes of it. *)
Inductive use := USet (x : R) | UPoisson (x lamb : R) | UWeights (energies : list R) (mean : R).
Definition used (o : smearing) (u : use) : smearing :=
  match u with
  | USet x => fst (sm_set_resolution o x)
  | UPoisson x lamb => snd (calc_poisson_energy o x lamb)
  | UWeights es mean => snd (sm_weights o es mean)
  end.
(** An object of either class after any history of uses. *)
Definition reached (o : smearing) : Prop :=
  exists p l, o = fold_left used l (new_ly_smearing p) \/ o = fold_left used l (new_res_smearing p).
(** The weight of [x] when [lamb] is the mean. *)
Definition pweight (o : smearing) (lamb x : R) : R := fst (calc_poisson_energy o x lamb).
(** The energy of [n] photons. *)
Definition energy_of (o : smearing) (n : nat) : R := INR n / sm_ly o.
(** Objects with the same settings. *)
Definition same_settings (o o' : smearing) : Prop :=
  sm_res_class o = sm_res_class o' /\ sm_ly o = sm_ly o' /\ sm_res o = sm_res o' /\ sm_poisson o = sm_poisson o'.

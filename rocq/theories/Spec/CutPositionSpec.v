(** Which position the fiducial cut of an extractor is to use. *)
From Coq Require Import Reals.
From Verif Require Import Model.Base Model.DSExtract.
From Verif Require Import Spec.ExtractSpec.
Local Open Scope R_scope.

(** The extractors of true and of reconstructed quantities (without the z-radial ones, which cannot be made). *)
Definition true_kinds : list xkind := [EnergyMC; EnergyTruth; RadialMC; Radial3MC].
Definition reco_kinds : list xkind := [EnergyReco; RadialReco; Radial3Reco].

(** The entry carries what the extractor reads: a true extractor needs the mc tag (and, for external
    events, a fit), a reconstructed one a fit, and for the energy a positive one. *)
Definition tagged (k : xkind) (external : bool) (e : nentry) : Prop :=
  (In k true_kinds /\ n_mc e = 1%Z /\ (external = true -> n_scintFit e = 1%Z)) \/
  (In k reco_kinds /\ n_scintFit e = 1%Z /\ (k = EnergyReco -> 0 < n_energy e)).
(** The event is inside: a true extractor looks at the true position, unless told to look at the
    reconstructed one, which external events always do, and which then has to exist; a
    reconstructed extractor at the reconstructed one, unless told to look at the true one. *)
Definition inside (k : xkind) (external other : bool) (r : R) (e : nentry) : Prop :=
  (In k true_kinds /\ external = false /\ other = false /\ within r (n_mcPos e)) \/
  (In k true_kinds /\ (external = true \/ other = true) /\ n_scintFit e = 1%Z /\ within r (n_pos e)) \/
  (In k reco_kinds /\ other = false /\ within r (n_pos e)) \/
  (In k reco_kinds /\ other = true /\ within r (n_mcPos e)).

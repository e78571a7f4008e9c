(** C100: the position the fiducial cut looks at. *)
From Coq Require Import Reals Lra.
From Verif Require Import Model.Base Model.DSExtract.
From Verif Require Import Spec.ExtractSpec Spec.CutPositionSpec Proofs.CutPosition.
Local Open Scope R_scope.

(** C100: which extractors can be made: not one of the true radius for external events, none that cuts external
    events on the true position, and none of the z-radial ones. *)
Theorem C100_made : forall k fv external other outer,
  (In k true_kinds -> (external = true -> k = EnergyMC \/ k = EnergyTruth) -> exists x, mk_dsx k fv external other outer = Ok x /\ x_kind x = k /\ x_fv x = fv) /\
  (In k reco_kinds -> (external = true -> other = false) -> exists x, mk_dsx k fv external other outer = Ok x /\ x_kind x = k /\ x_fv x = fv) /\
  (k = RadialMC \/ k = Radial3MC -> external = true -> mk_dsx k fv external other outer = Err EValueError) /\
  (In k reco_kinds -> external = true -> other = true -> mk_dsx k fv external other outer = Err EValueError) /\
  (k = ZRadial3MC \/ k = ZRadial3Reco -> mk_dsx k fv external other outer = Err ETypeError).
Proof. exact made_l. Qed.
(** C100: an ntuple entry is valid exactly when it carries what is read and is inside the radius at the position
    asked for. *)
Theorem C100_ntuple : forall k r external other outer x e, r <> 0 -> mk_dsx k (Some r) external other outer = Ok x ->
  (valid_ntuple x e = true <-> tagged k external e /\ inside k external other r e).
Proof. exact cut_ntuple_l. Qed.
Theorem C100_no_radius : forall k external other outer x e, mk_dsx k None external other outer = Ok x ->
  (valid_ntuple x e = true <-> tagged k external e).
Proof. exact nocut_ntuple_l. Qed.
(** C100: a ROOT entry read by a true extractor: told to look at the reconstructed position, it needs exactly one trigger. *)
Theorem C100_root_true : forall k r external other outer x d, In k true_kinds -> r <> 0 -> mk_dsx k (Some r) external other outer = Ok x ->
  (external = false -> other = false -> exists b, valid_root_mc x d = Ok b /\ (b = true <-> within r (m_pos (d_mc d)))) /\
  (external = true \/ other = true ->
     match d_evs d with
     | [ev] => exists b, valid_root_mc x d = Ok b /\ (b = true <-> within r (e_pos ev))
     | _ => valid_root_mc x d = Err EValueError
     end).
Proof. exact cut_root_mc_l. Qed.
(** C100: a trigger of a ROOT entry read by a reconstructed extractor. *)
Theorem C100_root_reco : forall k r external other outer x d ev, In k reco_kinds -> r <> 0 -> mk_dsx k (Some r) external other outer = Ok x ->
  (valid_root_ev x d ev = true <-> e_fit ev = true /\
     (if match k with RadialReco => true | _ => false end then e_hasP ev = true /\ e_validP ev = true else e_hasE ev = true /\ e_validE ev = true) /\
     within r (if other then m_pos (d_mc d) else e_pos ev)).
Proof. exact cut_root_ev_l. Qed.

(** The energy deposited, cut on the reconstructed position, and the reconstructed energy, cut on the true position, within 5. *)
Example C100_ex : (exists x, mk_dsx EnergyMC (Some 5) false true None = Ok x) /\ (exists x, mk_dsx EnergyReco (Some 5) false true None = Ok x) /\
  (5:R) <> 0 /\ In RadialReco reco_kinds /\ In RadialMC true_kinds /\ within 5 (Vec 2 3 1) /\ ~ within 5 (Vec 3 4 0).
Proof.
  split; [eexists; reflexivity|]. split; [eexists; reflexivity|]. unfold reco_kinds, true_kinds, within, dist2. cbn. repeat split; try lra; tauto.
Qed.

Print Assumptions C100_made.
Print Assumptions C100_ntuple.
Print Assumptions C100_no_radius.
Print Assumptions C100_root_true.
Print Assumptions C100_root_reco.

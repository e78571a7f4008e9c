(** C29: extractors and the fiducial cut. *)
From Coq Require Import Reals Lra.
From Verif Require Import Model.Base Model.DSExtract Spec.ExtractSpec Proofs.ExtractLemmas.
Local Open Scope R_scope.
Local Open Scope string_scope.

(** With a fiducial radius r <> 0: which ntuple entries are valid. *)
Theorem C29_energy_reco : forall r ext outer e, r <> 0 ->
  exists x, function_factory "energy_reco" (Some r) ext outer = Ok x /\ x_name x = "energy_reco" /\
    value_ntuple x e = n_energy e /\
    (valid_ntuple x e = true <-> n_scintFit e = 1%Z /\ 0 < n_energy e /\ within r (n_pos e)).
Proof. exact energy_reco_l. Qed.
Theorem C29_radial_reco : forall dim r ext outer e,
  dim = "radial_reco" \/ dim = "radial3_reco" -> r <> 0 ->
  exists x, function_factory dim (Some r) ext outer = Ok x /\ x_name x = dim /\
    (valid_ntuple x e = true <-> n_scintFit e = 1%Z /\ within r (n_pos e)).
Proof. exact radial_reco_l. Qed.
Theorem C29_mc : forall dim r outer e,
  In dim ["energy_mc"; "energy_truth"; "radial_mc"; "radial3_mc"] -> r <> 0 ->
  exists x, function_factory dim (Some r) false outer = Ok x /\ x_name x = dim /\
    (valid_ntuple x e = true <-> n_mc e = 1%Z /\ within r (n_mcPos e)).
Proof. exact mc_l. Qed.
(** External events have no MC position: the cut uses the reconstructed one. *)
Theorem C29_external_energy : forall dim r outer e,
  In dim ["energy_mc"; "energy_truth"] -> r <> 0 ->
  exists x, function_factory dim (Some r) true outer = Ok x /\ x_name x = dim /\
    (valid_ntuple x e = true <-> n_mc e = 1%Z /\ n_scintFit e = 1%Z /\ within r (n_pos e)).
Proof. exact external_energy_l. Qed.
Theorem C29_external_radial_mc : forall dim fv outer,
  dim = "radial_mc" \/ dim = "radial3_mc" -> function_factory dim fv true outer = Err EValueError.
Proof. exact external_radial_l. Qed.
(** Without a radius only the tags count. *)
Theorem C29_no_radius : forall e outer,
  (forall dim, In dim ["energy_mc"; "energy_truth"; "radial_mc"; "radial3_mc"] ->
    exists x, function_factory dim None false outer = Ok x /\ (valid_ntuple x e = true <-> n_mc e = 1%Z)) /\
  (forall ext, exists x, function_factory "energy_reco" None ext outer = Ok x /\
     (valid_ntuple x e = true <-> n_scintFit e = 1%Z /\ 0 < n_energy e)) /\
  (forall ext dim, In dim ["radial_reco"; "radial3_reco"] ->
     exists x, function_factory dim None ext outer = Ok x /\ (valid_ntuple x e = true <-> n_scintFit e = 1%Z)).
Proof. exact no_cut_l. Qed.
(** A radius of zero is taken for no radius: every tagged event passes. *)
Theorem C29_zero_radius_refuted : forall dim ext outer x e,
  function_factory dim None ext outer = Ok x ->
  forall x0, function_factory dim (Some 0) ext outer = Ok x0 -> valid_ntuple x0 e = valid_ntuple x e.
Proof. exact no_radius_l. Qed.
(** Unknown names are refused; the two z-radial names of the factory give no extractor. *)
Theorem C29_unknown_name : forall dim fv ext outer,
  ~ In dim ["energy_mc"; "energy_reco"; "energy_truth"; "radial_mc"; "radial_reco"; "radial3_mc"; "radial3_reco";
            "zradial3_mc"; "zradial3_reco"] ->
  function_factory dim fv ext outer = Err EIndexError.
Proof. exact unknown_dim_l. Qed.
Theorem C29_zradial_refuted : forall dim fv ext outer,
  dim = "zradial3_mc" \/ dim = "zradial3_reco" -> function_factory dim fv ext outer = Err ETypeError.
Proof. exact zradial_l. Qed.
(** radial3 is non-negative, below 1 exactly inside the outer radius, and increases with
    the distance. *)
Theorem C29_radial3 : forall dim outer fv e,
  dim = "radial3_mc" \/ dim = "radial3_reco" -> 0 < outer ->
  exists x, function_factory dim fv false (Some outer) = Ok x /\
    let p := fun e => if String.eqb dim "radial3_mc" then n_mcPos e else n_pos e in
    0 <= value_ntuple x e /\
    (within outer (p e) <-> value_ntuple x e < 1) /\
    (forall e', dist2 (p e) < dist2 (p e') <-> value_ntuple x e < value_ntuple x e').
Proof. exact radial3_l. Qed.

(** ROOT files. *)
Theorem C29_root_mc : forall dim r outer d,
  In dim ["energy_mc"; "energy_truth"; "radial_mc"; "radial3_mc"] -> r <> 0 ->
  exists x, function_factory dim (Some r) false outer = Ok x /\
    exists b, valid_root_mc x d = Ok b /\ (b = true <-> within r (m_pos (d_mc d))).
Proof. exact root_mc_l. Qed.
Theorem C29_root_reco : forall dim r ext outer d ev,
  In dim ["energy_reco"; "radial_reco"; "radial3_reco"] -> r <> 0 ->
  exists x, function_factory dim (Some r) ext outer = Ok x /\
    (valid_root_ev x d ev = true <->
     e_fit ev = true /\
     (if String.eqb dim "radial_reco" then e_hasP ev && e_validP ev else e_hasE ev && e_validE ev) = true /\
     within r (e_pos ev)).
Proof. exact root_ev_l. Qed.
(** External entries: the cut needs exactly one trigger, otherwise the call raises (also
    for an entry without trigger, which the code means to reject). *)
Theorem C29_root_external : forall dim r outer d,
  In dim ["energy_mc"; "energy_truth"] -> r <> 0 ->
  exists x, function_factory dim (Some r) true outer = Ok x /\
    match d_evs d with
    | [ev] => exists b, valid_root_mc x d = Ok b /\ (b = true <-> within r (e_pos ev))
    | _ => valid_root_mc x d = Err EValueError
    end.
Proof. exact root_external_l. Qed.
(** Without a radius, an external entry without any trigger is accepted. *)
Theorem C29_root_external_no_trigger_refuted : forall dim outer d,
  In dim ["energy_mc"; "energy_truth"] ->
  exists x, function_factory dim None true outer = Ok x /\ valid_root_mc x d = Ok true.
Proof. exact root_external_nofv_l. Qed.

(** The value of every extractor the factory gives: for an ntuple entry, the MC branch of a ROOT
    entry and a trigger. *)
Theorem C29_values : forall dim fv ext outer x, function_factory dim fv ext outer = Ok x ->
  (forall e, In (dim, value_ntuple x e)
     [("energy_mc", n_mcEdepQuenched e); ("energy_reco", n_energy e); ("energy_truth", n_mcEdep e);
      ("radial_mc", distance (n_mcPos e)); ("radial_reco", distance (n_pos e));
      ("radial3_mc", (distance (n_mcPos e) / outer_used outer) ^ 3); ("radial3_reco", (distance (n_pos e) / outer_used outer) ^ 3)]) /\
  (forall m, is_reco_kind (x_kind x) = false -> In (dim, value_root_mc x m)
     [("energy_mc", m_quenched m); ("energy_truth", m_edep m); ("radial_mc", distance (m_pos m));
      ("radial3_mc", (distance (m_pos m) / outer_used outer) ^ 3)]) /\
  (forall ev, is_reco_kind (x_kind x) = true -> exists v, value_root_ev x ev = Ok v /\
     In (dim, v) [("energy_reco", e_energy ev); ("radial_reco", distance (e_pos ev)); ("radial3_reco", (distance (e_pos ev) / outer_used outer) ^ 3)]).
Proof. exact values_l. Qed.

(** A point inside and a point on the sphere. *)
Example C29_ex : within 5 (Vec 2 3 1) /\ ~ within 5 (Vec 3 4 0) /\ (5:R) <> 0 /\
  In "energy_mc" ["energy_mc"; "energy_truth"; "radial_mc"; "radial3_mc"].
Proof. unfold within, dist2. cbn. repeat split; try lra. left. reflexivity. Qed.

Print Assumptions C29_energy_reco.
Print Assumptions C29_radial3.
Print Assumptions C29_zradial_refuted.
Print Assumptions C29_values.

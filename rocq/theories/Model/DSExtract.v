(** echidna/core/dsextract.py: the extractors, over the real numbers (distances are square
    roots; float rounding is not modelled).
    The RAT objects are modelled by records of what the extractors read from them. *)
From Coq Require Import Reals.
From Verif Require Import Model.Base.
Local Open Scope R_scope.

(** ROOT's TVector3: the three coordinates read in dsextract.py:155-160 etc. *)
Record vec := Vec { vx : R; vy : R; vz : R }.
(** numpy.fabs(numpy.sqrt(x**2 + y**2 + z**2)) of the ntuple code and TVector3.Mag();
    dsextract.py:120-128, 148, 158 *)
Definition mag (p : vec) : R := Rabs (sqrt (vx p ^ 2 + vy p ^ 2 + vz p ^ 2)).

(** The ntuple fields read by get_valid_ntuple and get_value_ntuple.
    dsextract.py:110-131, 192-220, 256-275, 330-354 *)
Record nentry := NEntry {
  n_evIndex : Z; n_scintFit : Z; n_mc : Z;
  n_energy : R; n_mcEdepQuenched : R; n_mcEdep : R;
  n_pos : vec; n_mcPos : vec }.

(** What the ROOT code reads: the MC branch, an EV, an entry. dsextract.py:133-190 *)
Record mcbranch := MCB { m_pos : vec; m_quenched : R; m_edep : R }.
(** What the extractors read from a RAT EV: dsextract.py:277-328, 691-742. *)
Record evbranch := EVB {
  e_fit : bool;                                  (* DefaultFitVertexExists *)
  e_hasE : bool; e_validE : bool;                (* ContainsEnergy, ValidEnergy *)
  e_hasP : bool; e_validP : bool;                (* ContainsPosition, ValidPosition *)
  e_pos : vec; e_energy : R }.
(** A RAT DS entry: its MC branch and its EVs (dsextract.py:133-160). *)
Record dsentry := DSE { d_mc : mcbranch; d_evs : list evbranch }.

(** The classes of extractors, dsextract.py:82, 223, 357, 497, 637, 773, 926, 1075, 1228. *)
Inductive xkind :=
| EnergyMC | EnergyReco | EnergyTruth | RadialMC | RadialReco | Radial3MC | Radial3Reco
| ZRadial3MC | ZRadial3Reco.

(** The attributes of an extractor; [x_other] is _reco_pos (MC, truth classes) or _mc_pos
    (reco classes). dsextract.py:74-79, 102-108, 246-254 *)
Record dsx := DSX { x_kind : xkind; x_fv : option R; x_ext : bool; x_other : bool; x_outer : R }.

(** calc/constants.py:7 *)
Definition av_radius : R := 5997.

(** The classes that read reconstructed values: dsextract.py:223, 637, 926, 1228. *)
Definition is_reco_kind (k : xkind) : bool :=
  match k with EnergyReco | RadialReco | Radial3Reco | ZRadial3Reco => true | _ => false end.

(** [if self._fv_radius:] and [if outer_radius:]: None and 0 are false. dsextract.py:176, 205, 807 *)
Definition truthy (o : option R) : option R :=
  match o with
  | None => None
  | Some r => if Req_EM_T r 0 then None else Some r
  end.

(** The constructors, dsextract.py:102-108, 246-254, 375-382, 520-526, 660-668, 801-813,
    955-968.  1095-1103 and 1251-1259 (ZRadial3) call Extractor.__init__ without its third
    argument, and do not accept [external]: TypeError. *)
Definition mk_dsx (k : xkind) (fv : option R) (external other : bool) (outer : option R) : res dsx :=
  let out := match truthy outer with Some r => r | None => av_radius end in
  match k with
  | EnergyMC | EnergyTruth => Ok (DSX k fv external (if external then true else other) out)
  | EnergyReco | RadialReco | Radial3Reco =>
      if external && other then Err EValueError else Ok (DSX k fv external other out)
  | RadialMC | Radial3MC =>
      if external then Err EValueError else Ok (DSX k fv external other out)
  | ZRadial3MC | ZRadial3Reco => Err ETypeError
  end.

(** dsextract.py:6-53, function_factory.  The keyword arguments are fv_radius (None if not
    given), external (False if not given), outer_radius (None if not given; passed on to
    the radial3 and zradial3 extractors only). *)
Definition function_factory (dim : string) (fv : option R) (external : bool) (outer : option R) : res dsx :=
  if String.eqb dim "energy_mc" then mk_dsx EnergyMC fv external false None
  else if String.eqb dim "energy_reco" then mk_dsx EnergyReco fv external false None
  else if String.eqb dim "energy_truth" then mk_dsx EnergyTruth fv external false None
  else if String.eqb dim "radial_mc" then mk_dsx RadialMC fv external false None
  else if String.eqb dim "radial_reco" then mk_dsx RadialReco fv external false None
  else if String.eqb dim "radial3_mc" then mk_dsx Radial3MC fv external false outer
  else if String.eqb dim "radial3_reco" then mk_dsx Radial3Reco fv external false outer
  else if String.eqb dim "zradial3_mc" then mk_dsx ZRadial3MC fv external false outer
  else if String.eqb dim "zradial3_reco" then mk_dsx ZRadial3Reco fv external false outer
  else Err EIndexError.

(** Extractor._name; dsextract.py:77 *)
Definition x_name (x : dsx) : string :=
  match x_kind x with
  | EnergyMC => "energy_mc" | EnergyReco => "energy_reco" | EnergyTruth => "energy_truth"
  | RadialMC => "radial_mc" | RadialReco => "radial_reco"
  | Radial3MC => "radial3_mc" | Radial3Reco => "radial3_reco"
  | ZRadial3MC => "zradial3_mc" | ZRadial3Reco => "zradial3_reco"
  end.

(** Float comparison [<] in the cuts, e.g. dsextract.py:131. *)
Definition Rltb (a b : R) : bool := if Rlt_dec a b then true else false.

(** fv_cut_ntuple: dsextract.py:110-131, 384-405, 528-549, 815-836, 1105-1126 (MC classes);
    256-275, 670-689, 970-989, 1261-1280 (reco classes). [r] is self._fv_radius. *)
Definition fv_cut_ntuple (x : dsx) (r : R) (e : nentry) : bool :=
  if is_reco_kind (x_kind x) then
    if negb (x_other x) then Rltb (mag (n_pos e)) r else Rltb (mag (n_mcPos e)) r
  else
    if negb (x_other x) then Rltb (mag (n_mcPos e)) r
    else if (n_scintFit e =? 1)%Z then Rltb (mag (n_pos e)) r else false.

(** get_valid_ntuple: dsextract.py:192-209, 466-483 (energy MC and truth); 330-343 (energy
    reco); 607-621, 895-909, 1190-1204 (radial MC); 744-757, 1045-1058, 1342-1355 (radial reco). *)
Definition valid_ntuple (x : dsx) (e : nentry) : bool :=
  let fv := match truthy (x_fv x) with Some r => fv_cut_ntuple x r e | None => true end in
  match x_kind x with
  | EnergyMC | EnergyTruth =>
      if x_ext x && negb (n_scintFit e =? 1)%Z then false
      else if (n_mc e =? 1)%Z then fv else false
  | EnergyReco => if (n_scintFit e =? 1)%Z && Rltb 0 (n_energy e) then fv else false
  | RadialMC | Radial3MC | ZRadial3MC => if (n_mc e =? 1)%Z then fv else false
  | RadialReco | Radial3Reco | ZRadial3Reco => if (n_scintFit e =? 1)%Z then fv else false
  end.

(** get_value_ntuple: dsextract.py:211-220, 345-354, 485-494, 623-634, 759-770, 911-923,
    1060-1072, 1206-1225, 1357-1377 *)
Definition value_ntuple (x : dsx) (e : nentry) : R :=
  match x_kind x with
  | EnergyMC => n_mcEdepQuenched e
  | EnergyReco => n_energy e
  | EnergyTruth => n_mcEdep e
  | RadialMC => mag (n_mcPos e)
  | RadialReco => mag (n_pos e)
  | Radial3MC => (mag (n_mcPos e) / x_outer x) ^ 3
  | Radial3Reco => (mag (n_pos e) / x_outer x) ^ 3
  | ZRadial3MC => if Rlt_dec (vz (n_mcPos e)) 0 then -1 * (mag (n_mcPos e) / x_outer x) ^ 3
                  else (mag (n_mcPos e) / x_outer x) ^ 3
  | ZRadial3Reco => if Rlt_dec (vz (n_pos e)) 0 then -1 * (mag (n_pos e) / x_outer x) ^ 3
                    else (mag (n_pos e) / x_outer x) ^ 3
  end.

(** fv_cut_root of the MC classes: dsextract.py:133-160, 407-434, 551-578, 838-865,
    1128-1155.  [ds.GetEVCount == 0] compares a bound method with 0 and is always False. *)
Definition fv_cut_root_mc (x : dsx) (r : R) (d : dsentry) : res bool :=
  if negb (x_other x) then Ok (Rltb (mag (m_pos (d_mc d))) r)
  else match d_evs d with
       | [ev] => Ok (Rltb (mag (e_pos ev)) r)
       | _ => Err EValueError
       end.
(** fv_cut_root of the reco classes: 277-299, 691-713, 991-1013, 1282-1304;
    dsextract.py:277-299, 691-713, 991-1013, 1282-1304 *)
Definition fv_cut_root_ev (x : dsx) (r : R) (d : dsentry) (ev : evbranch) : bool :=
  if negb (x_other x) then Rltb (mag (e_pos ev)) r else Rltb (mag (m_pos (d_mc d))) r.

(** get_valid_root of the MC classes: 162-179, 436-453, 580-594, 867-881, 1157-1171.
    [mc.GetMCParticleCount > 0] compares a bound method with 0: always True in Python 2.
    dsextract.py:162-179, 436-453, 580-594, 867-881, 1157-1171 *)
Definition valid_root_mc (x : dsx) (d : dsentry) : res bool :=
  match truthy (x_fv x) with
  | Some r => fv_cut_root_mc x r d
  | None => Ok true
  end.
(** get_valid_root of the reco classes: 301-317, 715-731 (position), 1015-1031, 1306-1322
    (the radial3 classes test the energy flags). dsextract.py:301-317, 715-731, 1015-1031, 1306-1322 *)
Definition valid_root_ev (x : dsx) (d : dsentry) (ev : evbranch) : bool :=
  let flags := match x_kind x with
               | RadialReco => e_hasP ev && e_validP ev
               | _ => e_hasE ev && e_validE ev
               end in
  if e_fit ev && flags then
    match truthy (x_fv x) with Some r => fv_cut_root_ev x r d ev | None => true end
  else false.

(** get_value_root: 181-190, 455-464, 596-605, 883-893, 1173-1188; 319-328, 733-742,
    1033-1043 (1324-1340 raises AttributeError). dsextract.py:181-190, 455-464, 596-605, 883-893, 1173-1188 *)
Definition value_root_mc (x : dsx) (m : mcbranch) : R :=
  match x_kind x with
  | EnergyMC => m_quenched m
  | EnergyTruth => m_edep m
  | RadialMC => mag (m_pos m)
  | ZRadial3MC => if Rlt_dec (vz (m_pos m)) 0 then -1 * (mag (m_pos m) / x_outer x) ^ 3
                  else (mag (m_pos m) / x_outer x) ^ 3
  | _ => (mag (m_pos m) / x_outer x) ^ 3
  end.
(** get_value_root of the reco classes: dsextract.py:319-328, 733-742, 1033-1043, 1324-1340. *)
Definition value_root_ev (x : dsx) (ev : evbranch) : res R :=
  match x_kind x with
  | EnergyReco => Ok (e_energy ev)
  | RadialReco => Ok (mag (e_pos ev))
  | ZRadial3Reco => Err EAttributeError
  | _ => Ok ((mag (e_pos ev) / x_outer x) ^ 3)
  end.

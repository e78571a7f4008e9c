(** echidna/core/config.py: SpectraFitConfig and GlobalFitConfig, and dump/load of all
    three kinds of configuration.  What json.dumps/json.loads or the YAML functions read
    and write is the tree type [jval]; the text encodings themselves are not modelled. *)
From Verif Require Import Model.Base Model.PyStr Model.Param Model.Config Model.FitParam.
Local Open Scope string_scope.
Local Open Scope list_scope.

(** What json or yaml read and write: config.py:63-76, store.py:102. *)
Inductive jval := JNull | JBool (b : bool) | JInt (z : Z) | JNum (x : Qc) | JStr (s : string)
  | JObj (d : list (string * jval)).
(** A dictionary of such values. config.py:48-60 *)
Definition jdict := dict jval.

(** [float(x)]; strings that spell a number are not modelled (ValueError instead); parameter.py:204 *)
Definition jfloat (j : jval) : res Qc :=
  match j with
  | JNum x => Ok x
  | JInt z => Ok (zq z)
  | JBool b => Ok (if b then 1 else 0)%Qc
  | JStr _ => Err EValueError
  | JNull | JObj _ => Err ETypeError
  end.
(** [int(x)]; parameter.py:42 *)
Definition jint (j : jval) : res Z := match j with JInt z => Ok z | _ => rmap qtrunc (jfloat j) end.
(** A number or None kept as it is; anything else is not modelled (TypeError). parameter.py:205-213 *)
Definition jopt (j : jval) : res (option Qc) :=
  match j with JNull => Ok None | JNum x => Ok (Some x) | JInt z => Ok (Some (zq z)) | _ => Err ETypeError end.
(** A flag or None, as stored by parameter.py:625-627. *)
Definition jflag (j : jval) : res (option bool) :=
  match j with JNull => Ok None | JBool b => Ok (Some b) | _ => Err ETypeError end.
(** A string or None, as stored in a configuration. parameter.py:210 *)
Definition jstr (j : jval) : res (option string) :=
  match j with JNull => Ok None | JStr s => Ok (Some s) | _ => Err ETypeError end.
(** The value stored for a number that may be None, parameter.py:620-633. *)
Definition ojnum (o : option Qc) : jval := match o with Some x => JNum x | None => JNull end.
(** The value stored for a flag that may be None, parameter.py:620-633. *)
Definition ojflag (o : option bool) : jval := match o with Some b => JBool b | None => JNull end.
(** A nested dictionary. config.py:157-187 *)
Definition jobj (j : jval) : res jdict := match j with JObj d => Ok d | _ => Err ETypeError end.

(** ** SpectraParameter: parameter.py 105-122 and 1049-1053 *)
Definition sp_to_dict (p : spar) : jdict :=
  [("low", JNum (sp_low p)); ("high", JNum (sp_high p)); ("bins", JInt (sp_bins p))].
(** A call with keyword arguments [**kw]: unexpected or missing ones raise TypeError.
    config.py:179-187, 440-470 *)
Definition kw_known (names : list string) (kw : jdict) : res unit :=
  if forallb (fun k => str_in k names) (dkeys kw) then Ok tt else Err ETypeError.
(** A keyword argument without default: TypeError if missing (parameter.py:194, 1049). *)
Definition kw_required (k : string) (kw : jdict) : res jval :=
  match dget k kw with Some v => Ok v | None => Err ETypeError end.
(** A keyword argument with default (parameter.py:194-198). *)
Definition kw_default (k : string) (d : jval) (kw : jdict) : jval :=
  match dget k kw with Some v => v | None => d end.
(** parameter.py:1049-1053, SpectraParameter(name, **kw), as called in config.py:754-756. *)
Definition load_spar (kw : jdict) : res spar :=
  do _ <- kw_known ["low"; "high"; "bins"] kw;
  do lo <- kw_required "low" kw; do hi <- kw_required "high" kw; do b <- kw_required "bins" kw;
  do lo <- jfloat lo; do hi <- jfloat hi; do b <- jint b;
  Ok (SPar lo hi b).

(** ** FitParameter.to_dict, parameter.py 598-634.  Line 633 stores the best fit under
    "penalty_term". *)
Definition fp_to_dict (basic : bool) (p : fpar) : jdict :=
  [("prior", JNum (fp_prior p)); ("sigma", ojnum (fp_sigma p)); ("low", JNum (fp_low p));
   ("high", JNum (fp_high p)); ("bins", JInt (fp_bins p)); ("logscale", ojflag (fp_logscale p));
   ("base", ojnum (fp_base p)); ("logscale_deviation", ojflag (fp_logdev p))] ++
  (if basic then []
   else [("current_value", ojnum (fp_current p)); ("best_fit", ojnum (fp_best p)); ("penalty_term", ojnum (fp_best p))]).

(** The class of a fit parameter; all the constructors (659-665, 704-707, 827-830,
    941-944) hand their arguments to FitParameter.__init__, the last three take the
    dimension as an argument of its own. parameter.py:632-665, 687-707, 811-830, 925-944 *)
Inductive pclass := PRate | PResolution | PScale | PShift.
(** A fit parameter object: its class and attributes (parameter.py:637-963). *)
Record cpar := CPar { cp_class : pclass; cp_par : fpar }.

Section Load.
Variable np_e : Qc.          (* numpy.e, the default base *)
(** A "values" entry is not modelled (TypeError). parameter.py:190-230; config.py:440-470 *)
Definition fp_keywords : list string :=
  ["prior"; "sigma"; "low"; "high"; "bins"; "current_value"; "penalty_term"; "best_fit"; "logscale"; "base"; "logscale_deviation"].
(** parameter.py:194-230, FitParameter.__init__ called with keywords (config.py:444-464, 476-479, 629-630). *)
Definition load_fpar (name : string) (dim : option string) (kw : jdict) : res fpar :=
  do _ <- kw_known (match dim with Some _ => fp_keywords | None => "dimension" :: fp_keywords end) kw;
  do prior <- kw_required "prior" kw; do sigma <- kw_required "sigma" kw;
  do lo <- kw_required "low" kw; do hi <- kw_required "high" kw; do b <- kw_required "bins" kw;
  do lo <- jfloat lo; do hi <- jfloat hi; do b <- jint b; do prior <- jfloat prior; do sigma <- jopt sigma;
  do d <- match dim with Some d => Ok (Some d) | None => jstr (kw_default "dimension" JNull kw) end;
  do cur <- jopt (kw_default "current_value" JNull kw);
  do pen <- jopt (kw_default "penalty_term" JNull kw);
  do best <- jopt (kw_default "best_fit" JNull kw);
  do ls <- jflag (kw_default "logscale" JNull kw);
  do base <- jopt (kw_default "base" (JNum np_e) kw);
  do ld <- jflag (kw_default "logscale_deviation" JNull kw);
  new_fpar name prior sigma lo hi b d None cur pen best ls base ld.

(** ** SpectraConfig.dump / load, 676-696 and 718-757.  The name is a separate argument.
    config.py:676-696, 718-757 *)
Definition sc_dump (c : sconfig) : jdict :=
  [("parameters", JObj (map (fun kp => (fst kp, JObj (sp_to_dict (snd kp)))) c))].
(** [not config.get(main_key)]: missing, None or an empty dictionary; config.py:437, 730 *)
Definition section (key : string) (config : jdict) : res jdict :=
  match dget key config with
  | None | Some JNull => Err EKeyError
  | Some (JObj []) => Err EKeyError
  | Some (JObj d) => Ok d
  | Some _ => Err ETypeError
  end.
(** The loop over the entries in load: config.py:627-632, 754-756. *)
Fixpoint load_all {A} (f : string -> jval -> res A) (acc : dict A) (l : jdict) : res (dict A) :=
  match l with
  | [] => Ok acc
  | (k, j) :: l' => do p <- f k j; load_all f (dset k p acc) l'
  end.
(** config.py:718-757, SpectraConfig.load *)
Definition sc_load (config : jdict) : res sconfig :=
  do d <- section "parameters" config; load_all (fun _ j => do kw <- jobj j; load_spar kw) [] d.

(** ** SpectraFitConfig, 515-657; config.py:515-657 *)
Record sfconfig := SFC { sf_name : string; sf_spectra : string; sf_pars : dict cpar }.
(** config.py:539-560, SpectraFitConfig.dump *)
Definition sf_dump (basic : bool) (c : sfconfig) : jdict :=
  [("spectral_fit_parameters", JObj (map (fun kp => (fst kp, JObj (fp_to_dict basic (cp_par (snd kp))))) (sf_pars c)))].
(** config.py:628-632: only rates are spectral fit parameters. *)
Definition load_rate (syst : string) (j : jval) : res cpar :=
  if contains "rate" syst then do kw <- jobj j; rmap (CPar PRate) (load_fpar syst None kw) else Err EIndexError.
(** config.py:587-633, SpectraFitConfig.load *)
Definition sf_load (config : jdict) (spectra_name name : string) : res sfconfig :=
  do d <- section "spectral_fit_parameters" config;
  do ps <- load_all load_rate [] d;
  Ok (SFC name spectra_name ps).

(** ** GlobalFitConfig, 211-512.  An entry is a parameter and its type: global or spectra. config.py:211-262 *)
Record gentry := GE { ge_par : cpar; ge_global : bool }.
(** config.py:222-226, GlobalFitConfig: name and ordered dictionary of entries. *)
Record gconfig := GC { gc_name : string; gc_pars : dict gentry }.
(** config.py:364-387 *)
Definition get_global_pars (g : gconfig) : list cpar := map ge_par (filter ge_global (map snd (gc_pars g))).
(** config.py:377-387 *)
Definition get_spectra_pars (g : gconfig) : list cpar := map ge_par (filter (fun e => negb (ge_global e)) (map snd (gc_pars g))).
(** config.py:127-133, 78-93, 353-362, 114-125, 135-145 *)
Definition gc_get_pars (g : gconfig) : list string := dkeys (gc_pars g).
(** config.py:78-93 *)
Definition gc_get_index (g : gconfig) (p : string) : res nat := index_of p (gc_get_pars g).
(** config.py:353-362 *)
Definition gc_get_par (g : gconfig) (n : string) : res cpar := rmap ge_par (dlookup n (gc_pars g)).
(** config.py:114-125 *)
Definition gc_get_par_by_index (g : gconfig) (i : nat) : res cpar :=
  match nth_error (gc_get_pars g) i with Some n => gc_get_par g n | None => Err EIndexError end.
(** config.py:135-145 *)
Definition gc_get_shape (g : gconfig) : list Z := map (fun ke => fp_bins (cp_par (ge_par (snd ke)))) (gc_pars g).
(** config.py:251-262 *)
Definition gc_add_par (g : gconfig) (p : cpar) (par_type : string) : res gconfig :=
  if String.eqb par_type "global" || String.eqb par_type "spectra"
  then Ok (GC (gc_name g) (dset (fp_name (cp_par p)) (GE p (String.eqb par_type "global")) (gc_pars g)))
  else Err EIndexError.
(** config.py:251-262, add_par with a type known to be right. *)
Definition add_as (global : bool) (g : gconfig) (p : cpar) : gconfig :=
  GC (gc_name g) (dset (fp_name (cp_par p)) (GE p global) (gc_pars g)).
(** config.py:228-249.  A spectra fit config's parameter objects are renamed and shared (236-241):
    the renamed config is returned too.  A config of any other class raises ValueError. *)
Definition fp_rename (n : string) (p : fpar) : fpar :=
  FPar n (fp_prior p) (fp_sigma p) (fp_low p) (fp_high p) (fp_bins p) (fp_dim p) (fp_values p)
       (fp_current p) (fp_best p) (fp_penalty p) (fp_logscale p) (fp_base p) (fp_logdev p).
(** config.py:237-240: the parameter of a spectra configuration gets the name of the spectrum in front. *)
Definition rename_par (spectra_name : string) (kp : string * cpar) : string * cpar :=
  (fst kp, CPar (cp_class (snd kp)) (fp_rename (spectra_name ++ "_" ++ fst kp) (cp_par (snd kp)))).
(** config.py:235-241, add_config of a SpectraFitConfig. *)
Definition add_sfconfig (g : gconfig) (c : sfconfig) : gconfig * sfconfig :=
  let ps := map (rename_par (sf_spectra c)) (sf_pars c) in
  (fold_left (add_as false) (map snd ps) g, SFC (sf_name c) (sf_spectra c) ps).
(** config.py:242-246, add_config of a GlobalFitConfig. *)
Definition add_gconfig (g c : gconfig) : gconfig :=
  fold_left (add_as false) (get_spectra_pars c) (fold_left (add_as true) (get_global_pars c) g).

(** config.py:264-311, dump: the global parameters by dimension, and the spectral ones *)
Definition strip_dim (dim name : string) : string :=
  if contains dim name then replace (dim ++ "_") "" name else name.
(** config.py:280-297: the global parameters by dimension. *)
Fixpoint dump_globals (basic : bool) (acc : dict jdict) (l : list cpar) : res (dict jdict) :=
  match l with
  | [] => Ok acc
  | c :: l' =>
      match fp_dim (cp_par c) with
      | None => Err ETypeError                       (* None in "..." *)
      | Some d =>
          let sub := match dget d acc with Some s => s | None => [] end in
          let n := strip_dim d (fp_name (cp_par c)) in
          dump_globals basic (dset d (dset n (JObj (fp_to_dict basic (cp_par c))) sub) acc) l'
      end
  end.
(** config.py:300-309: the spectral parameters. *)
Definition dump_spectral (basic : bool) (l : list cpar) : jdict :=
  fold_left (fun acc c => dset (fp_name (cp_par c)) (JObj (fp_to_dict basic (cp_par c))) acc) l [].
(** config.py:264-311, GlobalFitConfig.dump *)
Definition gc_dump (basic : bool) (g : gconfig) : res (jdict * jdict) :=
  do d <- dump_globals basic [] (get_global_pars g);
  Ok ([("global_fit_parameters", JObj (map (fun kv => (fst kv, JObj (snd kv))) d))],
      [("spectral_fit_parameters", JObj (dump_spectral basic (get_spectra_pars g)))]).

(** config.py:389-483, load.  The local variable [name] is overwritten at every parameter (443). *)
Definition class_of (syst : string) : res pclass :=
  if String.eqb syst "resolution" || String.eqb syst "resolution_ly" then Ok PResolution
  else if String.eqb syst "shift" then Ok PShift
  else if String.eqb syst "scale" then Ok PScale
  else Err EIndexError.
(** config.py:442-464: the parameters of one dimension. *)
Fixpoint load_dim (dim : string) (st : string * dict gentry) (l : jdict) : res (string * dict gentry) :=
  match l with
  | [] => Ok st
  | (syst, j) :: l' =>
      let name := dim ++ "_" ++ syst in
      do c <- class_of syst;
      do kw <- jobj j;
      do p <- load_fpar name (Some dim) kw;
      load_dim dim (name, dset name (GE (CPar c p) true) (snd st)) l'
  end%string.
(** config.py:441-464: the loop over the dimensions. *)
Fixpoint load_dims (st : string * dict gentry) (l : jdict) : res (string * dict gentry) :=
  match l with
  | [] => Ok st
  | (dim, j) :: l' => do d <- jobj j; do st' <- load_dim dim st d; load_dims st' l'
  end.
(** config.py:474-481: the spectral parameters. *)
Fixpoint load_spectral (acc : dict gentry) (l : jdict) : res (dict gentry) :=
  match l with
  | [] => Ok acc
  | (syst, j) :: l' =>
      if contains "rate" syst then
        do kw <- jobj j; do p <- load_fpar syst None kw;
        load_spectral (dset syst (GE (CPar PRate p) false) acc) l'
      else Err EIndexError
  end.
(** config.py:389-483, GlobalFitConfig.load *)
Definition gc_load (global_config : jdict) (spectral_config : option jdict) (name : string) : res gconfig :=
  match dget "global_fit_parameters" global_config with
  | None => Err EKeyError
  | Some j =>
      do d <- jobj j;
      do st <- load_dims (name, []) d;
      match spectral_config with
      | None => Ok (GC (fst st) (snd st))
      | Some sc =>
          do s <- section "spectral_fit_parameters" sc;
          do ps <- load_spectral (snd st) s;
          Ok (GC (fst st) ps)
      end
  end.
End Load.

(** The scripts of echidna/scripts that read one file, transform its spectrum and write
    another: dump_scaled.py, dump_shifted.py, dump_smeared.py, dump_smeared_energy.py,
    dump_shrink.py and rebin.py.
    Not modelled: argparse itself (its result is the argument of the model), help texts,
    logging and printing.  The handler around main that logs the exception
    (dump_scaled.py:89-93) is left out: the exception is the outcome. *)
From Verif Require Import Model.Base Model.PyStr Model.NDArray Model.Param Model.Config Model.Spectra
  Model.Smear Model.Shift Model.Heap Model.Fit Model.Store Model.Combine.
Local Open Scope string_scope.

(** [s.rfind(c) + 1]: 0 if there is none. dump_shifted.py:41; dump_spectra_ntuple.py:121 *)
Fixpoint after_last (c : ascii) (s : string) : nat :=
  match s with
  | EmptyString => 0
  | String a s' =>
      match after_last c s' with
      | O => if Ascii.eqb a c then 1 else 0
      | S k => S (S k)
      end
  end.
(** os.path.basename (posixpath): what follows the last slash. dump_scaled.py:59 *)
Definition basename (p : string) : string := drop (after_last "/" p) p.
(** [p[:p.rfind("/")+1]], dump_shifted.py:42, dump_smeared.py:39, rebin.py:34. *)
Definition head_dir (p : string) : string := substring 0 (after_last "/" p) p.
(** os.path.dirname (posixpath): without the slashes at the end, unless there is nothing else.
    dump_scaled.py:58; dump_shrink.py:76 *)
Definition dirname (p : string) : string :=
  let head := head_dir p in
  if String.eqb (rstrip "/" head) "" then head else rstrip "/" head.
(** os.path.splitext(name)[0] (genericpath) for a name without slash: dots at the beginning
    do not start an extension. dump_scaled.py:59 *)
Definition split_root (name : string) : string :=
  match after_last "." name with
  | O => name
  | S k => if String.eqb (rstrip "." (substring 0 k name)) "" then name else substring 0 k name
  end.
(** [p[p.rfind("/")+1:p.rfind(".")]], dump_shifted.py:44, dump_smeared.py:41, rebin.py:36.
    Without a dot rfind gives -1, the place of the last character. *)
Definition stem (p : string) : string :=
  let i := after_last "/" p in
  let j := match after_last "." p with O => String.length p - 1 | S j => j end in
  substring i (j - i) p.
(** [if x:] for an optional number. dump_scaled.py:40-70 *)
Definition given (x : option Qc) : option Qc :=
  match x with Some v => if qeq v 0 then None else Some v | None => None end.
(** [if x:] for an optional text. dump_scaled.py:50-58 *)
Definition given_text (x : option string) : option string :=
  match x with Some "" => None | _ => x end.
(** A text without ".0" at its end: dump_scaled.py:64-67 (the result of rstrip in line 67 is
    thrown away), dump_smeared_energy.py:94-96. *)
Definition trimmed (s : string) : string := if String.eqb (last_n 2 s) ".0" then drop_last 2 s else s.

Section Scripts.
(** float(s) for old files and numpy.e (Model/Store.v); str of a float; the interpolation of
    scipy; os.path.isdir. *)
Variable parse_float : string -> res Qc.
Variable np_e : Qc.
Variable str : Qc -> string.
Variable spline : list Qc -> list Qc -> Qc -> Qc.
Variable isdir : string -> bool.

(** store.dump(path, spectrum), store.py:82-120. *)
Definition write_spectrum (fs : fsys) (path : string) (s : stored) : fsys * out :=
  let '(f, _, e) := dump (fs path) s false false in (write_file fs path f, e).
(** A script: everything before store.dump, then store.dump. dump_scaled.py:19-75 *)
Definition script (fs : fsys) (made : res (string * stored)) : fsys * out :=
  match made with
  | Err e => (fs, Some e)
  | Ok (path, s) => write_spectrum fs path s
  end.
(** dump_scaled.py:50-58, dump_smeared_energy.py:40-47: the directory of the option --dest. *)
Definition dest_dir (d : string) : res string :=
  if isdir d then Ok (if String.eqb (last_n 1 d) "/" then d else d ++ "/") else Err EValueError.
(** Smearing, shifting and scaling return a copy with the same attributes (copy.copy).
    smear.py:209-284; shift.py:33-168; scale.py:38-61 *)
Definition derived (d : derivation) (s : stored) : res stored :=
  do sp <- derive d (st_spec s); Ok (with_spec s sp).

(** dump_scaled.py:27-69 *)
Definition dump_scaled (fs : fsys) (file : option string) (scale_ : option Qc) (par dest : option string) : fsys * out :=
  script fs
    (match given_text file with
     | None => Err EIOError
     | Some file =>
         match given scale_ with
         | None => Err EValueError
         | Some v =>
             match given_text par with
             | None => Err EValueError
             | Some dim =>
                 do directory <- match given_text dest with
                                 | Some d => dest_dir d
                                 | None => Ok (dirname file ++ "/")
                                 end;
                 do sf <- set_scale_factor v;
                 do s <- load parse_float np_e (fs file);
                 do f <- interpolate1d spline dim (st_spec s);
                 do s' <- derived (DScale ("_sf" ++ str v) sf f dim) s;
                 Ok (directory ++ split_root (basename file) ++ "_" ++ trimmed (str v) ++ "sc.hdf5", s')
             end
         end
     end).
(** dump_shifted.py:20-50 *)
Definition dump_shifted (fs : fsys) (file : option string) (shift_ : option Qc) (dimension : option string) : fsys * out :=
  script fs
    (match given_text file with
     | None => Err EIOError
     | Some file =>
         match given shift_ with
         | None => Err EValueError
         | Some v =>
             match given_text dimension with
             | None => Err EValueError
             | Some dim =>
                 do s <- load parse_float np_e (fs file);
                 do p <- get_par (s_cfg (st_spec s)) dim;
                 do step <- get_width p;
                 do m <- is_multiple v step;
                 do f <- (if m then Ok (fun _ => 0%Qc) else interpolate1d spline dim (st_spec s));
                 do s' <- derived (DShift ("_shift" ++ str v) v f dim) s;
                 Ok (head_dir file ++ stem file ++ "_shifted.hdf5", s')
             end
         end
     end).

(** dump_smeared_energy.py:75-88, dump_smeared.py:51-72: the loop over the parameters;
    [smearer] picks the one for a parameter name, if any. *)
Fixpoint smear_pars (smearer : string -> option (stored -> res stored)) (pars : list string) (s : stored) : res stored :=
  match pars with
  | [] => Ok s
  | par :: pars' =>
      match smearer par with
      | Some f => do s' <- f s; smear_pars smearer pars' s'
      | None => smear_pars smearer pars' s
      end
  end.
(** The two methods of a smearer: weighted_smear and random_smear. dump_smeared_energy.py:60-100 *)
Record smearer := Smearer { sm_weighted : string -> stored -> res stored; sm_random : string -> stored -> res stored }.
(** args.smear_method, dump_smeared_energy.py:75-88, dump_smeared.py:51-72; parser.error
    leaves the program (modelled as Exception). *)
Definition by_method (method : string) (sm : smearer) : res (string -> stored -> res stored) :=
  if String.eqb method "weight" then Ok (sm_weighted sm)
  else if String.eqb method "random" then Ok (sm_random sm)
  else Err EException.

(** The floating point parts of smear.py: what is appended to the name (241, 488, 706), the
    width at an energy (183-192, 428-438, 642-648), the weight at a distance (with or without
    Poisson statistics: 264-271, 511-519; 726-733) and the random numbers (326-328, 574-576)
    of EnergySmearLY, EnergySmearRes and RadialSmear with a resolution. *)
Record formulas := Formulas {
  fo_name_ly : Qc -> string; fo_sigma_ly : Qc -> Qc -> Qc; fo_weight_ly : bool -> Qc -> Qc -> Qc -> Qc;
  fo_name_res : Qc -> string; fo_sigma_res : Qc -> Qc -> Qc; fo_weight_res : bool -> Qc -> Qc -> Qc -> Qc;
  fo_name_radial : string; fo_sigma_radial : Qc -> Qc; fo_weight_radial : Qc -> Qc -> Qc;
  fo_draw : string -> list nat -> nat -> Qc }.
Variable fo : formulas.
(** EnergySmearLY(poisson) with light yield [v], smear.py:106-345; five sigma (35). *)
Definition smear_ly (poisson : bool) (v : Qc) : smearer :=
  Smearer (fun par => derived (DWeighted (fo_name_ly fo v) (zq 5) (fo_sigma_ly fo v) (fo_weight_ly fo poisson v) par))
          (fun par => derived (DRandom (fo_name_ly fo v) (fo_draw fo par) par)).
(** EnergySmearRes(poisson) with resolution [v], smear.py:348-594. *)
Definition smear_res (poisson : bool) (v : Qc) : smearer :=
  Smearer (fun par => derived (DWeighted (fo_name_res fo v) (zq 5) (fo_sigma_res fo v) (fo_weight_res fo poisson v) par))
          (fun par => derived (DRandom (fo_name_res fo v) (fo_draw fo par) par)).
(** RadialSmear() with its default resolution, smear.py:597-801. *)
Definition smear_radial : smearer :=
  Smearer (fun par => derived (DWeighted (fo_name_radial fo) (zq 5) (fo_sigma_radial fo) (fo_weight_radial fo) par))
          (fun par s => do sp <- radial_random_smear (fo_name_radial fo) par (st_spec s); Ok (with_spec s sp)).

(** dump_smeared_energy.py:28-98.  EnergySmearRes.set_resolution (smear.py:440-455) and
    EnergySmearLY.set_resolution (194-207) raise for values out of range. *)
Definition dump_smeared_energy (fs : fsys) (method : string) (energy_resolution : option Qc) (light_yield : Qc) (gaus : bool)
  (dest : option string) (path : string) : fsys * out :=
  script fs
    (do directory <- match given_text dest with
                     | Some d => dest_dir d
                     | None => Ok (if String.eqb (dirname path) "" then "./" else dirname path ++ "/")
                     end;
     do sm <- match given energy_resolution with
              | Some r => if qlt 0 r && qlt r 1 then Ok (smear_res (negb gaus) r) else Err EValueError
              | None => if qlt 0 light_yield then Ok (smear_ly (negb gaus) light_yield) else Err EValueError
              end;
     do s <- load parse_float np_e (fs path);
     do f <- by_method method sm;
     do s' <- smear_pars (fun par => if contains "energy" par then Some (f par) else None) (get_pars (s_cfg (st_spec s))) s;
     Ok (directory ++ split_root (basename path) ++ "_" ++
         match given energy_resolution with
         | Some r => str r ++ "rs.hdf5"
         | None => trimmed (str light_yield) ++ "ly.hdf5"
         end, s')).
(** dump_smeared.py:26-75; the light yield is the default of EnergySmearLY (smear.py:122-126). *)
Definition dump_smeared (fs : fsys) (default_ly : Qc) (method : string) (energy_resolution : option Qc) (path : string) : fsys * out :=
  script fs
    (do sm <- match given energy_resolution with
              | Some r => if qlt 0 r && qlt r 1 then Ok (smear_res true r) else Err EValueError
              | None => Ok (smear_ly true default_ly)
              end;
     do s <- load parse_float np_e (fs path);
     do f <- by_method method sm;
     do g <- by_method method smear_radial;
     do s' <- smear_pars (fun par => if contains "energy" par then Some (f par)
                                     else if contains "radial" par then Some (g par) else None)
                         (get_pars (s_cfg (st_spec s))) s;
     Ok (head_dir path ++ stem path ++ "_smeared.hdf5", s')).

(** [if l:] for an optional list of numbers. rebin.py:28-48 *)
Definition given_list {A} (l : option (list A)) : option (list A) :=
  match l with Some [] => None | _ => l end.
(** dump_shrink.py:51-73: the keywords; the lists have been checked to be as long as the
    list of parameters. *)
Fixpoint bounds (suffix : string) (pars : list string) (xs : list Qc) (kw : dict Qc) : dict Qc :=
  match pars, xs with
  | p :: pars', x :: xs' => bounds suffix pars' xs' (dset (p ++ suffix) x kw)
  | _, _ => kw
  end.
(** A method of the spectrum inside a script. dump_shrink.py:15-80 *)
Definition with_method (f : spectra -> spectra * out) (s : stored) : res stored :=
  match f (st_spec s) with
  | (sp, None) => Ok (with_spec s sp)
  | (_, Some e) => Err e
  end.
(** dump_shrink.py:29-80.  The order in which keywords of one dictionary are written does
    not matter. *)
Definition dump_shrink (fs : fsys) (input : option string) (pars : option (list string)) (low up : option (list Qc))
  (output : option string) : fsys * out :=
  script fs
    (match given_text input, given_list pars with
     | Some input, Some pars =>
         match given_list low, given_list up with
         | None, None => Err EValueError
         | low, up =>
             do s <- load parse_float np_e (fs input);
             let fits x := match x with Some l => (length l =? length pars)%nat | None => true end in
             if fits low && fits up then
               let kw := match low with Some l => bounds "_low" pars l [] | None => [] end in
               let kw := match up with Some l => bounds "_high" pars l kw | None => kw end in
               do s' <- with_method (shrink kw) s;
               Ok (match given_text output with
                   | Some o => o
                   | None => dirname input ++ "/" ++ split_root (basename input) ++ "_shrunk.hdf5"
                   end, s')
             else Err EValueError
         end
     | _, _ => Err EValueError
     end).
(** rebin.py:24-48; without --bins rebin(None) raises TypeError. *)
Definition rebin_script (fs : fsys) (input : string) (output : option string) (bins : option (list Z)) : fsys * out :=
  script fs
    (do s <- load parse_float np_e (fs input);
     match bins with
     | None => Err ETypeError
     | Some bins =>
         do s' <- with_method (rebin bins) s;
         Ok (match given_text output with
             | Some o => o
             | None => head_dir input ++ stem input ++ "_rebin.hdf5"
             end, s')
     end).
End Scripts.

(** The scripts of echidna/scripts that make spectra from event files:
    dump_spectra_ntuple.py, multi_ntuple_spectrum.py and dump_spectra_root.py.
    Not modelled: argparse itself (its result is the argument of the model), help texts,
    printing and drawing (drawing may raise; it does not change the spectrum). *)
From Verif Require Import Model.Base Model.PyStr Model.NDArray Model.Param Model.Config Model.Spectra
  Model.Smear Model.Shift Model.Heap Model.Fit Model.FillSpectrum Model.FitConfig Model.Store Model.Combine Model.Scripts.
Local Open Scope string_scope.

(** [fname[fname.rfind('/', 0, -1)+1:]], dump_spectra_ntuple.py:120, 126,
    dump_spectra_root.py:115, 121: a slash at the end is not looked at. *)
Definition event_name (fname : string) : string := drop (after_last "/" (drop_last 1 fname)) fname.
(** [data_path[data_path.rfind('/', 0, -2)+1:-1]], multi_ntuple_spectrum.py:124: the path is
    expected to end with a slash. *)
Definition folder_name (data_path : string) : string :=
  drop (after_last "/" (drop_last 2 data_path)) (drop_last 1 data_path).

(** The file a spectrum that was just made is stored as: no fit configuration, default style
    (spectra.py:52-58); [cname] is the name of the spectra configuration. *)
Definition just_made (cname : string) (s : spectra) : stored := Stored s cname None default_style.

Section Ntuple.
(** The entries of an ntuple, with evIndex; what TChain gives for a path. *)
Variable E : Type.
Variable evIndex : E -> Z.
Variable entries : string -> list E.
(** dsextract.function_factory with the keywords fv_radius and, if given, outer_radius. *)
Variable factory : option Qc -> option Qc -> string -> res (extractor E).
(** SpectraConfig.load_from_file: the configuration and its name. *)
Variable read_config : string -> res (string * sconfig).
(** plot_root.plot_projection of a spectrum onto a parameter, for each parameter. *)
Variable plots : spectra -> out.
(** os.listdir, and the rows csv.reader gives for a text file. *)
Variable listdir : string -> res (list string).
Variable rows : string -> res (list (list string)).

(** dump_spectra_ntuple.py:45-49, multi_ntuple_spectrum.py:51-55: the keyword outer_radius
    is passed on if it is not None or zero. *)
Definition outer_keyword (c : sconfig) (outer : option Qc) : res (option Qc) :=
  match given outer with
  | None => Ok None
  | Some r => if str_in "radial3" (get_dims c) then Ok (Some r) else Err EValueError
  end.
(** An exception as a result. dump_spectra_ntuple.py:96-130 *)
Definition outcome (e : out) : res unit := match e with None => Ok tt | Some x => Err x end.

(** dump_spectra_ntuple.py:28-63, read_and_dump_ntuple *)
Definition read_and_dump_ntuple (fs : fsys) (fname config_path name save_path : string) (bipo : bool) (fv outer : option Qc) : fsys * out :=
  script fs
    (do nc <- read_config config_path;
     do o <- outer_keyword (snd nc) outer;
     do s <- fill_from_ntuple evIndex (factory fv o) (name ++ "_mc") (Some (snd nc)) bipo (entries fname);
     do _ <- outcome (plots s);
     Ok (save_path ++ "/" ++ name ++ ".hdf5", just_made (fst nc) s)).
(** dump_spectra_ntuple.py:119-123, the loop. *)
Fixpoint dump_each (fs : fsys) (files : list string) (config_path save_path : string) (bipo : bool) (fv outer : option Qc) : fsys * out :=
  match files with
  | [] => (fs, None)
  | f :: files' =>
      match read_and_dump_ntuple fs f config_path (event_name f) save_path bipo fv outer with
      | (fs', None) => dump_each fs' files' config_path save_path bipo fv outer
      | stop => stop
      end
  end.
(** zip(a, b), first components; dump_spectra_ntuple.py:120 *)
Definition zipped {A} (a b : list A) : list A := firstn (length b) a.
(** dump_spectra_ntuple.py:117-129.  Line 118 takes the two rows of the text file apart. *)
Definition dump_spectra_ntuple (fs : fsys) (text fname : option string) (config_path save_path : string) (bipo : bool) (fv outer : option Qc) : fsys * out :=
  match given_text text with
  | Some t =>
      match rows t with
      | Err x => (fs, Some x)
      | Ok [paths; half_lives] => dump_each fs (zipped paths half_lives) config_path save_path bipo fv outer
      | Ok _ => (fs, Some EValueError)
      end
  | None =>
      match fname with
      | None => (fs, Some EAttributeError)
      | Some f => read_and_dump_ntuple fs f config_path (event_name f) save_path bipo fv outer
      end
  end.

(** multi_ntuple_spectrum.py:56-74, the loop after the first file. *)
Fixpoint append_each (fac : string -> res (extractor E)) (bipo : bool) (files : list string) (s : spectra) : res spectra :=
  match files with
  | [] => Ok s
  | f :: files' =>
      match append_from_ntuple evIndex fac bipo (entries f) s with
      | (s', None) => append_each fac bipo files' s'
      | (_, Some x) => Err x
      end
  end.
(** multi_ntuple_spectrum.py:30-78, create_combined_ntuple_spectrum.  If the directory is
    empty, the variable spec does not exist (UnboundLocalError). *)
Definition create_combined (fs : fsys) (data_path config_path name save_path : string) (bipo : bool) (fv outer : option Qc) : fsys * out :=
  script fs
    (do nc <- read_config config_path;
     do files <- listdir data_path;
     do o <- outer_keyword (snd nc) outer;
     do s <- match map (fun f => data_path ++ "/" ++ f) files with
             | [] => Err EException
             | f :: files' =>
                 do s <- fill_from_ntuple evIndex (factory fv o) name (Some (snd nc)) bipo (entries f);
                 append_each (factory fv o) bipo files' s
             end;
     do _ <- outcome (plots s);
     Ok (save_path ++ name ++ ".hdf5", just_made (fst nc) s)).
(** multi_ntuple_spectrum.py:114-133; without -p rfind is called on None. *)
Definition multi_ntuple_spectrum (fs : fsys) (data_path bkgnd_name : option string) (config_path save_path : string) (bipo : bool) (fv outer : option Qc) : fsys * out :=
  match data_path, given_text bkgnd_name with
  | Some d, Some n => create_combined fs d config_path n save_path bipo fv outer
  | Some d, None => create_combined fs d config_path (folder_name d) save_path bipo fv outer
  | None, None => (fs, Some EAttributeError)
  | None, Some _ =>
      (* os.listdir(None) raises TypeError in Python 2; the configuration is read before *)
      (fs, Some (match read_config config_path with Ok _ => ETypeError | Err x => x end))
  end.
End Ntuple.

Section Root.
Variables D V : Type.
Variable evs : D -> list V.
(** The entries of a ROOT file. *)
Variable ds_entries : string -> list D.
Variable factory : option Qc -> option Qc -> string -> res (extractor (D * option V)).
Variable read_config : string -> res (string * sconfig).
Variable rows : string -> res (list (list string)).

(** dump_spectra_root.py:27-58, read_and_dump_root.  plot_spectrum (61-70) calls
    config.getpars(), a method that does not exist. *)
Definition read_and_dump_root (fs : fsys) (fname config_path name save_path : string) (bipo : bool) (fv outer : option Qc) : fsys * out :=
  script fs
    (do nc <- read_config config_path;
     do o <- outer_keyword (snd nc) outer;
     do s <- fill_from_root evs (factory fv o) name (Some (snd nc)) bipo (ds_entries fname);
     do _ <- outcome (Some EAttributeError);
     Ok (save_path ++ "/" ++ name ++ ".hdf5", just_made (fst nc) s)).
(** dump_spectra_root.py:112-125.  With a text file [fname] is a row, a list, which has no
    method rfind. *)
Definition dump_spectra_root (fs : fsys) (text fname : option string) (config_path save_path : string) (bipo : bool) (fv outer : option Qc) : fsys * out :=
  match given_text text with
  | Some t =>
      match rows t with
      | Err x => (fs, Some x)
      | Ok [] => (fs, None)
      | Ok (_ :: _) => (fs, Some EAttributeError)
      end
  | None =>
      match fname with
      | None => (fs, Some EAttributeError)
      | Some f => read_and_dump_root fs f config_path (event_name f) save_path bipo fv outer
      end
  end.
End Root.

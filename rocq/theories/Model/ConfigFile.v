(** echidna/core/config.py: configurations in files.  The file system maps a path to the
    dictionary that yaml_loader.ordered_load reads from it (echidna/util/yaml_loader.py:
    ordered_load 5-26, ordered_dump 29-52); the YAML text is not modelled. *)
From Verif Require Import Model.Base Model.PyStr Model.Param Model.Config Model.FitParam Model.FitConfig.
Local Open Scope string_scope.

(** The file system: path -> what yaml_loader.py:5-26 (ordered_load) reads from the file. *)
Definition files := dict jdict.

(** config.py:332-337 (also 341-346, 577-582, 709-714): no name given, a blank one, or another. *)
Definition yml_name (default own : string) (given : option string) : string :=
  let f := match given with None => default | Some g => if String.eqb g "" then own else g end in
  if contains ".yml" f then f else f ++ ".yml".

(** config.py:698-716, SpectraConfig.dump_to_file *)
Definition sc_dump_to_file (fs : files) (name : string) (c : sconfig) (path : string) (fname : option string) : files :=
  dset (path ++ yml_name "spectra_config" name fname) (sc_dump c) fs.
(** config.py:562-585, SpectraFitConfig.dump_to_file *)
Definition sf_dump_to_file (fs : files) (c : sfconfig) (path : string) (fname : option string) (basic : bool) : files :=
  dset (path ++ yml_name "spectral_fit_config" (sf_name c) fname) (sf_dump basic c) fs.
(** config.py:313-351, GlobalFitConfig.dump_to_file: the global file is written first. *)
Definition gc_dump_to_file (fs : files) (g : gconfig) (path : string) (gname sname : option string) (basic : bool) : res files :=
  do d <- gc_dump basic g;
  let fs := dset (path ++ yml_name "global_fit_config" (gc_name g) gname) (fst d) fs in
  Ok (dset (path ++ yml_name "spectral_fit_config" (gc_name g) sname) (snd d) fs).

(** yaml_loader.ordered_load(open(filename)), e.g. config.py:205-206; a missing file raises IOError. *)
Definition read_file (f : string) (fs : files) : res jdict :=
  match dget f fs with Some d => Ok d | None => Err EIOError end.
(** [not name]: the next test, for a blank name (781, 652, 509), is never true. config.py:509, 652, 781 *)
Definition given_name (default : string) (name : option string) : string :=
  match name with None => default | Some n => if String.eqb n "" then default else n end.
(** config.py:759-783: the configuration and its name *)
Definition sc_load_from_file (fs : files) (f : string) (name : option string) : res (string * sconfig) :=
  do d <- read_file f fs; do c <- sc_load d; Ok (given_name "config" name, c).
(** config.py:633-657 *)
Definition sf_load_from_file (np_e : Qc) (fs : files) (f spectra_name : string) (name : option string) : res sfconfig :=
  do d <- read_file f fs; sf_load np_e d spectra_name (given_name "spectral_fit_config" name).
(** config.py:485-512; a blank second file name is no file *)
Definition gc_load_from_file (np_e : Qc) (fs : files) (f : string) (sf : option string) (name : option string) : res gconfig :=
  do d <- read_file f fs;
  do s <- match sf with
          | None => Ok None
          | Some s => if String.eqb s "" then Ok None else rmap Some (read_file s fs)
          end;
  gc_load np_e d s (given_name "global_fit_config" name).

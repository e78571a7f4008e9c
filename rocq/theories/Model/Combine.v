(** echidna/scripts/combine_hdf5.py, lines 21-40. *)
From Verif Require Import Model.Base Model.PyStr Model.NDArray Model.Param Model.Config Model.Spectra Model.Store.
Local Open Scope string_scope.

(** The files of the working directory by path. combine_hdf5.py:31-39 *)
Definition fsys := string -> hfile.
(** Writing a file: combine_hdf5.py:40 (h5py.File in store.py:94). *)
Definition write_file (fs : fsys) (path : string) (f : hfile) : fsys :=
  fun p => if String.eqb p path then f else fs p.

Section Combine.
(** float(s) for old-style files and numpy.e, see Model/Store.v *)
Variable parse_float : string -> res Qc.
Variable np_e : Qc.
(** combine_hdf5.py:33-39, the passes after the first: spectrum2 = load(f); spectrum1.add(spectrum2) *)
Fixpoint add_files (fs : fsys) (spectrum1 : stored) (files : list string) : res stored :=
  match files with
  | [] => Ok spectrum1
  | f :: r =>
      do spectrum2 <- load parse_float np_e (fs f);
      match s_add (st_spec spectrum2) (st_spec spectrum1) with
      | (sp, None) => add_files fs (with_spec spectrum1 sp) r
      | (_, Some e) => Err e
      end
  end.
(** combine_hdf5.py:22-40; parser.error leaves the program (modelled as Exception). *)
Definition combine (fs : fsys) (files : list string) : fsys * out :=
  match files with
  | [] | [_] => (fs, Some EException)
  | f :: r =>
      match (do spectrum1 <- load parse_float np_e (fs f); add_files fs spectrum1 r) with
      | Err e => (fs, Some e)
      | Ok s => let '(f', _, e) := dump (fs "combined.hdf5") s false false in (write_file fs "combined.hdf5" f', e)
      end
  end.
End Combine.

(** Vocabulary for the conversion scripts: what a file holds, and paths. *)
From Verif Require Import Model.Base Model.PyStr Model.NDArray Model.Param Model.Config Model.Spectra
  Model.Smear Model.FitConfig Model.Store Model.Combine Model.Scripts.
From Verif Require Import Spec.SpectraSpec Spec.StoreSpec Spec.NameSpec.
Local Open Scope string_scope.

(** Reading the file gives the spectrum [t] with the other attributes of [s] (the fit
    configuration as C49 says). *)
Definition file_holds (parse_float : string -> res Qc) (np_e : Qc) (f : hfile) (t : spectra) (s : stored) : Prop :=
  load parse_float np_e f = Ok (Stored t (st_cfg_name s) (fit_again (s_name t) (st_fit s)) (st_style s)).
(** A spectrum read from a file that can be worked on: axes and contents that belong
    together, a background name, a style, and a storable fit configuration. *)
Definition sound (s : stored) : Prop :=
  wf_spectra (st_spec s) /\ s_cfg (st_spec s) <> [] /\
  (exists b, s_bg (st_spec s) = Some b /\ b <> "") /\
  fit_storable (st_fit s) /\ st_style s <> JStr "" /\ st_style s <> JObj [].

(** A run of a script on the files [fs] that read [s].  If the transformation gives [t], the
    run succeeds, [out] then holds [t], and every other file is as before; if it raises, the
    run raises the same and all files are as before. *)
Definition converts pf e (fs : fsys) (run : fsys * out) (s : stored) (transformed : res spectra) (output : string) : Prop :=
  match transformed with
  | Ok t => snd run = None /\ file_holds pf e (fst run output) t s /\ forall p, p <> output -> fst run p = fs p
  | Err x => run = (fs, Some x)
  end.

(** A path: directory, name without dots at the beginning, extension. *)
Definition path (directory name extension : string) : string := directory ++ "/" ++ name ++ "." ++ extension.
Definition plain_path (directory name extension : string) : Prop :=
  directory <> "" /\ ends_with "/" directory = false /\
  name <> "" /\ starts_with "." name = false /\ occurs "/" name = false /\
  occurs "." extension = false /\ occurs "/" extension = false.

(** The same operation along each of several axes, one after the other. *)
Fixpoint along (f : string -> spectra -> res spectra) (axes : list string) (s : spectra) : res spectra :=
  match axes with
  | [] => Ok s
  | a :: axes' => do s' <- f a s; along f axes' s'
  end.

(** Smearing along one axis by one of the two methods. *)
Definition smeared (method name : string) (sigma : Qc -> Qc) (weight : Qc -> Qc -> Qc) (draw : string -> list nat -> nat -> Qc)
  (axis : string) (s : spectra) : res spectra :=
  if String.eqb method "weight" then weighted_smear name (zq 5) sigma weight axis s
  else random_smear name (draw axis) axis s.
(** ... an energy axis by one smearer, any other axis by the radial one. *)
Definition smeared_both (method name : string) (sigma : Qc -> Qc) (weight : Qc -> Qc -> Qc) (draw : string -> list nat -> nat -> Qc)
  (radial_name : string) (radial_sigma : Qc -> Qc) (radial_weight : Qc -> Qc -> Qc) (axis : string) (s : spectra) : res spectra :=
  if contains "energy" axis then smeared method name sigma weight draw axis s
  else if String.eqb method "weight" then weighted_smear radial_name (zq 5) radial_sigma radial_weight axis s
  else radial_random_smear radial_name axis s.

(** The directory written to: that of the input or the one given. *)
Definition written_to (isdir : string -> bool) (dest : option string) (directory : string) (d : string) : Prop :=
  match dest with
  | None => d = directory
  | Some p => isdir p = true /\ p <> "" /\ (p = d \/ p = d ++ "/") /\ ends_with "/" d = false
  end.

(** The result of a method as a value. *)
Definition method_result (r : spectra * Model.Spectra.out) : res spectra :=
  match snd r with None => Ok (fst r) | Some x => Err x end.

(** A run of one of the scripts, with any arguments. *)
Inductive conversion pf e str spline isdir fo (fs : fsys) : fsys * Model.Spectra.out -> Prop :=
| conv_scaled file v par dest : conversion pf e str spline isdir fo fs (dump_scaled pf e str spline isdir fs file v par dest)
| conv_shifted file v par : conversion pf e str spline isdir fo fs (dump_shifted pf e str spline fs file v par)
| conv_energy method r ly gaus dest file :
    conversion pf e str spline isdir fo fs (dump_smeared_energy pf e str isdir fo fs method r ly gaus dest file)
| conv_smeared ly method r file : conversion pf e str spline isdir fo fs (dump_smeared pf e fo fs ly method r file)
| conv_shrunk file pars low up output : conversion pf e str spline isdir fo fs (dump_shrink pf e fs file pars low up output)
| conv_rebinned file output bins : conversion pf e str spline isdir fo fs (rebin_script pf e fs file output bins).

(** dump_shrink: the bounds given for the axes [pars], in order. *)
Definition bound_keywords (pars : list string) (low up : option (list Qc)) : dict Qc :=
  (match low with Some l => map (fun px => ((fst px ++ "_low")%string, snd px)) (List.combine pars l) | None => [] end ++
  match up with Some l => map (fun px => ((fst px ++ "_high")%string, snd px)) (List.combine pars l) | None => [] end)%list.
(** The file written to: the one asked for or the default. *)
Definition chosen (output : option string) (default : string) : string :=
  match output with Some o => o | None => default end.

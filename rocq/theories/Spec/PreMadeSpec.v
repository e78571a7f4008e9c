(** Vocabulary for convolved spectra in files: where the file for given parameter values is,
    and how it is made with the scripts. *)
From Verif Require Import Model.Base Model.PyStr Model.NDArray Model.Param Model.Config Model.Spectra
  Model.Heap Model.Fit Model.Store Model.Combine Model.PreConv Model.Scripts Model.PreMade.
From Verif Require Import Spec.NameSpec Spec.FitRunSpec Spec.ScriptSpec.
Local Open Scope string_scope.
Local Open Scope list_scope.

(** A global parameter and a value for it. *)
Record setting := Setting { se_class : syst; se_dim : string; se_value : Qc }.
Definition as_gpar (str : Qc -> string) (x : setting) : gpar :=
  GPar (Some (se_class x)) (Some (se_dim x)) (Some (PVal (se_value x) (str (se_value x)))).

(** Directories as lists of names. *)
Definition folder (c : list string) : string := join "/" c.
(** The names after the last [x]. *)
Fixpoint after (x : string) (c : list string) : list string :=
  match c with
  | [] => []
  | y :: c' => if str_in x c' then after x c' else if String.eqb x y then c' else []
  end.
Definition kind_folder (k : syst) : string :=
  match k with Resolution => "smear" | ScaleSyst => "scale" | ShiftSyst => "shift" end.
(** A folder for the dimension and below it one for each kind of systematic. *)
Definition below (c : list string) (x : setting) : list string :=
  if str_in (se_dim x) c
  then if str_in (kind_folder (se_class x)) (after (se_dim x) c) then c else c ++ [kind_folder (se_class x)]
  else c ++ [se_dim x; kind_folder (se_class x)].
(** The place for all settings. *)
Definition folders (c : list string) (xs : list setting) : list string := fold_left below xs c.

(** File names: parts joined by underscores. *)
Definition named (parts : list string) : string := join "_" parts.
Definition mark (x : setting) : string :=
  match se_class x with
  | Resolution => if qlt (zq 10) (se_value x) then "ly" else "rs"
  | ScaleSyst => "sc"
  | ShiftSyst => "sh"
  end.
(** The value without ".0" and two letters for the systematic. *)
Definition tag (str : Qc -> string) (x : setting) : string := (trimmed (str (se_value x)) ++ mark x)%string.

(** A directory given by names, not the root. *)
Definition plain_folder (c : list string) : Prop :=
  c <> [] /\ Forall (fun n => occurs "/" n = false) c /\ last c "" <> "".
(** No directory name contains the name of a dimension, apart from the dimension itself. *)
Definition dims_apart (xs : list setting) (c : list string) : Prop :=
  forall x n, In x xs -> In n (c ++ map se_dim xs ++ ["smear"; "scale"; "shift"]) -> contains (se_dim x) n = true -> n = se_dim x.
(** A file name whose parts do not end with the two letters of a systematic, and no two
    systematics with the same letters. *)
Definition plain_name (parts : list string) : Prop :=
  Forall token parts /\ named parts <> "" /\ starts_with "." (named parts) = false /\ occurs "/" (named parts) = false.
Definition marks_free (xs : list setting) (parts : list string) : Prop :=
  NoDup (map mark xs) /\ forall x n, In x xs -> In n parts -> ends_with (mark x) n = false.
Definition plain_setting (str : Qc -> string) (x : setting) : Prop :=
  se_dim x <> "" /\ occurs "/" (se_dim x) = false /\ ~ In (se_dim x) ["smear"; "scale"; "shift"] /\
  decimal (str (se_value x)) /\ occurs "_" (str (se_value x)) = false /\ occurs "/" (str (se_value x)) = false.

(** ** Making the files *)
Section Make.
Variables (pf : string -> res Qc) (e : Qc) (str : Qc -> string) (spline : list Qc -> list Qc -> Qc -> Qc) (isdir : string -> bool) (fo : formulas).
(** What the parameter does in a fit; its smearers use Poisson statistics. *)
Definition setting_kind (x : setting) : pkind :=
  match se_class x with
  | Resolution =>
      resolution_kind (fo_name_ly fo) (fo_name_res fo) (fo_sigma_ly fo) (fo_sigma_res fo)
        (fun v => if qlt (zq 10) v then fo_weight_ly fo true v else fo_weight_res fo true v) (se_dim x)
  | ScaleSyst => scale_kind str spline (se_dim x)
  | ShiftSyst => shift_kind str spline (se_dim x)
  end.
(** All of them, one after the other. *)
Fixpoint settings_applied (xs : list setting) (s : spectra) : res spectra :=
  match xs with
  | [] => Ok s
  | x :: xs' => do t <- apply_value (setting_kind x) (se_value x) s; settings_applied xs' t
  end.
(** The script for a setting: dump_scaled, or dump_smeared_energy with a light yield or an
    energy resolution, or dump_shifted (which has no option for the directory). *)
Definition run_script (fs : fsys) (x : setting) (file directory : string) : fsys * out :=
  match se_class x with
  | ScaleSyst => dump_scaled pf e str spline isdir fs (Some file) (Some (se_value x)) (Some (se_dim x)) (Some directory)
  | Resolution =>
      dump_smeared_energy pf e str isdir fo fs "weight" (if qlt (zq 10) (se_value x) then None else Some (se_value x)) (se_value x) false
        (Some directory) file
  | ShiftSyst => dump_shifted pf e str spline fs (Some file) (Some (se_value x)) (Some (se_dim x))
  end.
(** Each script reads what the one before has written. *)
Fixpoint run_scripts (fs : fsys) (xs : list setting) (file : string) (c parts : list string) : fsys * out :=
  match xs with
  | [] => (fs, None)
  | x :: xs' =>
      let c' := below c x in
      let parts' := parts ++ [tag str x] in
      match run_script fs x file (folder c') with
      | (fs', None) => run_scripts fs' xs' (path (folder c') (named parts') "hdf5") c' parts'
      | (fs', Some er) => (fs', Some er)
      end
  end.
(** The same for several combinations of values, all from the same spectrum. *)
Definition run_grid (fs : fsys) (grid : list (list setting)) (file : string) (c parts : list string) : fsys :=
  fold_left (fun fs xs => fst (run_scripts fs xs file c parts)) grid fs.
End Make.
(** Values the scripts accept; the only energy axis is that of the parameter. *)
Definition scriptable (str : Qc -> string) (s : spectra) (x : setting) : Prop :=
  match se_class x with
  | ScaleSyst => (0 < se_value x)%Qc
  | Resolution =>
      ((zq 10 < se_value x)%Qc \/ ((0 < se_value x)%Qc /\ (se_value x < 1)%Qc /\ ends_with ".0" (str (se_value x)) = false)) /\
      filter (contains "energy") (map fst (s_cfg s)) = [se_dim x]
  | ShiftSyst => False
  end.
(** The texts of the values. *)
Definition texts (str : Qc -> string) (xs : list setting) : list string := map (fun x => str (se_value x)) xs.
(** Combinations of as many parameters, told apart by the texts of the values. *)
Definition combined (str : Qc -> string) (grid : list (list setting)) : Prop :=
  forall xs ys, In xs grid -> In ys grid -> length xs = length ys /\ (texts str xs = texts str ys -> xs = ys).

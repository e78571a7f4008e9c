(** Specification vocabulary for C94: files of the old format. *)
From Coq Require Import Permutation.
From Verif Require Import Model.Base Model.PyStr Model.NDArray Model.Param Model.Config Model.Spectra Model.FitParam Model.FitConfig Model.Store.
From Verif Require Import Spec.NameSpec.
Local Open Scope string_scope.

(** Name of the attribute with a number of an axis. *)
Definition par_key (axis what : string) : string := "pars:" ++ axis ++ ":" ++ what.
Definition mentions (key axis : string) : Prop := In key [par_key axis "low"; par_key axis "high"; par_key axis "bins"].
(** A file of the old format with the spectrum [s]: attributes of the file, in any order, and the
    data, without a group "spectrum"; [style] is the text of the style. *)
Record old_file (r : root) (s : spectra) (style : string) : Prop := OldFile {
  of_group : dget "spectrum" (r_members r) = None;
  of_data : dget "data" (r_members r) = Some (HData (s_data s));
  of_keys : NoDup (dkeys (r_attrs r));
  of_name : dget "name" (r_attrs r) = Some (AStr (s_name s));
  of_decays : dget "num_decays" (r_attrs r) = Some (ANum (s_decays s));
  of_raw : dget "raw_events" (r_attrs r) = Some (AInt (s_raw s));
  of_bipo : dget "bipo" (r_attrs r) = Some (AInt (s_bipo s)) \/ dget "bipo" (r_attrs r) = None /\ s_bipo s = 0%Z;
  of_style : dget "style" (r_attrs r) = Some (AStr style);
  of_rois : dget "rois" (r_attrs r) = Some (AStr "") /\ s_rois s = [];
  of_axes : forall axis p, In (axis, p) (s_cfg s) ->
    dget (par_key axis "low") (r_attrs r) = Some (ANum (sp_low p)) /\ dget (par_key axis "high") (r_attrs r) = Some (ANum (sp_high p)) /\
    dget (par_key axis "bins") (r_attrs r) = Some (AInt (sp_bins p));
  of_only : forall key, In key (dkeys (r_attrs r)) -> starts_with "pars:" key = true -> exists axis, In axis (map fst (s_cfg s)) /\ mentions key axis;
  of_names : NoDup (map fst (s_cfg s)) /\ Forall (fun y => occurs ":" (fst y) = false /\ (0 <= sp_bins (snd y))%Z) (s_cfg s) }.
(** The axes come in the order in which they are first mentioned. *)
Definition first_mentioned (keys : list string) (c : sconfig) : Prop :=
  forall i j v w, i < j -> nth_error (map fst c) i = Some v -> nth_error (map fst c) j = Some w ->
    exists n k, nth_error keys n = Some k /\ mentions k v /\ forall m k', nth_error keys m = Some k' -> mentions k' w -> n < m.
(** The spectrum [s] with the axes [c], without name of the background. *)
Definition with_axes (s : spectra) (c : sconfig) : spectra := Spec (s_name s) None c (s_data s) (s_decays s) (s_raw s) (s_bipo s) (s_rois s).
(** A style of plain values. *)
Definition plain_style (d : dict pyval) : jval :=
  JObj (map (fun kv => (fst kv, match snd kv with VStr s => JStr s | VInt z => JInt z | VFloat x => JNum x | VOther => JNull end)) d).
(** The style that the text stands for; without a text it is the style of a new spectrum. *)
Definition style_read (parse_float : string -> res Qc) (text : string) (style : jval) : Prop :=
  text = "" /\ style = default_style \/ text <> "" /\ exists d, string_to_dict parse_float text = Ok d /\ style = plain_style d.

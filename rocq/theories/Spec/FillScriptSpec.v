(** Vocabulary for the scripts that make spectra from event files. *)
From Verif Require Import Model.Base Model.PyStr Model.NDArray Model.Param Model.Config Model.Spectra Model.FillSpectrum
  Model.FitConfig Model.Store Model.Combine.
From Verif Require Import Spec.AxisSpec Spec.ArraySpec Spec.SpectraSpec Spec.EventSpec Spec.NameSpec.
Local Open Scope string_scope.

(** The entries of one file that are to be counted.  With the BiPo cut: first triggers that
    can be used and whose next entry in the same file is a first trigger again. *)
Definition selected {E} (evIndex : E -> Z) (c : sconfig) valid value (bipo : bool) (es : list E) : list E :=
  if bipo
  then map fst (filter (fun p => (evIndex (fst p) =? 0)%Z && usable c valid value (fst p) && (evIndex (snd p) <? 1)%Z) (pairs es))
  else filter (usable c valid value) es.

(** A spectrum of that name with these axes, made of [total] simulated decays, that counts
    the events [l] once each, in the bin they lie in, and nothing else. *)
Definition tallies {E} (name : string) (c : sconfig) (bipo : bool) (total : nat) (value : string -> E -> Qc) (l : list E) (s : spectra) : Prop :=
  s_name s = name /\ s_cfg s = c /\ Spec.SpectraSpec.consistent s /\ s_decays s = nq total /\
  s_bipo s = (if bipo then 1 else 0)%Z /\ s_rois s = [] /\
  s_raw s = Z.of_nat (length l) /\ s_sum s = nq (length l) /\
  forall idx, valid_idx (cfg_shape c) idx -> aget (s_data s) idx = nq (count (fun e => lies_in c value e idx) l).

(** A run left a file of that path that loads as the spectrum [s] with a configuration called
    [cname], no fit configuration and the default style, and left every other file as it was. *)
Definition leaves (parse_float : string -> res Qc) (np_e : Qc) (fs : fsys) (run : fsys * out) (path cname : string) (s : spectra) : Prop :=
  snd run = None /\ load parse_float np_e (fst run path) = Ok (Stored s cname None default_style) /\
  forall p, p <> path -> fst run p = fs p.

(** The name says what kind of data the spectrum holds. *)
Definition says_kind (name : string) : Prop := contains "mc" name = true \/ contains "mix" name = true \/ contains "reco" name = true.
(** The number of entries of some files. *)
Definition total_entries {E} (entries : string -> list E) (files : list string) : nat :=
  length (flat_map entries files).
(** [n] is the last component of the path [f]. *)
Definition leaf (f n : string) : Prop :=
  occurs "/" n = false /\ n <> "" /\ (f = n \/ exists d, f = d ++ "/" ++ n).

(** What a script is given: the file at [config_path] holds the axes [c] under the name
    [cname]; for each of them, with the radii of the options, dsextract has an extractor that
    tests [valid] and reads [value]; an outer radius goes with an axis radial3; and the
    plots can be drawn. *)
Definition can_fill {E} (read_config : string -> res (string * sconfig)) (factory : option Qc -> option Qc -> string -> res (extractor E))
  (plots : spectra -> out) (config_path cname : string) (c : sconfig) (fv outer : option Qc) valid value : Prop :=
  read_config config_path = Ok (cname, c) /\ wf_cfg c /\ c <> [] /\
  ((outer = None \/ outer = Some 0%Qc) /\ extracts c (factory fv None) valid value \/
   exists r, outer = Some r /\ r <> 0%Qc /\ In "radial3" (get_dims c) /\ extracts c (factory fv (Some r)) valid value) /\
  forall s, plots s = None.

(** Vocabulary for configurations written by hand: which dictionaries describe which parameters. *)
From Verif Require Import Model.Base Model.PyStr Model.Param Model.Config Model.FitParam Model.FitConfig Spec.ConfigSpec.
Local Open Scope string_scope.
Local Open Scope list_scope.

(** A value that is a number, and the number it is. *)
Definition as_number (j : jval) : option Qc :=
  match j with JNum x => Some x | JInt z => Some (zq z) | JBool true => Some 1%Qc | JBool false => Some 0%Qc | _ => None end.
(** A number of bins: an integer, or any number cut off behind the point. *)
Definition as_count (j : jval) : option Z := match j with JInt z => Some z | _ => option_map qtrunc (as_number j) end.
(** What is wrong with a value that is no number. *)
Definition not_number (j : jval) : option exn :=
  match j with JStr _ => Some EValueError | JNull | JObj _ => Some ETypeError | _ => None end.
Definition first_wrong (l : list jval) : option exn :=
  fold_right (fun j r => match not_number j with Some x => Some x | None => r end) None l.

(** The entry under [k] is a number, a count. *)
Definition number_at (kw : jdict) (k : string) (x : Qc) : Prop := exists j, dget k kw = Some j /\ as_number j = Some x.
Definition count_at (kw : jdict) (k : string) (z : Z) : Prop := exists j, dget k kw = Some j /\ as_count j = Some z.
(** The entry under [k] is a number or null; [d] stands for a missing one. *)
Definition maybe_at (kw : jdict) (k : string) (d o : option Qc) : Prop :=
  match dget k kw with
  | None => o = d
  | Some JNull => o = None
  | Some (JNum x) => o = Some x
  | Some (JInt z) => o = Some (zq z)
  | Some _ => False
  end.
(** The entry under [k] is true; false, null or missing; a text. *)
Definition flag_on (kw : jdict) (k : string) : Prop := dget k kw = Some (JBool true).
Definition flag_off (kw : jdict) (k : string) : Prop := dget k kw = Some (JBool false) \/ dget k kw = Some JNull \/ dget k kw = None.
Definition text_at (kw : jdict) (k : string) (o : option string) : Prop :=
  match o with Some s => dget k kw = Some (JStr s) | None => dget k kw = None \/ dget k kw = Some JNull end.
(** No other keys than these. *)
Definition only (names : list string) (kw : jdict) : Prop := forall k, In k (dkeys kw) -> In k names.

(** [kw] describes the axis [p]. *)
Definition describes_axis (kw : jdict) (p : spar) : Prop :=
  only ["low"; "high"; "bins"] kw /\ number_at kw "low" (sp_low p) /\ number_at kw "high" (sp_high p) /\ count_at kw "bins" (sp_bins p).

Definition fit_keys : list string :=
  ["prior"; "sigma"; "low"; "high"; "bins"; "current_value"; "penalty_term"; "best_fit"; "logscale"; "base"; "logscale_deviation"].
(** [kw] describes the fit parameter [p] named [name], of dimension [dim] or the one that [kw] names.
    [e] is the base of a logarithmic scale when none is given. *)
Definition describes_fit (e : Qc) (name : string) (dim : option string) (kw : jdict) (p : fpar) : Prop :=
  fp_name p = name /\
  match dim with
  | Some d => only fit_keys kw /\ fp_dim p = Some d
  | None => only ("dimension" :: fit_keys) kw /\ text_at kw "dimension" (fp_dim p)
  end /\
  number_at kw "prior" (fp_prior p) /\ (dget "sigma" kw <> None /\ maybe_at kw "sigma" None (fp_sigma p)) /\
  number_at kw "low" (fp_low p) /\ number_at kw "high" (fp_high p) /\ count_at kw "bins" (fp_bins p) /\
  fp_values p = None /\
  maybe_at kw "current_value" None (fp_current p) /\ maybe_at kw "penalty_term" None (fp_penalty p) /\ maybe_at kw "best_fit" None (fp_best p) /\
  (flag_on kw "logscale_deviation" \/ flag_off kw "logscale_deviation") /\
  ((flag_on kw "logscale" /\ fp_logscale p = Some true /\ fp_logdev p = None /\ fp_base p <> None /\ maybe_at kw "base" (Some e) (fp_base p)) \/
   (flag_off kw "logscale" /\ fp_logscale p = None /\ fp_base p = None /\ (exists b, maybe_at kw "base" (Some e) b) /\
    (flag_on kw "logscale_deviation" /\ fp_logdev p = Some true \/ flag_off kw "logscale_deviation" /\ fp_logdev p = None))).

(** The global part of a file: dimension, systematic and what is written for it. *)
Definition written (d : jdict) : list (string * string * jval) :=
  flat_map (fun e => match snd e with JObj l => map (fun s => (fst e, fst s, snd s)) l | _ => [] end) d.
Definition w_name (w : string * string * jval) : string := (fst (fst w) ++ "_" ++ snd (fst w))%string.
(** Every dimension holds a dictionary. *)
Definition all_objects (d : jdict) : Prop := Forall (fun e => exists l, snd e = JObj l) d.
Definition describes_global (e : Qc) (w : string * string * jval) (ke : string * gentry) : Prop :=
  let '(dim, syst, j) := w in
  fst ke = (dim ++ "_" ++ syst)%string /\ ge_global (snd ke) = true /\ systematic syst (cp_class (ge_par (snd ke))) /\
  exists kw, j = JObj kw /\ describes_fit e (fst ke) (Some dim) kw (cp_par (ge_par (snd ke))).
Definition describes_rate (e : Qc) (w : string * jval) (kc : string * cpar) : Prop :=
  fst kc = fst w /\ contains "rate" (fst w) = true /\ cp_class (snd kc) = PRate /\
  exists kw, snd w = JObj kw /\ describes_fit e (fst w) None kw (cp_par (snd kc)).
Definition describes_spectral (e : Qc) (w : string * jval) (ke : string * gentry) : Prop :=
  ge_global (snd ke) = false /\ describes_rate e w (fst ke, ge_par (snd ke)).

(** What is wrong with a description: a key that is not known, a missing one, or the first of the
    numbers that is none. *)
Definition wrong_axis (kw : jdict) (x : exn) : Prop :=
  ~ only ["low"; "high"; "bins"] kw /\ x = ETypeError \/
  only ["low"; "high"; "bins"] kw /\
    ((exists k, In k ["low"; "high"; "bins"] /\ dget k kw = None) /\ x = ETypeError \/
     exists l h b, dget "low" kw = Some l /\ dget "high" kw = Some h /\ dget "bins" kw = Some b /\ first_wrong [l; h; b] = Some x).
Definition wrong_fit (keys : list string) (kw : jdict) (x : exn) : Prop :=
  ~ only keys kw /\ x = ETypeError \/
  only keys kw /\
    ((exists k, In k ["prior"; "sigma"; "low"; "high"; "bins"] /\ dget k kw = None) /\ x = ETypeError \/
     exists l h b p, dget "low" kw = Some l /\ dget "high" kw = Some h /\ dget "bins" kw = Some b /\ dget "prior" kw = Some p /\
       dget "sigma" kw <> None /\ first_wrong [l; h; b; p] = Some x).
(** An entry that is wrong: not a dictionary, or a wrong one. *)
Definition wrong_entry (wrong : jdict -> exn -> Prop) (j : jval) (x : exn) : Prop :=
  match j with JObj kw => wrong kw x | _ => x = ETypeError end.
(** A section that is missing, empty or null. *)
Definition no_section (key : string) (config : jdict) : Prop :=
  dget key config = None \/ dget key config = Some JNull \/ dget key config = Some (JObj []).

(** Vocabulary for configurations. *)
From Coq Require Import Permutation.
From Verif Require Import Model.Base Model.PyStr Model.Param Model.Config Model.FitParam Model.FitConfig.
Local Open Scope string_scope.
Local Open Scope list_scope.

(** The scale flags of a parameter as its constructor leaves them: a logarithmic scale
    with its base, or no logarithmic scale and possibly a logarithmic deviation. *)
Definition constructed (p : fpar) : Prop :=
  (fp_logscale p = Some true /\ fp_base p <> None /\ fp_logdev p = None) \/
  (fp_logscale p = None /\ fp_base p = None /\ (fp_logdev p = None \/ fp_logdev p = Some true)).

(** What reading back a dumped parameter gives: everything but the array of values, and
    the best fit in the place of the penalty term. *)
Definition reread (name : string) (p : fpar) : fpar :=
  FPar name (fp_prior p) (fp_sigma p) (fp_low p) (fp_high p) (fp_bins p) (fp_dim p) None
       (fp_current p) (fp_best p) (fp_best p) (fp_logscale p) (fp_base p) (fp_logdev p).
(** The same for a basic dump. *)
Definition reread_basic (name : string) (p : fpar) : fpar :=
  FPar name (fp_prior p) (fp_sigma p) (fp_low p) (fp_high p) (fp_bins p) (fp_dim p) None
       None None None (fp_logscale p) (fp_base p) (fp_logdev p).
Definition again (basic : bool) (name : string) (c : cpar) : cpar :=
  CPar (cp_class c) (if basic then reread_basic name (cp_par c) else reread name (cp_par c)).

(** A rate parameter as a fit configuration of a spectrum holds it. *)
Definition rate_entry (kc : string * cpar) : Prop :=
  contains "rate" (fst kc) = true /\ cp_class (snd kc) = PRate /\
  fp_dim (cp_par (snd kc)) = None /\ constructed (cp_par (snd kc)).

(** A global parameter named <dimension>_<systematic>. *)
Definition systematic (syst : string) (c : pclass) : Prop :=
  match c with
  | PResolution => syst = "resolution" \/ syst = "resolution_ly"
  | PShift => syst = "shift"
  | PScale => syst = "scale"
  | PRate => False
  end.
Definition global_entry (dim syst : string) (c : cpar) : Prop :=
  fp_name (cp_par c) = (dim ++ "_" ++ syst)%string /\ fp_dim (cp_par c) = Some dim /\
  systematic syst (cp_class c) /\ constructed (cp_par c) /\
  (syst = "resolution_ly" -> contains (dim ++ "_") syst = false).
Definition well_named_entry (ke : string * gentry) : Prop :=
  fst ke = fp_name (cp_par (ge_par (snd ke))) /\
  if ge_global (snd ke)
  then exists dim syst, global_entry dim syst (ge_par (snd ke))
  else rate_entry (fst ke, ge_par (snd ke)).

(** Global entries of a configuration sorted by dimension (dimensions in the order of
    their first occurrence), followed by the spectral ones. *)
Definition dim_is (d : string) (ke : string * gentry) : bool :=
  match fp_dim (cp_par (ge_par (snd ke))) with Some d' => String.eqb d d' | None => false end.
Definition dim_of (ke : string * gentry) : string :=
  match fp_dim (cp_par (ge_par (snd ke))) with Some d => d | None => "" end.
Fixpoint distinct (seen : list string) (l : list string) : list string :=
  match l with
  | [] => []
  | d :: l' => if str_in d seen then distinct seen l' else d :: distinct (d :: seen) l'
  end.
Definition globals (l : dict gentry) := filter (fun ke => ge_global (snd ke)) l.
Definition spectrals (l : dict gentry) := filter (fun ke => negb (ge_global (snd ke))) l.
Definition by_dimension (l : dict gentry) : dict gentry :=
  flat_map (fun d => filter (dim_is d) (globals l)) (distinct [] (map dim_of (globals l))) ++ spectrals l.
Definition again_entry (basic : bool) (ke : string * gentry) : string * gentry :=
  (fst ke, GE (again basic (fst ke) (ge_par (snd ke))) (ge_global (snd ke))).

(** Global fit configurations as they come about. *)
Inductive built (np_e : Qc) : gconfig -> Prop :=
| built_new n : built np_e (GC n [])
| built_load j s n g : gc_load np_e j s n = Ok g -> built np_e g
| built_par g p t g' : built np_e g -> gc_add_par g p t = Ok g' -> built np_e g'
| built_spectra g c : built np_e g -> built np_e (fst (add_sfconfig g c))
| built_global g c : built np_e g -> built np_e (add_gconfig g c).

(** Spectra configurations as they come about. *)
Inductive sbuilt : sconfig -> Prop :=
| sbuilt_new : sbuilt []
| sbuilt_load j c : sc_load j = Ok c -> sbuilt c
| sbuilt_par c n p : sbuilt c -> sbuilt (add_par c n p).

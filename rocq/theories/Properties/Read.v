(** C83: configurations written by hand. *)
From Coq Require Import Lia.
From Verif Require Import Model.Base Model.PyStr Model.Param Model.Config Model.FitParam Model.FitConfig Model.ConfigFile.
From Verif Require Import Spec.ConfigSpec Spec.ReadSpec Proofs.ReadLemmas.
Local Open Scope string_scope.
Local Open Scope list_scope.

(** * C83: a configuration holds exactly what its file describes *)
(** Axes of spectra: the file is accepted exactly when every entry describes an axis, and the
    configuration has these axes in the order of the file. *)
Theorem C83_spectra : forall config d c, dget "parameters" config = Some (JObj d) -> d <> [] -> NoDup (map fst d) ->
  (sc_load config = Ok c <-> Forall2 (fun w kp => fst kp = fst w /\ exists kw, snd w = JObj kw /\ describes_axis kw (snd kp)) d c).
Proof. exact read_spectra_l. Qed.
(** Fit parameters of a spectrum. *)
Theorem C83_fit : forall e config d sn n r, dget "spectral_fit_parameters" config = Some (JObj d) -> d <> [] -> NoDup (map fst d) ->
  (sf_load e config sn n = Ok r <-> sf_name r = n /\ sf_spectra r = sn /\ Forall2 (describes_rate e) d (sf_pars r)).
Proof. exact read_fit_l. Qed.
(** Global fit parameters, without and with those of the spectra. *)
Theorem C83_global : forall e config d n pars, dget "global_fit_parameters" config = Some (JObj d) -> all_objects d -> NoDup (map w_name (written d)) ->
  ((exists m, gc_load e config None n = Ok (GC m pars)) <-> Forall2 (describes_global e) (written d) pars).
Proof. exact read_global_l. Qed.
Theorem C83_both : forall e config d sc s n pars, dget "global_fit_parameters" config = Some (JObj d) -> all_objects d ->
  dget "spectral_fit_parameters" sc = Some (JObj s) -> s <> [] -> NoDup (map w_name (written d) ++ map fst s) ->
  ((exists m, gc_load e config (Some sc) n = Ok (GC m pars)) <->
   exists g r, pars = g ++ r /\ Forall2 (describes_global e) (written d) g /\ Forall2 (describes_spectral e) s r).
Proof. exact read_both_l. Qed.

(** The first wrong entry decides the exception: TypeError for unknown and missing keys and for
    null in the place of a number, ValueError for a text in the place of a number, IndexError for a
    parameter that is no rate or no known systematic. *)
Theorem C83_spectra_wrong : forall config pre k j post x, dget "parameters" config = Some (JObj (pre ++ (k, j) :: post)) ->
  Forall (fun w => exists kw p, snd w = JObj kw /\ describes_axis kw p) pre -> wrong_entry wrong_axis j x -> sc_load config = Err x.
Proof. exact spectra_no_l. Qed.
Theorem C83_fit_wrong : forall e config sn n pre k j post x, dget "spectral_fit_parameters" config = Some (JObj (pre ++ (k, j) :: post)) ->
  Forall (fun w => exists c, describes_rate e w c) pre ->
  (contains "rate" k = true /\ wrong_entry (wrong_fit ("dimension" :: fit_keys)) j x \/ contains "rate" k = false /\ x = EIndexError) ->
  sf_load e config sn n = Err x.
Proof. exact fit_no_l. Qed.
Theorem C83_global_wrong : forall e config sc n pre dim spre s j spost post x,
  dget "global_fit_parameters" config = Some (JObj (pre ++ (dim, JObj (spre ++ (s, j) :: spost)) :: post)) ->
  all_objects pre -> Forall (fun w => exists c, describes_global e w c) (written (pre ++ [(dim, JObj spre)])) ->
  (forall c, systematic s c -> wrong_entry (wrong_fit fit_keys) j x) -> ((forall c, ~ systematic s c) -> x = EIndexError) ->
  gc_load e config sc n = Err x.
Proof. exact global_no_l. Qed.
Theorem C83_both_wrong : forall e config d sc n pre k j post x, dget "global_fit_parameters" config = Some (JObj d) -> all_objects d ->
  Forall (fun w => exists c, describes_global e w c) (written d) ->
  dget "spectral_fit_parameters" sc = Some (JObj (pre ++ (k, j) :: post)) -> Forall (fun w => exists c, describes_rate e w c) pre ->
  (contains "rate" k = true /\ wrong_entry (wrong_fit ("dimension" :: fit_keys)) j x \/ contains "rate" k = false /\ x = EIndexError) ->
  gc_load e config (Some sc) n = Err x.
Proof. exact both_no_l. Qed.
(** A missing or empty section is a KeyError. *)
Theorem C83_section : forall e config sc sn n,
  (no_section "parameters" config -> sc_load config = Err EKeyError) /\
  (no_section "spectral_fit_parameters" config -> sf_load e config sn n = Err EKeyError) /\
  (dget "global_fit_parameters" config = None -> gc_load e config sc n = Err EKeyError) /\
  (forall d s, dget "global_fit_parameters" config = Some (JObj d) -> all_objects d -> Forall (fun w => exists c, describes_global e w c) (written d) ->
     sc = Some s -> no_section "spectral_fit_parameters" s -> gc_load e config sc n = Err EKeyError).
Proof.
  intros e config sc sn n. split; [|split; [|split]].
  - intro H. unfold sc_load. now rewrite (section_no _ _ H).
  - intro H. unfold sf_load. now rewrite (section_no _ _ H).
  - intro H. unfold gc_load. now rewrite H.
  - intros d s D O G -> H. unfold gc_load. rewrite D. cbn [jobj rbind]. destruct (load_dims_total e d (n, []) O G) as [st ->]. cbn [rbind].
    now rewrite (section_no _ _ H).
Qed.
(** A file that does not exist is an IOError. *)
Theorem C83_file : forall e fs f g sn n, dget f fs = None ->
  sc_load_from_file fs f n = Err EIOError /\ sf_load_from_file e fs f sn n = Err EIOError /\
  (forall sf, gc_load_from_file e fs f sf n = Err EIOError) /\
  (f <> "" -> dget g fs <> None -> gc_load_from_file e fs g (Some f) n = Err EIOError).
Proof.
  intros e fs f g sn n H. unfold sc_load_from_file, sf_load_from_file, gc_load_from_file, read_file. rewrite H. cbn.
  split; [reflexivity|]. split; [reflexivity|]. split; [reflexivity|]. intros N G. destruct (dget g fs); [|congruence]. cbn.
  destruct (String.eqb_spec f "") as [E|_]; [contradiction|reflexivity].
Qed.

(** The files in echidna/config: spectra_example.yml, fit_example.yml, spectra_fit_example.yml. *)
Definition ex_axes : jdict :=
  [("energy_mc", JObj [("low", JInt 0); ("high", JInt 10); ("bins", JInt 1000)]);
   ("radial_mc", JObj [("low", JInt 0); ("high", JInt 15000); ("bins", JInt 1500)])].
Definition ex_fit_kw (p s l h : Qc) (b : Z) : jval :=
  JObj [("prior", JNum p); ("sigma", JNum s); ("low", JNum l); ("high", JNum h); ("bins", JInt b)].
Definition ex_global : jdict :=
  [("energy_mc", JObj [("resolution_ly", ex_fit_kw (zq 200) (zq 5) (zq 175) (zq 225) 100); ("scale", ex_fit_kw (zq 1) (qq 1 100) (qq 9 10) (qq 11 10) 100);
                       ("shift", ex_fit_kw (zq 0) (qq 1 100) (qq (-1) 10) (qq 1 10) 100)])].
Definition ex_rate : jdict := [("rate", ex_fit_kw (zq 10) (qq 1 10) (zq 7) (zq 13) 101)].
Definition ex_par (n : string) (d : option string) (p s l h : Qc) (b : Z) : fpar :=
  FPar n p (Some s) l h b d None None None None None None None.
Example C83_demo :
  sc_load [("parameters", JObj ex_axes)] = Ok [("energy_mc", SPar (zq 0) (zq 10) 1000); ("radial_mc", SPar (zq 0) (zq 15000) 1500)] /\
  all_objects ex_global /\ NoDup (map w_name (written ex_global) ++ map fst ex_rate) /\
  rmap gc_pars (gc_load (qq 27 10) [("global_fit_parameters", JObj ex_global)] (Some [("spectral_fit_parameters", JObj ex_rate)]) "fit") =
    Ok [("energy_mc_resolution_ly", GE (CPar PResolution (ex_par "energy_mc_resolution_ly" (Some "energy_mc") (zq 200) (zq 5) (zq 175) (zq 225) 100)) true);
        ("energy_mc_scale", GE (CPar PScale (ex_par "energy_mc_scale" (Some "energy_mc") (zq 1) (qq 1 100) (qq 9 10) (qq 11 10) 100)) true);
        ("energy_mc_shift", GE (CPar PShift (ex_par "energy_mc_shift" (Some "energy_mc") (zq 0) (qq 1 100) (qq (-1) 10) (qq 1 10) 100)) true);
        ("rate", GE (CPar PRate (ex_par "rate" None (zq 10) (qq 1 10) (zq 7) (zq 13) 101)) false)].
Proof.
  split; [reflexivity|]. split; [constructor; [eexists; reflexivity|constructor]|]. split; [|reflexivity].
  cbn. repeat constructor; cbn; intuition discriminate.
Qed.
(** Wrong ones: a misspelt key, a missing key, a text, a parameter that is no rate. *)
Example C83_wrong_demo :
  wrong_axis [("low", JInt 0); ("high", JInt 10); ("bin", JInt 1000)] ETypeError /\ wrong_axis [("low", JInt 0); ("high", JInt 10)] ETypeError /\
  wrong_axis [("low", JInt 0); ("high", JStr "ten"); ("bins", JInt 1000)] EValueError /\
  sc_load [("parameters", JObj (ex_axes ++ [("x", JObj [("low", JInt 0); ("high", JStr "ten"); ("bins", JInt 1000)])]))] = Err EValueError /\
  sf_load (qq 27 10) [("spectral_fit_parameters", JObj (ex_rate ++ [("shift", JNull)]))] "Te130" "fit" = Err EIndexError.
Proof.
  assert (N : ~ only ["low"; "high"; "bins"] [("low", JInt 0); ("high", JInt 10); ("bin", JInt 1000)]).
  { intro H. specialize (H "bin" ltac:(cbn; tauto)). cbn in H. intuition discriminate. }
  split; [left; split; [exact N|reflexivity]|]. split.
  { right. split; [intros k I; cbn in *; tauto|]. left. split; [|reflexivity]. exists "bins". split; [cbn; tauto|reflexivity]. }
  split; [|split; reflexivity]. right. split; [intros k I; cbn in *; tauto|]. right. exists (JInt 0), (JStr "ten"), (JInt 1000). repeat split; reflexivity.
Qed.

Print Assumptions C83_spectra.
Print Assumptions C83_fit.
Print Assumptions C83_global.
Print Assumptions C83_both.
Print Assumptions C83_spectra_wrong.
Print Assumptions C83_fit_wrong.
Print Assumptions C83_global_wrong.
Print Assumptions C83_both_wrong.
Print Assumptions C83_section.
Print Assumptions C83_file.

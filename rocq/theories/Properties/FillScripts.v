(** C71: the scripts that make spectra from event files (dump_spectra_ntuple,
    multi_ntuple_spectrum, dump_spectra_root).  [ev] is evIndex, [entries] what TChain gives
    for a path, [factory] dsextract.function_factory with the radii of the options;
    [read_config], [listdir] and [rows] stand for reading a configuration, a directory and a
    tab separated text; [plots] for drawing the projections; [pf] and [e] for float(text) and
    numpy.e, which only files of the old layout use. *)
From Coq Require Import Permutation.
From Verif Require Import Model.Base Model.PyStr Model.NDArray Model.Param Model.Config Model.Spectra Model.FillSpectrum
  Model.FitConfig Model.Store Model.Combine Model.Scripts Model.FillScripts.
From Verif Require Import Spec.AxisSpec Spec.ArraySpec Spec.SpectraSpec Spec.EventSpec Spec.NameSpec Spec.StoreSpec Spec.FillScriptSpec.
From Verif Require Import Proofs.QcLemmas Proofs.ScriptLemmas Proofs.FitSetReady Proofs.FillScriptLemmas Properties.FillSpectrum.
Local Open Scope string_scope.

(** One ntuple: the file named after it holds the spectrum of its entries, and no other file
    is touched. *)
Theorem C71_ntuple : forall pf e E (ev : E -> Z) entries factory read_config plots rows fs text f n config_path save bipo fv outer cname c valid value,
  can_fill read_config factory plots config_path cname c fv outer valid value -> leaf f n -> (text = None \/ text = Some "") ->
  let run := dump_spectra_ntuple E ev entries factory read_config plots rows fs text (Some f) config_path save bipo fv outer in
  exists s, leaves pf e fs run (save ++ "/" ++ n ++ ".hdf5") cname s /\
    tallies (n ++ "_mc") c bipo (length (entries f)) value (selected ev c valid value bipo (entries f)) s /\
    (contains "mc" n = false -> s_bg s = Some n).
Proof.
  intros pf e E ev entries factory read_config plots rows fs text f n cp save bipo fv outer cn c valid value H L T. cbn zeta.
  unfold dump_spectra_ntuple. assert (given_text text = None) as -> by (destruct T as [->| ->]; reflexivity).
  rewrite (event_name_l f n L). now apply one_ntuple.
Qed.
(** A text file whose first row lists ntuples with different names: one spectrum for each
    that has an entry in the second row. *)
Theorem C71_list_partial : forall pf e E (ev : E -> Z) entries factory read_config plots rows fs text fname paths half_lives ns config_path save bipo fv outer cname c valid value,
  can_fill read_config factory plots config_path cname c fv outer valid value -> text <> "" -> rows text = Ok [paths; half_lives] ->
  Forall2 leaf (firstn (length half_lives) paths) ns -> NoDup ns ->
  let run := dump_spectra_ntuple E ev entries factory read_config plots rows fs (Some text) fname config_path save bipo fv outer in
  snd run = None /\
  Forall2 (fun f n => exists s, load pf e (fst run (save ++ "/" ++ n ++ ".hdf5")) = Ok (Stored s cname None default_style) /\
    tallies (n ++ "_mc") c bipo (length (entries f)) value (selected ev c valid value bipo (entries f)) s) (firstn (length half_lives) paths) ns /\
  forall p, (forall n, In n ns -> p <> save ++ "/" ++ n ++ ".hdf5") -> fst run p = fs p.
Proof.
  intros pf e E ev entries factory read_config plots rows fs text fname paths hl ns cp save bipo fv outer cn c valid value H T R F ND. cbn zeta.
  unfold dump_spectra_ntuple. assert (given_text (Some text) = Some text) as -> by (destruct text; [congruence|reflexivity]).
  rewrite R. eapply each_ntuple; eassumption.
Qed.
(** What is missing: a text file with one ntuple per row.  With any number of rows but two
    nothing is done; of two rows the second is not looked at. *)
Theorem C71_list_refuted : forall E (ev : E -> Z) entries factory read_config plots rows fs text fname config_path save bipo fv outer, text <> "" ->
  (forall rs, rows text = Ok rs -> length rs <> 2 ->
   dump_spectra_ntuple E ev entries factory read_config plots rows fs (Some text) fname config_path save bipo fv outer = (fs, Some EValueError)) /\
  (forall f f', rows text = Ok [[f]; [f']] ->
   dump_spectra_ntuple E ev entries factory read_config plots rows fs (Some text) fname config_path save bipo fv outer =
   dump_spectra_ntuple E ev entries factory read_config plots rows fs None (Some f) config_path save bipo fv outer).
Proof.
  intros E ev entries factory read_config plots rows fs text fname cp save bipo fv outer T.
  assert (G : given_text (Some text) = Some text) by (destruct text; [congruence|reflexivity]).
  split.
  - intros rs R L. unfold dump_spectra_ntuple. rewrite G, R. destruct rs as [|a [|b [|x rs]]]; try reflexivity. cbn in L. congruence.
  - intros f f' R. unfold dump_spectra_ntuple. rewrite G, R. cbn [zipped length firstn dump_each given_text].
    destruct (read_and_dump_ntuple _ _ _ _ _ _ _ _ _ _ _ _ _ _) as [fs' [x|]]; reflexivity.
Qed.
(** Two ntuples of the same name in different directories: only the second is there at the end. *)
Theorem C71_list_clash_refuted : forall pf e E (ev : E -> Z) entries factory read_config plots rows fs text fname d d' n hl hl' config_path save bipo fv outer cname c valid value,
  can_fill read_config factory plots config_path cname c fv outer valid value -> text <> "" -> occurs "/" n = false -> n <> "" ->
  rows text = Ok [[d ++ "/" ++ n; d' ++ "/" ++ n]; [hl; hl']] ->
  let run := dump_spectra_ntuple E ev entries factory read_config plots rows fs (Some text) fname config_path save bipo fv outer in
  exists s, leaves pf e fs run (save ++ "/" ++ n ++ ".hdf5") cname s /\
    tallies (n ++ "_mc") c bipo (length (entries (d' ++ "/" ++ n))) value (selected ev c valid value bipo (entries (d' ++ "/" ++ n))) s.
Proof.
  intros pf e E ev entries factory read_config plots rows fs text fname d d' n hl hl' cp save bipo fv outer cn c valid value H T O N R. cbn zeta.
  unfold dump_spectra_ntuple. assert (given_text (Some text) = Some text) as -> by (destruct text; [congruence|reflexivity]).
  rewrite R. cbn [zipped length firstn dump_each].
  assert (L : forall d, leaf (d ++ "/" ++ n) n) by (intro x; split; [exact O|]; split; [exact N|]; right; now exists x).
  rewrite !(event_name_l _ n (L _)).
  destruct (one_ntuple pf e ev entries factory read_config plots fs (d ++ "/" ++ n) cp n save bipo fv outer cn c valid value H) as (s & (D & Lo & Fr) & _).
  destruct (read_and_dump_ntuple E ev entries factory read_config plots fs _ _ _ _ _ _ _) as [fs1 o]. cbn [fst snd] in *. subst o.
  destruct (one_ntuple pf e ev entries factory read_config plots fs1 (d' ++ "/" ++ n) cp n save bipo fv outer cn c valid value H) as (s' & (D' & Lo' & Fr') & T' & _).
  destruct (read_and_dump_ntuple E ev entries factory read_config plots fs1 _ _ _ _ _ _ _) as [fs2 o]. cbn [fst snd] in *. subst o.
  exists s'. split; [|exact T']. refine (conj eq_refl (conj Lo' _)). intros p P. cbn [fst]. now rewrite Fr', Fr.
Qed.

(** A directory of ntuples: one spectrum of the entries of all its files. *)
Theorem C71_combined_partial : forall pf e E (ev : E -> Z) entries factory read_config plots listdir fs d name config_path save bipo fv outer cname c valid value files,
  can_fill read_config factory plots config_path cname c fv outer valid value -> listdir d = Ok files -> files <> [] -> says_kind name ->
  let run := multi_ntuple_spectrum E ev entries factory read_config plots listdir fs (Some d) (Some name) config_path save bipo fv outer in
  exists s, leaves pf e fs run (save ++ name ++ ".hdf5") cname s /\
    tallies name c bipo (total_entries entries (map (fun f => d ++ "/" ++ f) files)) value
      (flat_map (fun f => selected ev c valid value bipo (entries (d ++ "/" ++ f))) files) s /\
    (forall n rest, name = n ++ "_" ++ "mc" ++ rest -> contains "mc" n = false -> s_bg s = Some n).
Proof.
  intros pf e E ev entries factory read_config plots listdir fs d name cp save bipo fv outer cn c valid value files H L F K. cbn zeta.
  destruct (combined_l pf e ev entries factory read_config plots listdir fs d cp name save bipo fv outer cn c valid value files H L F K) as (s & Le & T & s0 & N0 & B0 & G & NB).
  unfold multi_ntuple_spectrum. assert (given_text (Some name) = Some name) as -> by (destruct name; [destruct K as [K|[K|K]]; discriminate|reflexivity]).
  exists s. split; [exact Le|]. split; [exact T|]. intros n rest -> C.
  rewrite (NameLemmas.name_mc_l s0 n rest) in G; [|now left|exact N0|exact C]. destruct (s_bg s); [congruence|now destruct NB].
Qed.
(** The order in which the directory is listed does not matter. *)
Theorem C71_order : forall pf e E (ev : E -> Z) entries factory read_config plots listdir listdir' fs fs' d name config_path save bipo fv outer cname c valid value files files',
  can_fill read_config factory plots config_path cname c fv outer valid value -> listdir d = Ok files -> listdir' d = Ok files' -> Permutation files files' ->
  files <> [] -> says_kind name ->
  let run := multi_ntuple_spectrum E ev entries factory read_config plots listdir fs (Some d) (Some name) config_path save bipo fv outer in
  let run' := multi_ntuple_spectrum E ev entries factory read_config plots listdir' fs' (Some d) (Some name) config_path save bipo fv outer in
  exists s s', leaves pf e fs run (save ++ name ++ ".hdf5") cname s /\ leaves pf e fs' run' (save ++ name ++ ".hdf5") cname s' /\ same_spectra s s'.
Proof.
  intros pf e E ev entries factory read_config plots listdir listdir' fs fs' d name cp save bipo fv outer cn c valid value files files' H L L' P F K. cbn zeta.
  assert (F' : files' <> []) by (intros ->; apply Permutation_sym, Permutation_nil in P; congruence).
  destruct (combined_l pf e ev entries factory read_config plots listdir fs d cp name save bipo fv outer cn c valid value files H L F K) as (s & Le & T & s0 & N0 & B0 & G & NB).
  destruct (combined_l pf e ev entries factory read_config plots listdir' fs' d cp name save bipo fv outer cn c valid value files' H L' F' K) as (s' & Le' & T' & s0' & N0' & B0' & G' & NB').
  unfold multi_ntuple_spectrum. assert (given_text (Some name) = Some name) as -> by (destruct name; [destruct K as [K|[K|K]]; discriminate|reflexivity]).
  exists s, s'. split; [exact Le|]. split; [exact Le'|]. refine (tallies_same _ _ _ _ _ _ _ _ _ _ T T' _ _ _).
  - unfold total_entries. apply Permutation_length, flat_map_perm, Permutation_map, P.
  - apply flat_map_perm, P.
  - rewrite (FitSetReady.bg_same s0' s0) in G by congruence. rewrite G in G'. injection G' as G'.
    destruct (s_bg s) as [x|]; [|now destruct NB]. destruct (s_bg s') as [y|]; [|now destruct NB']. now f_equal.
Qed.
(** What is missing: names that do not say mc, mix or reco, as in -n Te130.  The run ends with
    ValueError when everything is filled, and what was in the file of that name is lost. *)
Theorem C71_combined_refuted : forall pf e E (ev : E -> Z) entries factory read_config plots listdir fs d name config_path save bipo fv outer cname c valid value files,
  can_fill read_config factory plots config_path cname c fv outer valid value -> listdir d = Ok files -> files <> [] -> name <> "" -> ~ says_kind name ->
  let run := multi_ntuple_spectrum E ev entries factory read_config plots listdir fs (Some d) (Some name) config_path save bipo fv outer in
  snd run = Some EValueError /\ load pf e (fst run (save ++ name ++ ".hdf5")) = Err EKeyError.
Proof.
  intros pf e E ev entries factory read_config plots listdir fs d name cp save bipo fv outer cn c valid value files H L F N K. cbn zeta.
  unfold multi_ntuple_spectrum. assert (given_text (Some name) = Some name) as -> by (destruct name; [congruence|reflexivity]).
  exact (combined_no_kind pf e ev entries factory read_config plots listdir fs d cp name save bipo fv outer cn c valid value files H L F N K).
Qed.
(** Without a name that of the directory is taken, if the path ends with a slash; if not, its
    last letter is lost. *)
Theorem C71_folder_partial : forall E (ev : E -> Z) entries factory read_config plots listdir fs d n config_path save bipo fv outer,
  occurs "/" n = false -> n <> "" ->
  multi_ntuple_spectrum E ev entries factory read_config plots listdir fs (Some (d ++ "/" ++ n ++ "/")) None config_path save bipo fv outer =
  multi_ntuple_spectrum E ev entries factory read_config plots listdir fs (Some (d ++ "/" ++ n ++ "/")) (Some n) config_path save bipo fv outer.
Proof.
  intros E ev entries factory read_config plots listdir fs d n cp save bipo fv outer O N. unfold multi_ntuple_spectrum. cbn [given_text].
  rewrite (folder_name_l d n "/" O N). destruct n; [congruence|reflexivity].
Qed.
Theorem C71_folder_refuted : forall E (ev : E -> Z) entries factory read_config plots listdir fs d n x config_path save bipo fv outer,
  occurs "/" n = false -> n <> "" ->
  multi_ntuple_spectrum E ev entries factory read_config plots listdir fs (Some (d ++ "/" ++ n ++ String x "")) None config_path save bipo fv outer =
  multi_ntuple_spectrum E ev entries factory read_config plots listdir fs (Some (d ++ "/" ++ n ++ String x "")) (Some n) config_path save bipo fv outer.
Proof.
  intros E ev entries factory read_config plots listdir fs d n x cp save bipo fv outer O N. unfold multi_ntuple_spectrum. cbn [given_text].
  rewrite (folder_name_l d n x O N). destruct n; [congruence|reflexivity].
Qed.

(** An outer radius without an axis radial3 is refused before anything is written. *)
Theorem C71_radius : forall E (ev : E -> Z) entries factory read_config plots listdir rows fs f d n config_path save bipo fv r cname c,
  read_config config_path = Ok (cname, c) -> r <> 0%Qc -> ~ In "radial3" (get_dims c) ->
  dump_spectra_ntuple E ev entries factory read_config plots rows fs None (Some f) config_path save bipo fv (Some r) = (fs, Some EValueError) /\
  (forall files, listdir d = Ok files ->
   multi_ntuple_spectrum E ev entries factory read_config plots listdir fs (Some d) n config_path save bipo fv (Some r) = (fs, Some EValueError)).
Proof.
  intros E ev entries factory read_config plots listdir rows fs f d n cp save bipo fv r cn c R N D.
  split; [exact (proj1 (no_radial3 ev entries factory read_config plots listdir fs f d cp _ save bipo fv r cn c R N D))|].
  intros files L. unfold multi_ntuple_spectrum. destruct (given_text n) as [m|];
  exact (proj2 (no_radial3 ev entries factory read_config plots listdir fs f d cp _ save bipo fv r cn c R N D) files L).
Qed.
(** An empty directory and missing arguments. *)
Theorem C71_nothing : forall E (ev : E -> Z) entries factory read_config plots listdir fs d n config_path save bipo fv outer nc,
  read_config config_path = Ok nc -> listdir d = Ok [] ->
  (forall x, outer_keyword (snd nc) outer <> Err x) ->
  multi_ntuple_spectrum E ev entries factory read_config plots listdir fs (Some d) n config_path save bipo fv outer = (fs, Some EException) /\
  multi_ntuple_spectrum E ev entries factory read_config plots listdir fs None None config_path save bipo fv outer = (fs, Some EAttributeError) /\
  forall m, m <> "" -> multi_ntuple_spectrum E ev entries factory read_config plots listdir fs None (Some m) config_path save bipo fv outer = (fs, Some ETypeError).
Proof.
  intros E ev entries factory rc plots ld fs d n cp save bipo fv outer nc R L O.
  assert (C : forall name, create_combined E ev entries factory rc plots ld fs d cp name save bipo fv outer = (fs, Some EException)).
  { intro name. unfold create_combined, script. rewrite R. cbn [rbind]. rewrite L. cbn [rbind map].
    destruct (outer_keyword (snd nc) outer) as [o|x] eqn:Q; [reflexivity|]. elim (O x). reflexivity. }
  unfold multi_ntuple_spectrum. split; [destruct (given_text n); apply C|]. split; [reflexivity|].
  intros m M. destruct m as [|a m]; [congruence|]. cbn [given_text]. rewrite R. reflexivity.
Qed.
(** ROOT files: no spectrum is ever written.  The script ends without an exception only if
    there is nothing to do. *)
Theorem C71_root_refuted : forall D V (evs : D -> list V) ds_entries factory read_config rows fs text fname config_path save bipo fv outer,
  let run := dump_spectra_root D V evs ds_entries factory read_config rows fs text fname config_path save bipo fv outer in
  fst run = fs /\ (snd run = None -> exists t, text = Some t /\ rows t = Ok []) /\
  (forall t r l, t <> "" -> text = Some t -> rows t = Ok (r :: l) -> snd run = Some EAttributeError) /\
  (text = None -> fname = None -> snd run = Some EAttributeError).
Proof.
  intros D V evs ds factory read_config rows fs text fname cp save bipo fv outer. cbn zeta. unfold dump_spectra_root.
  assert (Y : forall A B C Z : Prop, (A /\ B) /\ (C /\ Z) -> A /\ B /\ C /\ Z) by tauto. apply Y. clear Y. split.
  2:{ split; [intros t r l N -> R|intros -> ->; reflexivity]. replace (given_text (Some t)) with (Some t) by (now destruct t). now rewrite R. }
  destruct (given_text text) as [t|] eqn:G.
  - assert (text = Some t) as ->.
    { revert G. unfold given_text. destruct text as [[|a x]|]; congruence. }
    destruct (rows t) as [[|a l]|x] eqn:R; (split; [reflexivity|]); try discriminate. intros _. exists t. auto.
  - destruct fname as [f|]; [|split; [reflexivity|discriminate]]. unfold read_and_dump_root, script.
    destruct (read_config cp) as [nc|x]; cbn [rbind]; [|split; [reflexivity|discriminate]].
    destruct (outer_keyword (snd nc) outer) as [o|x]; cbn [rbind]; [|split; [reflexivity|discriminate]].
    destruct (fill_from_root _ _ _ _ _ _) as [s|x]; cbn [rbind]; (split; [reflexivity|discriminate]).
Qed.

(** A directory with two ntuples: five of their eight entries are usable. *)
Definition ex_entries (f : string) : list (Z * Qc) := if String.eqb f "mc/a.root" then ex_es else [(0%Z, zq 3); (0%Z, zq 100)].
Definition ex_fac (fv outer : option Qc) := ex_factory.
Definition ex_read (p : string) : res (string * sconfig) := Ok ("spectra", ex_c).
Definition ex_list (d : string) : res (list string) := Ok ["a.root"; "b.root"].
Definition ex_plots (s : spectra) : out := None.
Definition no_files : fsys := fun _ => None.
Definition ex_run := multi_ntuple_spectrum _ fst ex_entries ex_fac ex_read ex_plots ex_list no_files (Some "mc") (Some "Te130_mc") "c.yml" "./" false None None.
Example C71_ex : can_fill ex_read ex_fac ex_plots "c.yml" "spectra" ex_c None None ex_valid ex_val /\
  says_kind "Te130_mc" /\ leaf "mc/a.root" "a.root" /\
  rmap (fun s => (s_bg (st_spec s), s_raw (st_spec s), this (s_decays (st_spec s)))) (load (fun _ => Err EValueError) 0 (fst ex_run "./Te130_mc.hdf5")) =
  Ok (Some "Te130", 5%Z, this (nq (length ex_es + 2))).
Proof.
  split; [|split; [left; reflexivity|split; [|vm_compute; reflexivity]]].
  - split; [reflexivity|]. split; [exact (proj1 C27_ex)|]. split; [discriminate|]. split; [|reflexivity]. left. split; [now left|].
    exact (proj1 (proj2 C27_ex)).
  - split; [reflexivity|]. split; [discriminate|]. right. now exists "mc".
Qed.

Print Assumptions C71_ntuple.
Print Assumptions C71_list_partial.
Print Assumptions C71_list_refuted.
Print Assumptions C71_list_clash_refuted.
Print Assumptions C71_combined_partial.
Print Assumptions C71_order.
Print Assumptions C71_combined_refuted.
Print Assumptions C71_folder_partial.
Print Assumptions C71_folder_refuted.
Print Assumptions C71_radius.
Print Assumptions C71_root_refuted.
Print Assumptions C71_nothing.

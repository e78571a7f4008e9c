(** C49, C50, C60: configurations. *)
From Coq Require Import Permutation.
From Verif Require Import Model.Base Model.PyStr Model.Param Model.Config Model.FitParam Model.FitConfig Model.ConfigFile.
From Verif Require Import Spec.ConfigSpec Proofs.ConfigLemmas Proofs.ConfigFileLemmas Proofs.DictLemmas.
Local Open Scope string_scope.
Local Open Scope list_scope.

(** * C49: dump and load *)
(** A spectra configuration comes back exactly. *)
Theorem C49_spectra : forall c, sbuilt c -> c <> [] -> sc_load (sc_dump c) = Ok c.
Proof. intros c B N. apply sc_roundtrip; [exact N|now apply sbuilt_nodup]. Qed.
(** The flags of every parameter that the constructor or load makes. *)
Theorem C49_constructed : forall name pr sg lo hi bi di va cu pe be ls ba ld p,
  new_fpar name pr sg lo hi bi di va cu pe be ls ba ld = Ok p -> constructed p.
Proof. exact constructed_new. Qed.
(** A spectrum's fit configuration comes back parameter by parameter, each as [again]
    says: all fields but the array of values, the best fit in place of the penalty term. *)
Theorem C49_fit_partial : forall e b c, sf_pars c <> [] -> NoDup (dkeys (sf_pars c)) -> Forall rate_entry (sf_pars c) ->
  sf_load e (sf_dump b c) (sf_spectra c) (sf_name c) =
    Ok (SFC (sf_name c) (sf_spectra c) (map (fun kp => (fst kp, again b (fst kp) (snd kp))) (sf_pars c))).
Proof. exact sf_roundtrip. Qed.
(** It comes back exactly when penalty term and best fit agree (both unset, say). *)
Theorem C49_fit_exact : forall e c, sf_pars c <> [] -> NoDup (dkeys (sf_pars c)) -> Forall rate_entry (sf_pars c) ->
  Forall (fun kp => fp_name (cp_par (snd kp)) = fst kp /\ fp_values (cp_par (snd kp)) = None /\
                    fp_penalty (cp_par (snd kp)) = fp_best (cp_par (snd kp))) (sf_pars c) ->
  sf_load e (sf_dump false c) (sf_spectra c) (sf_name c) = Ok c.
Proof.
  intros e c NE N R X. rewrite sf_roundtrip by assumption. f_equal. destruct c as [n s l]. cbn [sf_name sf_spectra sf_pars] in *.
  f_equal. rewrite <- (map_id l) at 2. apply map_ext_in. intros [k [cl p]] I. rewrite Forall_forall in X.
  specialize (X _ I). cbn in X. destruct X as (A & B & C). destruct p. cbn in *. subst. reflexivity.
Qed.
(** A global fit configuration: same names, and under every name the same parameter (up
    to [again]) of the same class and kind. *)
Theorem C49_global_partial : forall e b g n,
  NoDup (dkeys (gc_pars g)) -> Forall well_named_entry (gc_pars g) -> get_spectra_pars g <> [] ->
  exists dg ds g', gc_dump b g = Ok (dg, ds) /\ gc_load e dg (Some ds) n = Ok g' /\
    Permutation (gc_get_pars g') (gc_get_pars g) /\
    forall k, dget k (gc_pars g') = option_map (fun e => GE (again b k (ge_par e)) (ge_global e)) (dget k (gc_pars g)).
Proof. exact gc_roundtrip_lookup. Qed.
(** Their order: global parameters by dimension, then the spectral ones. *)
Theorem C49_global_order : forall e b g n,
  NoDup (dkeys (gc_pars g)) -> Forall well_named_entry (gc_pars g) -> get_spectra_pars g <> [] ->
  exists dg ds g', gc_dump b g = Ok (dg, ds) /\ gc_load e dg (Some ds) n = Ok g' /\
    gc_pars g' = map (again_entry b) (by_dimension (gc_pars g)).
Proof. exact gc_roundtrip. Qed.

(** A configuration that meets the hypotheses. *)
Definition demo_par (n : string) (dim : option string) (best pen : option Qc) : fpar :=
  FPar n 1 (Some (qq 1 10)) 0 (zq 2) 5 dim None None best pen None None None.
Definition demo_global (n dim : string) (c : pclass) : string * gentry := (n, GE (CPar c (demo_par n (Some dim) None None)) true).
Definition demo_rate (n : string) (best pen : option Qc) : string * gentry := (n, GE (CPar PRate (demo_par n None best pen)) false).
Definition demo_config : gconfig :=
  GC "my_config" [demo_global "energy_scale" "energy" PScale; demo_global "radial_scale" "radial" PScale;
                  demo_global "energy_shift" "energy" PShift; demo_rate "Te130_rate" (Some 1%Qc) (Some (zq 3))].
Example C49_demo : NoDup (dkeys (gc_pars demo_config)) /\ Forall well_named_entry (gc_pars demo_config) /\ get_spectra_pars demo_config <> [].
Proof.
  assert (C : forall n d b p, constructed (demo_par n d b p)) by (intros; right; repeat split; now left).
  assert (G : forall dim syst c, systematic syst c -> syst <> "resolution_ly" -> well_named_entry (demo_global (dim ++ "_" ++ syst) dim c)).
  { intros dim syst c S R. split; [reflexivity|]. cbn. exists dim, syst. unfold global_entry. refine (conj eq_refl (conj eq_refl (conj S (conj (C _ _ _ _) _)))). intro; contradiction. }
  repeat split.
  - cbn. repeat constructor; cbn; intuition discriminate.
  - constructor; [|constructor; [|constructor; [|constructor; [|constructor]]]].
    + apply (G "energy" "scale" PScale); [reflexivity|discriminate].
    + apply (G "radial" "scale" PScale); [reflexivity|discriminate].
    + apply (G "energy" "shift" PShift); [reflexivity|discriminate].
    + split; [reflexivity|]. exact (conj eq_refl (conj eq_refl (conj eq_refl (C _ _ _ _)))).
  - discriminate.
Qed.
Definition reload (e : Qc) (g : gconfig) : res gconfig :=
  do d <- gc_dump false g; gc_load e (fst d) (Some (snd d)) (gc_name g).

(** What is lost.  The penalty term: *)
Theorem C49_penalty_refuted : exists g', reload (qq 27 10) demo_config = Ok g' /\
  rbind (gc_get_par demo_config "Te130_rate") (fun c => get_penalty_term (cp_par c)) = Ok (zq 3) /\
  rbind (gc_get_par g' "Te130_rate") (fun c => get_penalty_term (cp_par c)) = Ok 1%Qc.
Proof. eexists. split; [vm_compute; reflexivity|]. split; reflexivity. Qed.
(** the order of the parameters, hence their indices: *)
Theorem C49_order_refuted : exists g', reload (qq 27 10) demo_config = Ok g' /\
  gc_get_index demo_config "radial_scale" = Ok 1%nat /\ gc_get_index g' "radial_scale" = Ok 2%nat.
Proof. eexists. split; [vm_compute; reflexivity|]. split; reflexivity. Qed.
(** the name given to load, replaced by that of the last global parameter: *)
Theorem C49_name_refuted : exists g', reload (qq 27 10) demo_config = Ok g' /\
  gc_name demo_config = "my_config" /\ gc_name g' = "radial_scale".
Proof. eexists. split; [vm_compute; reflexivity|]. split; reflexivity. Qed.
(** A configuration without spectral parameters, or an empty one, cannot be read back. *)
Theorem C49_globals_only_refuted : forall e b g d, get_spectra_pars g = [] -> gc_dump b g = Ok d ->
  Forall well_named_entry (gc_pars g) -> NoDup (dkeys (gc_pars g)) ->
  forall n, gc_load e (fst d) (Some (snd d)) n = Err EKeyError.
Proof. exact globals_only_l. Qed.
(** A global parameter without dimension cannot be dumped. *)
Theorem C49_no_dimension : forall b g c, In c (get_global_pars g) -> fp_dim (cp_par c) = None -> gc_dump b g = Err ETypeError.
Proof.
  intros b g c I D. unfold gc_dump.
  assert (E : forall l acc, In c l -> dump_globals b acc l = Err ETypeError).
  { induction l as [|d l IH]; intros acc J; [destruct J|]. cbn [dump_globals]. destruct J as [->|J]; [now rewrite D|]. destruct (fp_dim (cp_par d)); [now apply IH|reflexivity]. }
  now rewrite (E _ _ I).
Qed.
Theorem C49_empty_refuted : sc_load (sc_dump []) = Err EKeyError.
Proof. reflexivity. Qed.
(** Without the spectral dictionary such a configuration can be read. *)
Theorem C49_globals_only : forall e b g n,
  NoDup (dkeys (gc_pars g)) -> Forall well_named_entry (gc_pars g) ->
  exists dg ds g', gc_dump b g = Ok (dg, ds) /\ gc_load e dg None n = Ok g' /\
    forall k, dget k (gc_pars g') =
      match dget k (gc_pars g) with
      | Some en => if ge_global en then Some (GE (again b k (ge_par en)) true) else None
      | None => None
      end.
Proof. exact globals_alone_l. Qed.
(** A light-yield resolution of a dimension whose name ends "resolution". *)
Theorem C49_resolution_refuted :
  reload (qq 27 10) (GC "c" [demo_global "resolution_resolution_ly" "resolution" PResolution; demo_rate "Te130_rate" None None])
  = Err EIndexError.
Proof. vm_compute. reflexivity. Qed.

(** * C50: indices, names and shapes *)
Theorem C50_index : forall e g p, built e g ->
  match gc_get_index g p with
  | Ok i => gc_get_par_by_index g i = gc_get_par g p /\ exists c, gc_get_par g p = Ok c
  | Err x => x = EIndexError /\ ~ In p (gc_get_pars g)
  end.
Proof. intros e g p B. apply gc_index_l. now apply (built_keyed e g). Qed.
Theorem C50_entry : forall e g i k v, built e g -> nth_error (gc_pars g) i = Some (k, v) ->
  gc_get_index g k = Ok i /\ gc_get_par g k = Ok (ge_par v) /\ gc_get_par_by_index g i = Ok (ge_par v) /\
  nth_error (gc_get_pars g) i = Some k /\ nth_error (gc_get_shape g) i = Some (fp_bins (cp_par (ge_par v))) /\
  fp_name (cp_par (ge_par v)) = k.
Proof.
  intros e g i k v B H. destruct (built_keyed e g B) as [N K].
  destruct (gc_nth_l g i k v N H) as (A1 & A2 & A3 & A4 & A5). repeat split; auto.
  rewrite Forall_forall in K. symmetry. apply (K (k, v)). eapply nth_error_In; exact H.
Qed.
Theorem C50_lengths : forall g, length (gc_get_shape g) = length (gc_get_pars g).
Proof. intro g. unfold gc_get_shape, gc_get_pars, dkeys. now rewrite !map_length. Qed.
(** Global and spectral parameters partition the parameters; no two share a name. *)
Theorem C50_partition : forall e g, built e g ->
  Permutation (get_global_pars g ++ get_spectra_pars g) (map (fun ke => ge_par (snd ke)) (gc_pars g)) /\
  NoDup (map (fun c => fp_name (cp_par c)) (get_global_pars g ++ get_spectra_pars g)) /\
  Permutation (map (fun c => fp_name (cp_par c)) (get_global_pars g ++ get_spectra_pars g)) (gc_get_pars g).
Proof.
  intros e g B. assert (K := built_keyed e g B). split; [apply partition_l|]. split; [now apply names_disjoint_l|].
  etransitivity; [apply Permutation_map, partition_l|]. rewrite map_map. destruct K as [_ K].
  replace (map (fun x => fp_name (cp_par (ge_par (snd x)))) (gc_pars g)) with (gc_get_pars g); [reflexivity|].
  unfold gc_get_pars, dkeys. apply map_ext_in. intros x Hx. rewrite Forall_forall in K. now apply K.
Qed.
(** add_par: a known name keeps its place, a new one comes last; nothing else changes. *)
Theorem C50_add_par : forall g p t g', gc_add_par g p t = Ok g' ->
  let n := fp_name (cp_par p) in
  gc_get_par g' n = Ok p /\ (forall k, k <> n -> gc_get_par g' k = gc_get_par g k) /\
  gc_get_pars g' = (if str_in n (gc_get_pars g) then gc_get_pars g else gc_get_pars g ++ [n]) /\
  (t = "global" /\ In p (get_global_pars g') \/ t = "spectra" /\ In p (get_spectra_pars g')).
Proof. exact add_par_l. Qed.
Theorem C50_add_par_type : forall g p t, t <> "global" -> t <> "spectra" -> gc_add_par g p t = Err EIndexError.
Proof.
  intros g p t A B. unfold gc_add_par. apply String.eqb_neq in A. apply String.eqb_neq in B. now rewrite A, B.
Qed.
(** add_config of a spectrum's configuration: its parameters as <spectrum>_<parameter>. *)
Theorem C50_add_spectra : forall g c, NoDup (dkeys (sf_pars c)) ->
  let g' := fst (add_sfconfig g c) in
  (forall k p, dget k (sf_pars c) = Some p ->
     dget (sf_spectra c ++ "_" ++ k)%string (gc_pars g') =
       Some (GE (CPar (cp_class p) (fp_rename (sf_spectra c ++ "_" ++ k) (cp_par p))) false)) /\
  (forall n, (forall k, In k (dkeys (sf_pars c)) -> n <> (sf_spectra c ++ "_" ++ k)%string) -> dget n (gc_pars g') = dget n (gc_pars g)).
Proof. exact add_spectra_l. Qed.
(** add_config of a global configuration: its entries win, all others stay. *)
Theorem C50_add_global : forall e g c k, built e c ->
  dget k (gc_pars (add_gconfig g c)) = match dget k (gc_pars c) with Some en => Some en | None => dget k (gc_pars g) end.
Proof. intros e g c k B. apply add_global_l. now apply (built_keyed e c). Qed.
(** Positions beyond the end and names that are not there. *)
Theorem C50_range : forall g c,
  (forall i, (length (gc_get_pars g) <= i)%nat -> gc_get_par_by_index g i = Err EIndexError) /\
  (forall i, (length (get_pars c) <= i)%nat -> get_par_by_index c i = Err EIndexError) /\
  (forall n, ~ In n (gc_get_pars g) -> gc_get_par g n = Err EKeyError) /\ (forall n, ~ In n (get_pars c) -> get_par c n = Err EKeyError).
Proof.
  intros g c. unfold gc_get_par_by_index, get_par_by_index. split; [|split; [|split]].
  - intros i H. apply nth_error_None in H. now rewrite H.
  - intros i H. apply nth_error_None in H. now rewrite H.
  - intros n H. unfold gc_get_par, dlookup. rewrite (proj2 (DictLemmas.dget_none n (gc_pars g)) H). reflexivity.
  - intros n H. unfold get_par, dlookup. rewrite (proj2 (DictLemmas.dget_none n c) H). reflexivity.
Qed.
(** Spectra configurations. *)
Theorem C50_spectra_index : forall c p,
  match get_index c p with
  | Ok i => get_par_by_index c i = get_par c p /\ exists v, get_par c p = Ok v
  | Err e => e = EIndexError /\ ~ In p (get_pars c)
  end.
Proof. exact sc_index_l. Qed.
Theorem C50_spectra_entry : forall c i k p, sbuilt c -> nth_error c i = Some (k, p) ->
  get_index c k = Ok i /\ get_par c k = Ok p /\ get_par_by_index c i = Ok p /\
  nth_error (get_pars c) i = Some k /\ nth_error (get_shape c) i = Some (sp_bins p).
Proof. intros c i k p B. apply sc_nth_l. now apply sbuilt_nodup. Qed.

Example C50_demo : exists g, built (qq 27 10) g /\ gc_get_pars g = ["energy_scale"; "Te130_rate"].
Proof.
  eexists. split.
  - eapply built_spectra with (c := SFC "s" "Te130" [("rate", CPar PRate (demo_par "rate" None None None))]).
    eapply built_par with (t := "global"); [apply (built_new _ "g")|].
    instantiate (2 := CPar PScale (demo_par "energy_scale" (Some "energy") None None)). reflexivity.
  - reflexivity.
Qed.
(** Adding one spectrum's configuration to two global ones renames the parameters of the
    first after the fact: the objects are shared, the key is not changed. *)
Example C50_shared : let c := SFC "s" "Te130" [("rate", CPar PRate (demo_par "rate" None None None))] in
  map (fun kc => fp_name (cp_par (snd kc))) (sf_pars (snd (add_sfconfig (GC "g" []) c))) = ["Te130_rate"].
Proof. reflexivity. Qed.

(** * C60: configuration files *)
(** What dump_to_file writes, load_from_file reads, with any names and other files. *)
Theorem C60_spectra : forall fs name c path fname nm, sbuilt c -> c <> [] ->
  sc_load_from_file (sc_dump_to_file fs name c path fname) (path ++ yml_name "spectra_config" name fname) nm =
    Ok (given_name "config" nm, c).
Proof.
  intros. unfold sc_load_from_file, sc_dump_to_file, read_file. rewrite dget_dset_same. cbn [rbind].
  rewrite C49_spectra by assumption. reflexivity.
Qed.
Theorem C60_fit : forall e fs c path fname b nm sp,
  sf_load_from_file e (sf_dump_to_file fs c path fname b) (path ++ yml_name "spectral_fit_config" (sf_name c) fname) sp nm =
    sf_load e (sf_dump b c) sp (given_name "spectral_fit_config" nm).
Proof. intros. unfold sf_load_from_file, sf_dump_to_file, read_file. now rewrite dget_dset_same. Qed.
Theorem C60_global : forall e fs g path gname sname b nm dg ds,
  yml_name "global_fit_config" (gc_name g) gname <> yml_name "spectral_fit_config" (gc_name g) sname ->
  gc_dump b g = Ok (dg, ds) ->
  exists fs', gc_dump_to_file fs g path gname sname b = Ok fs' /\
    gc_load_from_file e fs' (path ++ yml_name "global_fit_config" (gc_name g) gname)
      (Some (path ++ yml_name "spectral_fit_config" (gc_name g) sname)%string) nm =
    gc_load e dg (Some ds) (given_name "global_fit_config" nm).
Proof. exact global_file_l. Qed.
Theorem C60_other_files : forall fs g path gname sname b fs' f, gc_dump_to_file fs g path gname sname b = Ok fs' ->
  f <> (path ++ yml_name "global_fit_config" (gc_name g) gname)%string ->
  f <> (path ++ yml_name "spectral_fit_config" (gc_name g) sname)%string -> dget f fs' = dget f fs.
Proof. exact other_files_l. Qed.
(** Default names differ; two blank names are the same file and the global parameters
    are lost. *)
Theorem C60_default_names : forall own, yml_name "global_fit_config" own None <> yml_name "spectral_fit_config" own None.
Proof. intro. discriminate. Qed.
Theorem C60_blank_names_refuted : forall e fs g path b fs' nm,
  gc_dump_to_file fs g path (Some "") (Some "") b = Ok fs' ->
  let f := (path ++ yml_name "global_fit_config" (gc_name g) (Some ""))%string in
  gc_load_from_file e fs' f (Some f) nm = Err EKeyError.
Proof. exact blank_l. Qed.
(** A blank name does not take the name of the file. *)
Theorem C60_blank_name_refuted : forall fs f, sc_load_from_file fs f (Some "") = sc_load_from_file fs f None.
Proof. reflexivity. Qed.
Example C60_demo : exists fs' g', gc_dump_to_file [] demo_config "dir/" None (Some "sp.yml") false = Ok fs' /\
  dkeys fs' = ["dir/global_fit_config.yml"; "dir/sp.yml"] /\
  gc_load_from_file (qq 27 10) fs' "dir/global_fit_config.yml" (Some "dir/sp.yml") None = Ok g'.
Proof. do 2 eexists. split; [vm_compute; reflexivity|]. split; vm_compute; reflexivity. Qed.

Print Assumptions C49_spectra.
Print Assumptions C49_fit_exact.
Print Assumptions C49_global_order.
Print Assumptions C50_partition.
Print Assumptions C50_add_global.
Print Assumptions C60_global.
Print Assumptions C50_range.
Print Assumptions C49_no_dimension.

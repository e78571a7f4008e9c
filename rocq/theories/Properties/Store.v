(** C46-C48, C61-C63: files. *)
From Verif Require Import Model.Base Model.PyStr Model.NDArray Model.Param Model.Config Model.Spectra.
From Verif Require Import Model.FitParam Model.FitConfig Model.Minimise Model.Store.
From Verif Require Import Spec.ArraySpec Spec.ConfigSpec Spec.StoreSpec.
From Verif Require Import Proofs.DictLemmas Proofs.ConfigLemmas Proofs.StoreLemmas Proofs.FileLemmas Proofs.ResultLemmas.
Local Open Scope string_scope.
Local Open Scope list_scope.

(** * C46: dictionaries as strings *)
Theorem C46_roundtrip_partial : forall str_float parse_float d,
  d <> [] -> NoDup (dkeys d) -> Forall (storable str_float parse_float) d ->
  exists s, dict_to_string str_float d = Ok s /\ string_to_dict parse_float s = Ok d.
Proof. exact roundtrip_l. Qed.
(** A value that is not a string, an integer or a float (a nested ROI dictionary, say). *)
Theorem C46_other_refuted : forall str_float d, (exists k, In (k, VOther) d) -> dict_to_string str_float d = Err ETypeError.
Proof. exact other_l. Qed.
(** The three separators, and the empty dictionary. *)
Theorem C46_colon_refuted : forall str_float parse_float, exists s,
  dict_to_string str_float [("time", VStr "12:30")] = Ok s /\ string_to_dict parse_float s = Ok [("time", VStr "12")].
Proof. intros. eexists. split; reflexivity. Qed.
Theorem C46_comma_refuted : forall str_float parse_float, exists s,
  dict_to_string str_float [("label", VStr "a,b")] = Ok s /\ string_to_dict parse_float s = Err EIndexError.
Proof. intros. eexists. split; reflexivity. Qed.
Theorem C46_semicolon_refuted : forall str_float parse_float, exists s,
  dict_to_string str_float [("label", VStr "a;b")] = Ok s /\ string_to_dict parse_float s = Err ETypeError.
Proof. intros. eexists. split; reflexivity. Qed.
Theorem C46_empty_refuted : forall str_float parse_float, exists s,
  dict_to_string str_float [] = Ok s /\ string_to_dict parse_float s = Err EIndexError.
Proof. intros. eexists. split; reflexivity. Qed.
(** Any text of a float will do, here "1". *)
Example C46_demo : let str_float (_ : Qc) := "1" in let parse_float (_ : string) := Ok 1%Qc in
  let d := [("color", VStr "blue"); ("width", VInt (-20)); ("alpha", VFloat 1%Qc)] in
  d <> [] /\ NoDup (dkeys d) /\ Forall (storable str_float parse_float) d /\
  dict_to_string str_float d = Ok "color:blue;str,width:-20;int,alpha:1;float".
Proof.
  cbn zeta. repeat split; try discriminate.
  - repeat constructor; cbn; intuition discriminate.
  - repeat constructor.
Qed.

(** * C47: dump and load of a spectrum *)
(** The loaded spectrum has every attribute of the dumped one; its background name is
    the one dump determined; its fit configuration comes back as C49 says. *)
Theorem C47_load_partial : forall parse_float e f s append overwrite f' s',
  dump f s append overwrite = (f', s', None) -> spectrum_storable s ->
  exists bg, get_background_name (st_spec s) = (st_spec s', Ok bg) /\
    load parse_float e f' =
      Ok (Stored (Spec (s_name (st_spec s)) (Some bg) (s_cfg (st_spec s)) (s_data (st_spec s)) (s_decays (st_spec s))
                       (s_raw (st_spec s)) (s_bipo (st_spec s)) (s_rois (st_spec s)))
                 (st_cfg_name s) (fit_again (s_name (st_spec s)) (st_fit s)) (st_style s)).
Proof. exact load_dump_l. Qed.
(** Nothing is lost if there is no fit configuration and the background is named. *)
Theorem C47_exact : forall parse_float e f s append overwrite f' s',
  dump f s append overwrite = (f', s', None) -> spectrum_storable s -> st_fit s = None ->
  load parse_float e f' = Ok s' /\ (forall b, s_bg (st_spec s) = Some b -> b <> "" -> s' = s).
Proof.
  intros pf e f s a o f' s' D S F. destruct (load_dump_l pf e f s a o f' s' D S) as (bg & B & L).
  assert (NF := dump_frame_l f s a o). rewrite D in NF. cbn [fst snd] in NF. destruct NF as (A1 & A2 & A3 & A4 & A5 & A6 & A7 & A8 & A9 & A10).
  assert (NS := name_sets _ _ _ B). split.
  - rewrite L, F. f_equal. destruct s' as [[] ? ? ?]; cbn in *. congruence.
  - intros b Hb Nb. unfold get_background_name in B. rewrite Hb in B. destruct b; [congruence|]. injection B as E _.
    destruct s as [sp cn fi st], s' as [sp' cn' fi' st']. cbn in *. congruence.
Qed.
(** It succeeds whenever the group may be written, the background has a name and the
    spectrum a dimension. *)
Theorem C47_succeeds : forall f s append overwrite bg, (append = false \/ overwrite = true \/ ~ In "spectrum" (names f)) ->
  snd (get_background_name (st_spec s)) = Ok bg -> ashape (s_data (st_spec s)) <> [] ->
  exists f' s', dump f s append overwrite = (f', s', None).
Proof. exact dump_ok_l. Qed.
(** The spectrum in memory keeps everything but the background name. *)
Theorem C47_frame : forall f s append overwrite, let s' := snd (fst (dump f s append overwrite)) in
  st_cfg_name s' = st_cfg_name s /\ st_fit s' = st_fit s /\ st_style s' = st_style s /\
  s_name (st_spec s') = s_name (st_spec s) /\ s_cfg (st_spec s') = s_cfg (st_spec s) /\ s_data (st_spec s') = s_data (st_spec s) /\
  s_decays (st_spec s') = s_decays (st_spec s) /\ s_raw (st_spec s') = s_raw (st_spec s) /\ s_bipo (st_spec s') = s_bipo (st_spec s) /\
  s_rois (st_spec s') = s_rois (st_spec s).
Proof. exact dump_frame_l. Qed.

Definition demo_cfg : sconfig := [("energy_mc", SPar 0 (zq 10) 4)].
Definition demo_spec (name : string) (bg : option string) : spectra :=
  Spec name bg demo_cfg (ND [4%nat] (fun i => nq (hd 0%nat i))) (zq 100) 6 0 [("energy", ROI 0 (zq 5) (qq 1 2))].
Definition demo_fit : sfconfig := SFC "fit" "other" [("rate", CPar PRate (FPar "rate" 1 None 0 (zq 2) 5 None None None (Some 1%Qc) (Some (zq 3)) None None None))].
Definition demo_stored (fit : option sfconfig) (style : jval) : stored := Stored (demo_spec "Te130_mc" None) "config" fit style.
Example C47_demo : spectrum_storable (demo_stored (Some demo_fit) (JObj [("color", JStr "red")])) /\
  exists f' s', dump None (demo_stored (Some demo_fit) (JObj [("color", JStr "red")])) false false = (f', s', None) /\ s_bg (st_spec s') = Some "Te130".
Proof.
  split.
  - repeat split; try discriminate.
    + apply (sbuilt_par [] "energy_mc" (SPar 0 (zq 10) 4)), sbuilt_new.
    + cbn. repeat constructor. discriminate.
    + repeat constructor. cbn. tauto.
    + constructor; [|constructor]. repeat split. right. repeat split. now left.
  - eexists _, _. split; reflexivity.
Qed.
(** What is lost: an empty style; *)
Theorem C47_style_refuted : forall pf e, exists f' s' s2,
  dump None (demo_stored None (JStr "")) false false = (f', s', None) /\ load pf e f' = Ok s2 /\
  st_style s' = JStr "" /\ st_style s2 = JObj [("color", JStr "blue")].
Proof. intros. do 3 eexists. split; [reflexivity|]. split; [vm_compute; reflexivity|]. split; reflexivity. Qed.
(** a fit configuration without parameters; *)
Theorem C47_empty_fit_refuted : forall pf e, exists f' s' s2,
  dump None (demo_stored (Some (SFC "fit" "Te130_mc" [])) default_style) false false = (f', s', None) /\ load pf e f' = Ok s2 /\
  st_fit s' <> None /\ st_fit s2 = None.
Proof. intros. do 3 eexists. split; [reflexivity|]. split; [vm_compute; reflexivity|]. split; [discriminate|reflexivity]. Qed.
(** the penalty terms and the spectra name of a fit configuration. *)
Theorem C47_fit_refuted : forall pf e, exists f' s' s2 c c2,
  dump None (demo_stored (Some demo_fit) default_style) false false = (f', s', None) /\ load pf e f' = Ok s2 /\
  st_fit s' = Some c /\ st_fit s2 = Some c2 /\ sf_spectra c = "other" /\ sf_spectra c2 = "Te130_mc" /\
  map (fun kp => fp_penalty (cp_par (snd kp))) (sf_pars c) = [Some (zq 3)] /\
  map (fun kp => fp_penalty (cp_par (snd kp))) (sf_pars c2) = [Some 1%Qc].
Proof. intros. do 5 eexists. split; [reflexivity|]. split; [vm_compute; reflexivity|]. repeat split. Qed.

(** * C48: histories of calls *)
(** One call with append: root attributes and all other groups are as before, also when
    the call fails. *)
Theorem C48_frame : forall f c, appends c -> root_attrs (fst (perform f c)) = root_attrs f /\
  forall k, k <> target c -> member k (fst (perform f c)) = member k f.
Proof. exact frame_l. Qed.
(** An existing group is not replaced without overwrite; the file stays as it is. *)
Theorem C48_refused : forall f c, appends c -> ~ overwrites c -> In (target c) (names f) -> perform f c = (f, Some EValueError).
Proof. exact refuse_l. Qed.
(** Without append the file holds just the new group. *)
Theorem C48_only : forall f c, ~ appends c -> (forall o, c <> DumpObject o) ->
  names (fst (perform f c)) = [target c] /\ root_attrs (fst (perform f c)) = [].
Proof. exact only_l. Qed.
(** Any number of calls: groups that none of them is for, and groups that none of them
    may overwrite. *)
Theorem C48_others : forall l f k, Forall appends l -> ~ In k (map target l) ->
  member k (after f l) = member k f /\ root_attrs (after f l) = root_attrs f.
Proof. exact others_l. Qed.
Theorem C48_stays : forall l f k h, member k f = Some h -> Forall (fun c => appends c /\ (target c = k -> ~ overwrites c)) l ->
  member k (after f l) = Some h.
Proof. exact stays_l. Qed.
(** Hence what can be loaded stays what it is. *)
Theorem C48_load : forall pf e f l, In "spectrum" (names f) ->
  Forall (fun c => appends c /\ (target c = "spectrum" -> ~ overwrites c)) l -> load pf e (after f l) = load pf e f.
Proof. exact load_stays_l. Qed.
Theorem C48_load_fit : forall e f l, In "fit_results" (names f) -> Forall appends l ->
  load_fit_results e (after f l) = load_fit_results e f.
Proof. exact load_fit_stays_l. Qed.
Theorem C48_load_limit : forall dec e f l, In "limit_results" (names f) -> Forall appends l ->
  load_limit_results dec e (after f l) = load_limit_results dec e f.
Proof. exact load_limit_stays_l. Qed.
(** An object dump truncates the file always: it has no append. *)
Theorem C48_object_refuted : exists f o k, member k f <> None /\ snd (perform f (DumpObject o)) = None /\
  member k (fst (perform f (DumpObject o))) = None.
Proof.
  exists (Some (Root [] [("spectrum", HGroup [] [])])), [("_stats", OArray (ND [1%nat] (fun _ => 0%Qc)))], "spectrum".
  repeat split; discriminate.
Qed.
(** A dump that fails because the background has no name (a plain ValueError) has opened
    the file: without append all is lost, with overwrite the old spectrum, and the
    half-written group then blocks the next append. *)
Definition demo_file : hfile := fst (fst (dump None (demo_stored None default_style) false false)).
Definition unnamed : stored := Stored (demo_spec "Te130" None) "config" None default_style.
Theorem C48_failing_refuted : forall pf e, is_ok (load pf e demo_file) = true /\
  snd (perform demo_file (Dump unnamed false false)) = Some EValueError /\
  load pf e (fst (perform demo_file (Dump unnamed false false))) = Err EKeyError /\
  snd (perform demo_file (Dump unnamed true true)) = Some EValueError /\
  load pf e (fst (perform demo_file (Dump unnamed true true))) = Err EKeyError /\
  snd (perform (fst (perform demo_file (Dump unnamed true true))) (Dump (demo_stored None default_style) true false)) = Some EValueError.
Proof. intros. repeat split; vm_compute; reflexivity. Qed.
(** In general: *)
Theorem C48_half_written_refuted : forall f s append overwrite e, snd (get_background_name (st_spec s)) = Err e ->
  (append = false \/ overwrite = true \/ ~ In "spectrum" (names f)) ->
  let f' := fst (fst (dump f s append overwrite)) in
  snd (dump f s append overwrite) = Some e /\
  forall pf np, load pf np f' = load_old pf (match f' with Some r => r | None => Root [] [] end).
Proof. exact dump_no_name_l. Qed.
Example C48_demo : In "spectrum" (names demo_file) /\
  Forall (fun c => appends c /\ (target c = "spectrum" -> ~ overwrites c))
    [Dump unnamed true false; DumpFit (FR (new_search [] [4%nat] (Some "fit") true true) (GC "g" []) demo_cfg "config") true].
Proof. split; [now left|]. repeat constructor; cbn; intros; try discriminate; auto. Qed.

(** * C61: fit results *)
Theorem C61_roundtrip_partial : forall e f fr append f', dump_fit_results f fr append = (f', None) ->
  consistent fr -> good_config (fr_fit fr) -> get_spectra_pars (fr_fit fr) <> [] -> sbuilt (fr_spec fr) -> fr_spec fr <> [] ->
  exists fr', load_fit_results e f' = Ok fr' /\
    gs_name (fr_search fr') = gs_name (fr_search fr) /\ gs_resets (fr_search fr') = gs_resets (fr_search fr) /\
    gs_per_bin (fr_search fr') = gs_per_bin (fr_search fr) /\ gs_stats (fr_search fr') = gs_stats (fr_search fr) /\
    gs_pen (fr_search fr') = gs_pen (fr_search fr) /\ fr_spec fr' = fr_spec fr /\ fr_spec_name fr' = fr_spec_name fr /\
    gc_pars (fr_fit fr') = map (again_entry false) (gc_pars (fr_fit fr)) /\ consistent fr'.
Proof. exact fit_results_l. Qed.
(** Results without a name (the default of GridSearch) cannot be stored; results of a fit
    without spectral parameters can be stored but not loaded. *)
Theorem C61_name_refuted : forall f fr append, gs_name (fr_search fr) = None -> exists x, snd (dump_fit_results f fr append) = Some x.
Proof. exact fit_no_name_l. Qed.
Theorem C61_globals_only_refuted : forall e f fr append f', dump_fit_results f fr append = (f', None) -> sbuilt (fr_spec fr) ->
  Forall well_named_entry (gc_pars (fr_fit fr)) -> NoDup (dkeys (gc_pars (fr_fit fr))) ->
  get_spectra_pars (fr_fit fr) = [] -> load_fit_results e f' = Err EKeyError.
Proof. exact fit_no_spectral_l. Qed.
Definition demo_gpar (n : string) (dim : option string) (bins : Z) : fpar :=
  FPar n 1 (Some (qq 1 10)) 0 (zq 2) bins dim None None None None None None None.
Definition demo_gc (l : list (string * gentry)) : gconfig := GC "my_config" l.
Definition gscale (d : string) (b : Z) : string * gentry := ((d ++ "_scale")%string, GE (CPar PScale (demo_gpar (d ++ "_scale") (Some d) b)) true).
Definition gshift (d : string) (b : Z) : string * gentry := ((d ++ "_shift")%string, GE (CPar PShift (demo_gpar (d ++ "_shift") (Some d) b)) true).
Definition grate (n : string) (b : Z) : string * gentry := (n, GE (CPar PRate (demo_gpar n None b)) false).
Definition demo_results (l : list (string * gentry)) (per_bin : bool) : fresults :=
  let gs := new_search (gc_fpars (demo_gc l)) (spec_shape demo_cfg) (Some "fit") per_bin true in
  FR (gs_with gs (ND (ashape (gs_stats gs)) (fun i => nq (length i))) (gs_pen gs)) (demo_gc l) demo_cfg "config".
Example C61_demo : let fr := demo_results [gscale "energy" 3; gshift "energy" 2; grate "Te130_rate" 5] true in
  consistent fr /\ good_config (fr_fit fr) /\ get_spectra_pars (fr_fit fr) <> [] /\ sbuilt (fr_spec fr) /\ fr_spec fr <> [] /\
  snd (dump_fit_results None fr false) = None.
Proof.
  assert (C : forall n d b, constructed (demo_gpar n d b)) by (intros; right; repeat split; now left).
  cbn zeta. split; [repeat split|]. split; [|split; [discriminate|split; [|split; [discriminate|reflexivity]]]].
  - split; [repeat constructor; cbn; intuition discriminate|]. split; [|reflexivity].
    constructor; [|constructor; [|constructor; [|constructor]]].
    + split; [reflexivity|]. exists "energy", "scale". refine (conj eq_refl (conj eq_refl (conj eq_refl (conj (C _ _ _) _)))). discriminate.
    + split; [reflexivity|]. exists "energy", "shift". refine (conj eq_refl (conj eq_refl (conj eq_refl (conj (C _ _ _) _)))). discriminate.
    + split; [reflexivity|]. repeat split. apply C.
  - apply (sbuilt_par [] "energy_mc" (SPar 0 (zq 10) 4)), sbuilt_new.
Qed.
(** Global parameters of two dimensions that alternate: the loaded results have the
    parameters in another order than the axes of the grid. *)
Theorem C61_order_refuted : let fr := demo_results [gscale "energy" 3; gscale "radial" 3; gshift "energy" 3; grate "Te130_rate" 3] false in
  forall e, exists f' fr', dump_fit_results None fr false = (f', None) /\ load_fit_results e f' = Ok fr' /\
    ashape (gs_stats (fr_search fr')) = ashape (gs_stats (fr_search fr)) /\
    map fp_name (gs_pars (fr_search fr)) = ["energy_scale"; "radial_scale"; "energy_shift"; "Te130_rate"] /\
    map fp_name (gs_pars (fr_search fr')) = ["energy_scale"; "energy_shift"; "radial_scale"; "Te130_rate"].
Proof. cbn zeta. intro e. do 2 eexists. split; [reflexivity|]. split; [vm_compute; reflexivity|]. repeat split. Qed.

(** * C62: limit results *)
Theorem C62_roundtrip_partial : forall dec e f lr append f', dump_limit_results dec f lr append = (f', None) ->
  limit_consistent lr -> good_config (lr_fit lr) -> good_dec dec -> sbuilt (lr_spec lr) -> lr_spec lr <> [] ->
  NoDup (dkeys (sf_pars (lr_limit lr))) -> Forall rate_entry (sf_pars (lr_limit lr)) ->
  exists lr', load_limit_results dec e f' = Ok lr' /\
    lr_name lr' = lr_name lr /\ lr_spec lr' = lr_spec lr /\ lr_spec_name lr' = lr_spec_name lr /\
    lr_limit lr' = SFC (sf_name (lr_limit lr)) (sf_spectra (lr_limit lr)) (map (fun kp => (fst kp, again false (fst kp) (snd kp))) (sf_pars (lr_limit lr))) /\
    map drop_best (gc_pars (lr_fit lr')) = map drop_best (map (again_entry false) (gc_pars (lr_fit lr))) /\
    lr_stats lr' = lr_stats lr /\ same_array (lr_pen lr) (lr_pen lr') /\ same_array (lr_best lr) (lr_best lr') /\
    length (lr_fits lr') = length (lr_fits lr) /\
    forall i o o', nth_error (lr_fits lr) i = Some o -> nth_error (lr_fits lr') i = Some o' -> fit_again_at (lr_best lr') i o o'.
Proof. exact limit_results_l. Qed.
(** [str] of an index, as in Python. *)
Definition dec_nat (n : nat) : string := str_int (Z.of_nat n).
Definition demo_lsearch (l : list (string * gentry)) (per_bin : bool) : gsearch := fr_search (demo_results l per_bin).
Definition demo_lr (per_bin : bool) : lresults :=
  let l := [gscale "energy" 3; grate "Te130_rate" 5] in
  LR "limit" (demo_gc l) demo_cfg "config" (SFC "lim" "Signal" [("rate", CPar PRate (demo_gpar "rate" None 2))])
     (ND [2%nat; 4%nat] (fun i => nq (length i))) (ND [2%nat; 2%nat] (fun i => nq (hd 0%nat i))) (ND [2%nat; 2%nat] (fun _ => 0%Qc))
     [None; Some (demo_lsearch l per_bin)].
Example C62_dec : good_dec dec_nat.
Proof.
  assert (P : forall i, parse_int (dec_nat i) = Ok (Z.of_nat i)) by (intro; apply parse_str_int). split.
  - intros i j E. assert (H := P i). rewrite E, P in H. injection H as H. now apply Nat2Z.inj in H.
  - intro i. repeat split; intro E; assert (H := P i); rewrite E in H; discriminate.
Qed.
Example C62_demo : limit_consistent (demo_lr true) /\ good_config (lr_fit (demo_lr true)) /\ sbuilt (lr_spec (demo_lr true)) /\
  NoDup (dkeys (sf_pars (lr_limit (demo_lr true)))) /\ Forall rate_entry (sf_pars (lr_limit (demo_lr true))) /\
  snd (dump_limit_results dec_nat None (demo_lr true) false) = None.
Proof.
  assert (C : forall n d b, constructed (demo_gpar n d b)) by (intros; right; repeat split; now left).
  split; [|split; [|split; [|split; [|split]]]].
  - split; [exists (CPar PRate (demo_gpar "rate" None 2)), 2%nat, [4%nat]; repeat split|]. repeat constructor; discriminate.
  - split; [repeat constructor; cbn; intuition discriminate|]. split; [|reflexivity].
    constructor; [|constructor; [|constructor]].
    + split; [reflexivity|]. exists "energy", "scale". refine (conj eq_refl (conj eq_refl (conj eq_refl (conj (C _ _ _) _)))). discriminate.
    + split; [reflexivity|]. repeat split. apply C.
  - apply (sbuilt_par [] "energy_mc" (SPar 0 (zq 10) 4)), sbuilt_new.
  - repeat constructor. cbn. tauto.
  - constructor; [|constructor]. repeat split. apply C.
  - vm_compute. reflexivity.
Qed.
(** Whether the fit results are per bin is lost (their statistics then have too many
    dimensions), and so is their name. *)
Theorem C62_per_bin_refuted : forall e, exists f' lr' gs gs', dump_limit_results dec_nat None (demo_lr true) false = (f', None) /\
  load_limit_results dec_nat e f' = Ok lr' /\ nth_error (lr_fits (demo_lr true)) 1 = Some (Some gs) /\ nth_error (lr_fits lr') 1 = Some (Some gs') /\
  gs_per_bin gs = true /\ gs_per_bin gs' = false /\ ashape (gs_stats gs') = fit_shape (gs_pars gs') ++ gs_spec gs' /\
  gs_name gs = Some "fit" /\ gs_name gs' = Some "my_config".
Proof. intro e. do 4 eexists. split; [vm_compute; reflexivity|]. split; [vm_compute; reflexivity|]. repeat split. Qed.

(** * C63: objects holding arrays *)
Theorem C63_roundtrip_partial : forall o f o', dump_ndarray o = (f, None) -> NoDup (dkeys o) ->
  Forall2 (fun kv kv' => fst kv' = fst kv /\ same_kind (snd kv) (snd kv')) o o' ->
  exists o2, load_ndarray f o' = Ok o2 /\ Forall2 (fun kv kv' => fst kv' = fst kv /\ same_value (snd kv) (snd kv')) o o2.
Proof. exact ndarray_l. Qed.
Example C63_demo : let a := ND [2%nat] (fun i => nq (hd 0%nat i)) in
  let o := [("_stats", OArray a); ("_name", OValue (AStr "x") 1); ("_min", ONone)] in
  snd (dump_ndarray o) = None /\ NoDup (dkeys o) /\
  Forall2 (fun kv kv' => fst kv' = fst kv /\ same_kind (snd kv) (snd kv')) o
    [("_stats", OArray (azeros [5%nat])); ("_name", ONone); ("_min", ONone)].
Proof.
  cbn zeta. split; [reflexivity|]. split; [repeat constructor; cbn; intuition discriminate|]. repeat constructor.
Qed.
(** An array is not read into an attribute that is None, nor a missing value (None)
    over one that is set. *)
Theorem C63_none_refuted : forall a, ashape a <> [] -> exists f, dump_ndarray [("_stats", OArray a)] = (f, None) /\
  load_ndarray f [("_stats", ONone)] = Ok [("_stats", ONone)].
Proof.
  intros a N. exists (Some (Root [] [("_stats", HData a)])). split; [|reflexivity]. unfold dump_ndarray, write_object, filterable, andim.
  destruct (ashape a) eqn:E; [congruence|]. reflexivity.
Qed.
Theorem C63_stale_refuted : forall v n, load_ndarray (fst (dump_ndarray [("_min", ONone)])) [("_min", OValue v n)] = Ok [("_min", OValue v n)].
Proof. reflexivity. Qed.
(** Large values are refused. *)
Theorem C63_size : forall k v n, (65536 <= n)%Z -> snd (dump_ndarray [(k, OValue v n)]) = Some EAttributeError.
Proof.
  intros k v n H. unfold dump_ndarray, write_object. apply Z.ltb_ge in H. now rewrite H.
Qed.

Print Assumptions C46_roundtrip_partial.
Print Assumptions C47_load_partial.
Print Assumptions C48_load.
Print Assumptions C61_roundtrip_partial.
Print Assumptions C62_roundtrip_partial.
Print Assumptions C63_roundtrip_partial.

(** echidna/output/store.py.  An HDF5 file is a tree of groups with attributes; h5py, the
    text of JSON and the size limit of 64k for an attribute are not modelled (an
    attribute written with json.dumps and read with json.loads holds the tree itself).
    Line 6 of the module imports echidna.limit.summary, which does not exist in the
    repository; what follows models the functions as written. *)
From Coq Require Import DecimalString.
From Verif Require Import Model.Base Model.PyStr Model.NDArray Model.Param Model.Config Model.Spectra.
From Verif Require Import Model.FitParam Model.FitConfig Model.Minimise.
Local Open Scope string_scope.
Local Open Scope list_scope.

(** ** dict_to_string and string_to_dict, 22-79 *)
(** The values dict_to_string can be given, store.py:37-47. *)
Inductive pyval := VStr (s : string) | VInt (z : Z) | VFloat (x : Qc) | VOther.
(** [str(n)] and [int(s)]; the blanks and the plus sign that int accepts are not modelled
    (ValueError). store.py:36-48, 74 *)
Definition str_int (z : Z) : string := NilZero.string_of_int (Z.to_int z).
(** int(value), store.py:74. *)
Definition parse_int (s : string) : res Z :=
  match NilZero.int_of_string s with Some i => Ok (Z.of_int i) | None => Err EValueError end.
Section Strings.
(** [str(x)] and [float(s)] of a float *)
Variable str_float : Qc -> string.
Variable parse_float : string -> res Qc.

(** store.py:37-47, one entry *)
Definition entry_string (kv : string * pyval) : res string :=
  match snd kv with
  | VStr s => Ok (fst kv ++ ":" ++ s ++ ";" ++ "str,")%string
  | VInt z => Ok (fst kv ++ ":" ++ str_int z ++ ";" ++ "int,")%string
  | VFloat x => Ok (fst kv ++ ":" ++ str_float x ++ ";" ++ "float,")%string
  | VOther => Err ETypeError
  end.
(** store.py:37-47, the loop *)
Fixpoint entries_string (d : dict pyval) : res string :=
  match d with
  | [] => Ok ""
  | kv :: d' => do e <- entry_string kv; do r <- entries_string d'; Ok (e ++ r)%string
  end.
(** store.py:22-48, dict_to_string *)
Definition dict_to_string (d : dict pyval) : res string := rmap (drop_last 1) (entries_string d).

(** [s.split(c)[i]], store.py:68-70. *)
Definition nth_part (i : nat) (c : ascii) (s : string) : res string :=
  match nth_error (split_char c s) i with Some x => Ok x | None => Err EIndexError end.
(** store.py:68-78, one entry *)
Definition read_entry (entry : string) : res (string * pyval) :=
  do key <- nth_part 0 ":" entry;
  do rest <- nth_part 1 ":" entry;
  do value <- nth_part 0 ";" rest;
  do typ <- nth_part 1 ";" entry;
  if String.eqb typ "str" then Ok (key, VStr value)
  else if String.eqb typ "int" then rmap (fun z => (key, VInt z)) (parse_int value)
  else if String.eqb typ "float" then rmap (fun x => (key, VFloat x)) (parse_float value)
  else Err ETypeError.
(** store.py:67-78, the loop *)
Fixpoint read_entries (acc : dict pyval) (l : list string) : res (dict pyval) :=
  match l with
  | [] => Ok acc
  | e :: l' => do kv <- read_entry e; read_entries (dset (fst kv) (snd kv) acc) l'
  end.
(** store.py:51-79, string_to_dict *)
Definition string_to_dict (s : string) : res (dict pyval) := read_entries [] (split_char "," s).

(** ** Files *)
(** A value of an HDF5 attribute as written by store.py: text, number, or json text of one dictionary or of a pair.
    store.py:99-118 *)
Inductive hattr := AStr (s : string) | AInt (z : Z) | ANum (x : Qc) | AJson (j : jval) | AJson2 (a b : jdict).
(** A member of an HDF5 group: dataset or group (h5py). store.py:98, 119 *)
Inductive hobj := HData (a : ndarray) | HGroup (attrs : list (string * hattr)) (members : list (string * hobj)).
(** The root group: attributes and members.  [None]: no such file. store.py:94, 257 *)
Record root := Root { r_attrs : dict hattr; r_members : dict hobj }.
(** A file that may not exist. store.py:94, 257 *)
Definition hfile := option root.

(** h5py.File(path, "a" or "w"): an existing file is opened or truncated; store.py:94, 165, 200 *)
Definition opened (append : bool) (f : hfile) : root :=
  match append, f with true, Some r => r | _, _ => Root [] [] end.
(** del file["spectrum"], store.py:97. *)
Definition remove {A} (k : string) (d : dict A) : dict A := filter (fun kv => negb (String.eqb (fst kv) k)) d.
(** create_group / create_dataset: a new member. store.py:98, 119 *)
Definition put (name : string) (o : hobj) (r : root) : root := Root (r_attrs r) (r_members r ++ [(name, o)]).
(** create_dataset(..., compression="gzip") refuses 0-d arrays; store.py:119, 176-179 *)
Definition filterable (a : ndarray) : bool := negb (andim a =? 0)%nat.

(** ** dump and load *)
(** A spectrum with the attributes that Model/Spectra.v leaves out: the name of its
    configuration, its fit configuration and its plotting style. store.py:99-119 *)
Record stored := Stored { st_spec : spectra; st_cfg_name : string; st_fit : option sfconfig; st_style : jval }.
(** spectra.py:58, the default style. *)
Definition default_style : jval := JObj [("color", JStr "blue")].
(** len(style) == 0, store.py:111. *)
Definition empty_style (j : jval) : bool :=
  match j with JStr "" | JObj [] => true | _ => false end.
(** spectra.py:561-563: the record of an ROI as it is stored by store.py:115-118. *)
Definition roi_json (r : roi) : jval :=
  JObj [("low", JNum (roi_low r)); ("high", JNum (roi_high r)); ("efficiency", JNum (roi_eff r))].
(** store.py:115-118 *)
Definition rois_json (d : dict roi) : jval := JObj (map (fun kr => (fst kr, roi_json (snd kr))) d).
(** ROI dictionaries of any other form are not modelled (TypeError); store.py:115-118 *)
Definition json_roi (j : jval) : res roi :=
  match j with
  | JObj [("low", JNum a); ("high", JNum b); ("efficiency", JNum c)] => Ok (ROI a b c)
  | _ => Err ETypeError
  end.
(** store.py:297-300 *)
Fixpoint json_rois (l : jdict) : res (dict roi) :=
  match l with
  | [] => Ok []
  | (k, j) :: l' => do r <- json_roi j; do rs <- json_rois l'; Ok ((k, r) :: rs)
  end.

(** store.py:95-118: the attributes in the order in which they are written; [bg] is the name that
    get_background_name returned *)
Definition spectrum_attrs (s : stored) (bg : string) : dict hattr :=
  let sp := st_spec s in
  [("name", AStr (s_name sp)); ("background_name", AStr bg); ("config_name", AStr (st_cfg_name s));
   ("config", AJson (JObj (sc_dump (s_cfg sp))))] ++
  match st_fit s with
  | Some f => [("fit_config_name", AStr (sf_name f)); ("fit_config", AJson (JObj (sf_dump false f)))]
  | None => []
  end ++
  [("num_decays", ANum (s_decays sp)); ("raw_events", AInt (s_raw sp)); ("bipo", AInt (s_bipo sp));
   ("style", if empty_style (st_style s) then AStr "" else AJson (st_style s));
   ("rois", match s_rois sp with [] => AStr "" | _ => AJson (rois_json (s_rois sp)) end)].
(** The stored object with a changed spectrum (get_background_name remembers the name, spectra.py:202-222). *)
Definition with_spec (s : stored) (sp : spectra) : stored := Stored sp (st_cfg_name s) (st_fit s) (st_style s).
(** store.py:82-120 *)
Definition dump (f : hfile) (s : stored) (append overwrite : bool) : hfile * stored * out :=
  let r := opened append f in
  let r := if overwrite && str_in "spectrum" (dkeys (r_members r))
           then Root (r_attrs r) (remove "spectrum" (r_members r)) else r in
  if str_in "spectrum" (dkeys (r_members r)) then (Some r, s, Some EValueError)   (* create_group *)
  else
    let '(sp, bg) := get_background_name (st_spec s) in
    let s' := with_spec s sp in
    match bg with
    | Err e => (Some (put "spectrum" (HGroup [("name", AStr (s_name sp))] []) r), s', Some e)
    | Ok bg =>
        if filterable (s_data sp)
        then (Some (put "spectrum" (HGroup (spectrum_attrs s' bg) [("data", HData (s_data sp))]) r), s', None)
        else (Some (put "spectrum" (HGroup (spectrum_attrs s' bg) []) r), s', Some ETypeError)
    end.

(** Reading attributes and members; a value of another type than the one that is expected
    is not modelled (TypeError). store.py:259-311 *)
Definition attr (k : string) (a : dict hattr) : res hattr := dlookup k a.
(** group.attrs[k], text. store.py:259-265 *)
Definition attr_str (k : string) (a : dict hattr) : res string :=
  do v <- attr k a; match v with AStr s => Ok s | _ => Err ETypeError end.
(** group.attrs[k], float. store.py:264 *)
Definition attr_num (k : string) (a : dict hattr) : res Qc :=
  do v <- attr k a; match v with ANum x => Ok x | AInt z => Ok (zq z) | _ => Err ETypeError end.
(** group.attrs[k], integer. store.py:286-290 *)
Definition attr_int (k : string) (a : dict hattr) : res Z :=
  do v <- attr k a; match v with AInt z => Ok z | _ => Err ETypeError end.
(** json.loads(group.attrs[k]), store.py:266-269. *)
Definition attr_json (k : string) (a : dict hattr) : res jdict :=
  do v <- attr k a; match v with AJson (JObj d) => Ok d | _ => Err ETypeError end.
(** json.loads(group.attrs[k]) of a pair, store.py:396-401, 442-445. *)
Definition attr_json2 (k : string) (a : dict hattr) : res (jdict * jdict) :=
  do v <- attr k a; match v with AJson2 x y => Ok (x, y) | _ => Err ETypeError end.
(** file[k] for a group. store.py:258 *)
Definition get_group (k : string) (m : dict hobj) : res (dict hattr * dict hobj) :=
  do o <- dlookup k m; match o with HGroup a m' => Ok (a, m') | HData _ => Ok ([], []) end.
(** file[k].value for a dataset. store.py:300-311 *)
Definition get_data (k : string) (m : dict hobj) : res ndarray :=
  do o <- dlookup k m; match o with HData a => Ok a | HGroup _ _ => Err EAttributeError end.
(** [except KeyError]; store.py:262, 277 *)
Definition on_key_error {A} (r : res A) (d : res A) : res A :=
  match r with Err EKeyError => d | _ => r end.

Variable np_e : Qc.
(** store.py:256-307 *)
Definition load_new (r : root) : res stored :=
  do g <- get_group "spectrum" (r_members r);
  let a := fst g in
  do name <- attr_str "name" a;
  let bg := match attr_str "background_name" a with Ok b => Some b | Err _ => None end in
  do decays <- attr_num "num_decays" a;
  do cfg_name <- attr_str "config_name" a;
  do cfg <- (do j <- attr_json "config" a; sc_load j);
  do fit <- on_key_error
              (do fn <- attr_str "fit_config_name" a;
               do j <- attr_json "fit_config" a;
               rmap Some (sf_load np_e j name fn))
              (Ok None);
  do sp <- new_spectra name decays cfg bg;
  do raw <- attr_int "raw_events" a;
  do bipo <- on_key_error (attr_int "bipo" a) (Ok 0%Z);
  do style <- attr "style" a;
  do style <- match style with
              | AStr "" => Ok default_style
              | AJson j => Ok j
              | _ => Err ETypeError
              end;
  do rois <- attr "rois" a;
  do rois <- match rois with
             | AStr "" => Ok []
             | AJson (JObj d) => json_rois d
             | _ => Err ETypeError
             end;
  do data <- get_data "data" (snd g);
  Ok (Stored (Spec (s_name sp) (s_bg sp) (s_cfg sp) data (s_decays sp) raw bipo rois) cfg_name fit style).

(** store.py:313-346, _load_old.  A non-empty "rois" string gives a dictionary of plain values,
    which is not modelled (Exception). *)
Definition spar_set (key : string) (x : Qc) (p : spar) : res spar :=     (* parameter.py 1142-1167 *)
  if String.eqb key "low" then Ok (SPar x (sp_high p) (sp_bins p))
  else if String.eqb key "high" then Ok (SPar (sp_low p) x (sp_bins p))
  else if String.eqb key "bins" then Ok (SPar (sp_low p) (sp_high p) (qtrunc x))
  else Err ETypeError.
(** store.py:323-329: the parameters of an old file. *)
Fixpoint old_pars (acc : sconfig) (l : dict hattr) : res sconfig :=
  match l with
  | [] => Ok acc
  | (v, x) :: l' =>
      if starts_with "pars:" v then
        match split_char ":" v with
        | [_; par; val] =>
            let p := match dget par acc with Some p => p | None => SPar 1 1 1 end in
            do x <- match x with ANum x => Ok x | AInt z => Ok (zq z) | _ => Err EValueError end;
            do p' <- spar_set val x p;
            old_pars (dset par p' acc) l'
        | _ => Err EValueError
        end
      else old_pars acc l'
  end.
(** A value of an old style dictionary. store.py:66-79 *)
Definition pyval_json (v : pyval) : jval :=
  match v with VStr s => JStr s | VInt z => JInt z | VFloat x => JNum x | VOther => JNull end.
(** store.py:313-346, _load_old *)
Definition load_old (r : root) : res stored :=
  let a := r_attrs r in
  do cfg <- old_pars [] a;
  do name <- attr_str "name" a;
  do decays <- attr_num "num_decays" a;
  do sp <- new_spectra name decays cfg None;
  do raw <- attr_int "raw_events" a;
  let bipo := match attr_int "bipo" a with Ok b => b | Err _ => 0%Z end in
  do style <- attr_str "style" a;
  do style <- (if String.eqb style "" then Ok default_style
               else rmap (fun d => JObj (map (fun kv => (fst kv, pyval_json (snd kv))) d)) (string_to_dict style));
  do rois <- attr_str "rois" a;
  do _ <- (if String.eqb rois "" then Ok tt else Err EException);
  do data <- get_data "data" (r_members r);
  Ok (Stored (Spec (s_name sp) (s_bg sp) (s_cfg sp) data (s_decays sp) raw bipo []) "spectral_config" None style).
(** store.py:246-310 *)
Definition load (f : hfile) : res stored :=
  match f with
  | None => Err EIOError
  | Some r => on_key_error (load_new r) (load_old r)
  end.
End Strings.

(** ** dump_ndarray and load_ndarray, 123-148 and 349-369.  An object is its __dict__; an
    attribute that is not an array carries its size. store.py:123-148, 349-369 *)
Inductive oattr := ONone | OArray (a : ndarray) | OValue (v : hattr) (size : Z).
(** store.py:136-147, the loop of dump_ndarray. *)
Fixpoint write_object (r : root) (o : dict oattr) : root * out :=
  match o with
  | [] => (r, None)
  | (k, v) :: o' =>
      match v with
      | ONone => write_object r o'
      | OArray a => if filterable a then write_object (put k (HData a) r) o' else (r, Some ETypeError)
      | OValue v size => if (size <? 65536)%Z then write_object (Root (dset k v (r_attrs r)) (r_members r)) o'
                         else (r, Some EAttributeError)
      end
  end.
(** store.py:123-148, dump_ndarray *)
Definition dump_ndarray (o : dict oattr) : hfile * out :=
  let '(r, e) := write_object (Root [] []) o in (Some r, e).
(** store.py:358-367, one attribute *)
Definition read_attr (r : root) (kv : string * oattr) : string * oattr :=
  (fst kv,
   match snd kv with
   | OArray a => match dget (fst kv) (r_members r) with Some (HData b) => OArray b | _ => OArray a end
   | ONone => match dget (fst kv) (r_attrs r) with Some w => OValue w 0 | None => ONone end
   | OValue v n => match dget (fst kv) (r_attrs r) with Some w => OValue w 0 | None => OValue v n end
   end).
(** store.py:349-369, load_ndarray *)
Definition load_ndarray (f : hfile) (o : dict oattr) : res (dict oattr) :=
  match f with None => Err EIOError | Some r => Ok (map (read_attr r) o) end.

(** ** Fit results *)
(** A grid search with its configurations; [fr_search] holds their parameters and shape. store.py:151-183 *)
Record fresults := FR { fr_search : gsearch; fr_fit : gconfig; fr_spec : sconfig; fr_spec_name : string }.
(** The parameters of the configuration as Model/Minimise.v takes them. minimise.py:90-101 *)
Definition gc_fpars (g : gconfig) : list fpar := map (fun ke => cp_par (ge_par (snd ke))) (gc_pars g).
(** spectra_config.get_shape(), minimise.py:96. *)
Definition spec_shape (c : sconfig) : list nat := map Z.to_nat (get_shape c).
(** minimise.py:90-101, GridSearch.__init__ as called in store.py:412-414. *)
Definition new_results (g : gconfig) (c : sconfig) (cname : string) (name : option string) (per_bin : bool) : fresults :=
  FR (new_search (gc_fpars g) (spec_shape c) name per_bin true) g c cname.
(** Datasets are created one after the other. store.py:176-179 *)
Fixpoint create_datasets (m : dict hobj) (l : list (string * ndarray)) : dict hobj * out :=
  match l with
  | [] => (m, None)
  | (k, a) :: l' => if filterable a then create_datasets (m ++ [(k, HData a)]) l' else (m, Some ETypeError)
  end.
(** store.py:151-183.  A name of None cannot be stored; [dump] of the configuration may raise. *)
Definition dump_fit_results (f : hfile) (fr : fresults) (append : bool) : hfile * out :=
  let r := opened append f in
  let gs := fr_search fr in
  if str_in "fit_results" (dkeys (r_members r)) then (Some r, Some EValueError)
  else match gs_name gs with
  | None => (Some (put "fit_results" (HGroup [] []) r), Some ETypeError)
  | Some name =>
      let a := [("name", AStr name); ("spectra_config", AJson (JObj (sc_dump (fr_spec fr))));
                ("spectra_config_name", AStr (fr_spec_name fr))] in
      match gc_dump false (fr_fit fr) with
      | Err e => (Some (put "fit_results" (HGroup a []) r), Some e)
      | Ok (dg, ds) =>
          let a := a ++ [("fit_config", AJson2 dg ds); ("fit_config_name", AStr (gc_name (fr_fit fr)))] in
          match create_datasets [] [("penalty_terms", gs_pen gs); ("stats", gs_stats gs)] with
          | (m, Some e) => (Some (put "fit_results" (HGroup a m) r), Some e)
          | (m, None) =>
              (Some (put "fit_results" (HGroup (a ++ [("resets", AInt (Z.of_nat (gs_resets gs)))]) m) r), None)
          end
      end
  end.
(** fit_results._resets = ..., store.py:417. *)
Definition gs_with_resets (g : gsearch) (n : nat) : gsearch :=
  GS (gs_name g) n (gs_per_bin g) (gs_use_numpy g) (gs_pars g) (gs_spec g) (gs_stats g) (gs_pen g).
(** store.py:372-420 *)
Definition load_fit_results (np_e : Qc) (f : hfile) : res fresults :=
  match f with
  | None => Err EIOError
  | Some r =>
      do gr <- get_group "fit_results" (r_members r);
      let a := fst gr in
      do name <- attr_str "name" a;
      do sname <- attr_str "spectra_config_name" a;
      do cfg <- (do j <- attr_json "spectra_config" a; sc_load j);
      do fname <- attr_str "fit_config_name" a;
      do jj <- attr_json2 "fit_config" a;
      do g <- gc_load np_e (fst jj) (Some (snd jj)) fname;
      do stats <- get_data "stats" (snd gr);
      do per_bin <-
        (if idx_eqb (ashape stats) (fit_shape (gc_fpars g)) then Ok false
         else if idx_eqb (ashape stats) (fit_shape (gc_fpars g) ++ spec_shape cfg) then Ok true
         else Err EValueError);
      let fr := new_results g cfg sname (Some name) per_bin in
      do gs <- set_stats (fr_search fr) stats;
      do pen <- get_data "penalty_terms" (snd gr);
      do gs <- set_penalty_terms gs pen;
      do n <- attr_int "resets" a;
      Ok (FR (gs_with_resets gs (Z.to_nat n)) g cfg sname)
  end.

(** ** Limit results: fit_results.py 108-146 *)
(** The attributes of LimitResults, fit_results.py:136-146. *)
Record lresults := LR {
  lr_name : string;
  lr_fit : gconfig;
  lr_spec : sconfig;
  lr_spec_name : string;
  lr_limit : sfconfig;
  lr_stats : ndarray;
  lr_pen : ndarray;
  lr_best : ndarray;
  lr_fits : list (option gsearch) }.
(** fit_results.py 136-146; numpy.zeros of a negative dimension is not modelled *)
Definition new_limit_results (g : gconfig) (c : sconfig) (cname : string) (lim : sfconfig) (name : string) : res lresults :=
  do rate <- dlookup "rate" (sf_pars lim);
  let n := Z.to_nat (fp_bins (cp_par rate)) in
  let sh := [n; length (gc_get_pars g)] in
  Ok (LR name g c cname lim (azeros [n]) (azeros sh) (azeros sh) (repeat None n)).
(** [a.any()]; store.py:216-226 *)
Definition aany (a : ndarray) : bool := existsb (fun i => negb (qeq (aget a i) 0)) (c_order (ashape a)).
(** store.py:223-236: [dec] is [str] of an index *)
Fixpoint fit_groups (dec : nat -> string) (i : nat) (l : list (option gsearch)) : res (dict hobj) :=
  match l with
  | [] => Ok []
  | o :: l' =>
      do h <- match o with
              | None => Ok (HGroup [("exists", ANum 0)] [])
              | Some gs =>
                  match create_datasets [] [("penalty_terms", gs_pen gs); ("stats", gs_stats gs)] with
                  | (_, Some e) => Err e
                  | (m, None) => Ok (HGroup [("exists", ANum 1); ("resets", AInt (Z.of_nat (gs_resets gs)))] m)
                  end
              end;
      do r <- fit_groups dec (S i) l';
      Ok ((dec i, h) :: r)
  end.
(** store.py:186-243.  What a failing call leaves in the group is not modelled (an empty group). *)
Definition limit_group (dec : nat -> string) (lr : lresults) : res hobj :=
  do dgs <- gc_dump false (lr_fit lr);
  let a := [("name", AStr (lr_name lr)); ("spectra_config", AJson (JObj (sc_dump (lr_spec lr))));
            ("spectra_config_name", AStr (lr_spec_name lr));
            ("fit_config", AJson2 (fst dgs) (snd dgs)); ("fit_config_name", AStr (gc_name (lr_fit lr)));
            ("limit_config", AJson (JObj (sf_dump false (lr_limit lr))));
            ("limit_config_name", AStr (sf_name (lr_limit lr)));
            ("limit_config_spectra_name", AStr (sf_spectra (lr_limit lr)))] in
  let l := (if aany (lr_pen lr) then [("penalty_terms", lr_pen lr)] else []) ++
           (if aany (lr_best lr) then [("best_fits", lr_best lr)] else []) ++ [("stats", lr_stats lr)] in
  match create_datasets [] l with
  | (_, Some e) => Err e
  | (m, None) =>
      if existsb (fun o => match o with Some _ => true | None => false end) (lr_fits lr)
      then do subs <- fit_groups dec 0 (lr_fits lr); Ok (HGroup (a ++ [("fits_exist", ANum 1)]) (m ++ subs))
      else Ok (HGroup (a ++ [("fits_exist", ANum 0)]) m)
  end.
(** store.py:186-243, dump_limit_results *)
Definition dump_limit_results (dec : nat -> string) (f : hfile) (lr : lresults) (append : bool) : hfile * out :=
  let r := opened append f in
  if str_in "limit_results" (dkeys (r_members r)) then (Some r, Some EValueError)
  else match limit_group dec lr with
       | Ok h => (Some (put "limit_results" h r), None)
       | Err e => (Some (put "limit_results" (HGroup [] []) r), Some e)
       end.

(** store.py:483-485: the best fits of row [i] are set in the configuration, which all the fit
    results share until they are copied (486) *)
Definition set_best (row : list Qc) (g : gconfig) : gconfig :=
  GC (gc_name g)
     (map (fun jke => let '(j, (k, e)) := jke in
                      (k, GE (CPar (cp_class (ge_par e)) (set_best_fit (nth j row 0%Qc) (cp_par (ge_par e)))) (ge_global e)))
          (combine (seq 0 (length (gc_pars g))) (gc_pars g))).
(** A row of the best fits, store.py:483-485. *)
Definition row (a : ndarray) (i : nat) : list Qc := map (fun j => aget a [i; j]) (seq 0 (nth 1 (ashape a) 0%nat)).
(** store.py:471-486 *)
Fixpoint load_fits (dec : nat -> string) (m : dict hobj) (best : ndarray) (c : sconfig) (n : nat) (fname : string)
  (is : list nat) (g : gconfig) : res (gconfig * list (nat * gsearch)) :=
  match is with
  | [] => Ok (g, [])
  | i :: is' =>
      do sub <- get_group (dec i) m;
      do ex <- attr_num "exists" (fst sub);
      if qeq ex 1 then
        do stats <- get_data "stats" (snd sub);
        do resets <- attr_int "resets" (fst sub);
        do pen <- get_data "penalty_terms" (snd sub);
        if (0 <? length (gc_pars g))%nat && ((hd 0%nat (ashape best) <=? i) || (nth 1 (ashape best) 0 <? length (gc_pars g)))%nat
        then Err EIndexError else                                 (* get_best_fit *)
        let g' := set_best (row best i) g in
        let gs := new_search (gc_fpars g') (spec_shape c) (Some fname) false true in
        let gs := gs_with_resets (gs_with gs stats pen) (Z.to_nat resets) in
        if (n <=? i)%nat then Err EIndexError else                (* _fit_results[i] *)
        do r <- load_fits dec m best c n fname is' g';
        Ok (fst r, (i, gs) :: snd r)
      else load_fits dec m best c n fname is' g
  end.
(** The list _fit_results after the assignments of store.py:486. *)
Definition place (n : nat) (l : list (nat * gsearch)) : list (option gsearch) :=
  map (fun i => match find (fun ig => Nat.eqb (fst ig) i) l with Some ig => Some (snd ig) | None => None end) (seq 0 n).
(** store.py:462-470: a dataset that need not exist. *)
Definition data_or (k : string) (m : dict hobj) (d : ndarray) : ndarray :=
  match get_data k m with Ok a => a | Err _ => d end.
(** store.py:423-488 *)
Definition load_limit_results (dec : nat -> string) (np_e : Qc) (f : hfile) : res lresults :=
  match f with
  | None => Err EIOError
  | Some r =>
      do gr <- get_group "limit_results" (r_members r);
      let a := fst gr in
      do name <- attr_str "name" a;
      do sname <- attr_str "spectra_config_name" a;
      do cfg <- (do j <- attr_json "spectra_config" a; sc_load j);
      do fname <- attr_str "fit_config_name" a;
      do jj <- attr_json2 "fit_config" a;
      do sp <- dlookup "spectral_fit_parameters" (snd jj);
      do g <- gc_load np_e (fst jj) (match sp with JObj [] => None | _ => Some (snd jj) end) fname;
      do jl <- attr_json "limit_config" a;
      do lname <- attr_str "limit_config_name" a;
      do lsname <- attr_str "limit_config_spectra_name" a;
      do lim <- sf_load np_e jl lsname lname;
      do lr <- new_limit_results g cfg sname lim name;
      let pen := data_or "penalty_terms" (snd gr) (lr_pen lr) in
      do stats <- get_data "stats" (snd gr);
      let best := data_or "best_fits" (snd gr) (lr_best lr) in
      do ex <- attr_num "fits_exist" a;
      let n := length (lr_fits lr) in
      do fits <- (if qeq ex 1
                  then match ashape stats with
                       | [] => Err ETypeError
                       | k :: _ => load_fits dec (snd gr) best cfg n fname (seq 0 k) g
                       end
                  else Ok (g, []));
      Ok (LR name (fst fits) cfg sname lim stats pen best (place n (snd fits)))
  end.

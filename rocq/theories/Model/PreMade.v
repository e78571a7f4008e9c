(** Fits that load convolved spectra from files (use_pre_made): echidna/fit/fit.py:503-504,
    538-540 and load_pre_made (582-628).  Files do not change while the fit runs. *)
From Verif Require Import Model.Base Model.PyStr Model.NDArray Model.Param Model.Config Model.Spectra
  Model.Smear Model.Shift Model.Heap Model.Minimise Model.Fit Model.FitConfig Model.Store Model.Combine Model.PreConv Model.Scripts.
Local Open Scope string_scope.

(** A global parameter as load_pre_made uses it: its class (none if the class has no method
    get_pre_convolved: RateParameter, parameter.py:637-684), _dimension and _current_value
    with its text. *)
Record gpar := GPar { gp_class : option syst; gp_dim : option string; gp_cur : option pvalue }.

(** fit.py:608-615, one turn of the loop.  [None in directory] raises TypeError. *)
Definition place_one (g : gpar) (at_ : string * string) : res (string * string) :=
  let (directory, filename) := at_ in
  match gp_dim g with
  | None => Err ETypeError
  | Some dim =>
      let added := negb (contains dim directory) in
      let directory := if added then directory ++ dim ++ "/" else directory in
      match gp_class g with
      | None => Err EAttributeError
      | Some k => get_pre_convolved k dim added (gp_cur g) directory filename
      end
  end.
(** fit.py:608-615 *)
Fixpoint place (pars : list gpar) (at_ : string * string) : res (string * string) :=
  match pars with
  | [] => Ok at_
  | g :: pars' => do at' <- place_one g at_; place pars' at'
  end.
(** fit.py:600-606; [base] is _pre_made_base_dir ("" also stands for None), [location] is
    _location of the spectrum; os.path.basename(None) raises AttributeError. *)
Definition start_place (base : string) (location : option string) : res (string * string) :=
  match location with
  | None => Err EAttributeError
  | Some l => Ok (if String.eqb base "" then dirname l ++ "/" else base, basename l)
  end.
(** fit.py:600-615, 622: the path that is loaded. *)
Definition pre_made_path (base : string) (location : option string) (pars : list gpar) : res string :=
  do at_ <- start_place base location;
  do at' <- place pars at_;
  Ok (fst at' ++ snd at').

Section Load.
Variable parse_float : string -> res Qc.
Variable np_e : Qc.
(** The files. *)
Variable fs : fsys.
(** fit.py:150 *)
Variable base : string.
(** _location and _orig_num_decays of a spectrum object.  The latter is not set anywhere in
    the package; a caller may set it. *)
Variable location : nat -> option string.
Variable orig_decays : nat -> option Qc.
(** Class and dimension of the parameter at a position. *)
Variable class : nat -> option syst.
Variable dimension : nat -> option string.

(** The global parameters with their current values. fit.py:582-628 *)
Definition gpar_at (ft : fit) (cur : list (option Qc)) (i : nat) : gpar :=
  GPar (class i) (dimension i)
       (match nth_error cur i with Some (Some v) => Some (PVal v (ft_str ft v)) | _ => None end).

(** A spectrum read from a file: a new object with its own configuration, array and ROI
    dictionary (store.py:266-304). *)
Definition h_loaded (s : spectra) (h : heap) : heap :=
  let (h1, c) := new_cfg h (s_cfg s) in
  let (h2, b) := new_buf h1 (s_data s) in
  let h3 := Heap (h_cfgs h2) (h_bufs h2) (h_roid h2 ++ [s_rois s]) (h_objs h2) in
  new_obj h3 (HSpec (s_name s) (s_bg s) c b (full_view (s_data s)) (s_decays s) (s_raw s) (s_bipo s) (length (h_roid h2))).
(** fit.py:624-625: [if orig_num_decays:] *)
Definition with_orig (o : option Qc) (s : spectra) : spectra :=
  match given o with Some n => with_decays s n | None => s end.

(** fit.py:582-628, load_pre_made of the spectrum object [r]: the new object. *)
Definition load_pre_made (ft : fit) (gs : list nat) (r : nat) : M nat := fun st =>
  (let! s := look r in
   let! p := mlift (pre_made_path base (location r) (map (gpar_at ft (fs_cur st)) gs)) in
   let! q := mlift (load parse_float np_e (fs p)) in
   let r' := length (h_objs (fs_heap st)) in
   let! _ := (fun st => (fs_with_heap st (h_loaded (with_orig (orig_decays r) (st_spec q)) (fs_heap st)), Ok tt)) in
   let! _ := on_heap (h_scale (s_decays s) r') in
   mret r') st.

(** fit.py:493-527 with _use_pre_made *)
Definition add_floating_pm (ft : fit) (p : part) (acc : option ndarray) : M ndarray :=
  let! x := (match global_pars ft with
             | [] => mret (pt_ref p, pt_own p)
             | gs => through_cache ft p (load_pre_made ft gs (pt_ref p))
             end) in
  let! r := apply_all ft (snd x) (fst x) in
  let! _ := match_data ft r in
  let! a := projection r (pt_pars p) in
  mlift (add_to acc a).
(** fit.py:493-527, the loop. *)
Fixpoint add_floatings_pm (ft : fit) (l : list part) (acc : option ndarray) : M (option ndarray) :=
  match l with
  | [] => mret acc
  | p :: l' => let! a := add_floating_pm ft p acc in add_floatings_pm ft l' (Some a)
  end.
(** fit.py:529-553 with _use_pre_made *)
Definition signal_ref_pm (ft : fit) (p : part) : M nat :=
  match global_pars ft with
  | [] => mret (pt_ref p)
  | gs =>
      let! s := look (pt_ref p) in
      let! x := through_cache ft p (load_pre_made ft gs (pt_ref p)) in
      let! _ := match_data ft (fst x) in
      let! _ := on_heap (h_scale (s_decays s) (fst x)) in
      mret (fst x)
  end.
(** fit.py:529-553, the signal. *)
Definition add_signal_pm (ft : fit) (acc : option ndarray) : M (option ndarray) :=
  match ft_signal ft with
  | None => mret acc
  | Some p =>
      let! r := signal_ref_pm ft p in
      let! a := projection r (pt_pars p) in
      match acc with
      | None => mlift (Err ETypeError)
      | Some _ => let! e := mlift (add_to acc a) in mret (Some e)
      end
  end.
(** fit.py:474-553 with _use_pre_made *)
Definition spectra_of_pm (ft : fit) (args : list Qc) : M (ndarray * ndarray) :=
  match ft_floating ft with
  | [] => mlift (Err EValueError)
  | l =>
      let! _ := (fun st => let (c, e) := set_currents args (fs_cur st) in
                           (fs_with_cur st c, match e with None => Ok tt | Some e => Err e end)) in
      let! obs := projection (ft_data ft) (ft_data_pars ft) in
      let! acc := (match ft_fixed ft with
                   | None => mret None
                   | Some (r, pars) => let! a := projection r pars in mret (Some a)
                   end) in
      let! acc := add_floatings_pm ft l acc in
      let! acc := add_signal_pm ft acc in
      match acc with
      | Some e => mret (obs, e)
      | None => mlift (Err ETypeError)
      end
  end.
(** A minimiser calls _funct again and again. minimise.py:303-367 *)
Fixpoint f_run_pm (ft : fit) (l : list (list Qc)) (st : fstate) : fstate :=
  match l with
  | [] => st
  | args :: l' => f_run_pm ft l' (fst (spectra_of_pm ft args st))
  end.
End Load.

(** The fit: echidna/fit/fit.py, class Fit, on the heap of Model/Heap.v, because Fit keeps,
    copies and changes the caller's spectrum objects.
    Not modelled: logging, the choice of the default minimiser (Model/Minimise.v has the
    grid search itself), per_bin flags of the collaborating classes. *)
From Verif Require Import Model.Base Model.PyStr Model.NDArray Model.Param Model.Config Model.Spectra
  Model.Smear Model.Shift Model.Heap Model.Minimise.

(** What apply_to of a fit parameter does (parameter.py): RateParameter (667-684) scales
    the spectrum it is given and returns it; ResolutionParameter (709-731), ScaleParameter
    (832-849) and ShiftParameter (946-963) make a new spectrum.  Which smearer with which
    settings is used for a value (parameter.py:719-731) is an argument; it may raise
    (set_resolution, set_scale_factor). *)
Inductive pkind :=
| KRate
| KDerive (f : Qc -> spectra -> res derivation).
(** spectra.py:288-300, interpolate1d: [spline] is scipy's InterpolatedUnivariateSpline. *)
Definition interpolate1d (spline : list Qc -> list Qc -> Qc -> Qc) (dim : string) (s : spectra) : res (Qc -> Qc) :=
  do p <- get_par (s_cfg s) dim;
  do x <- get_bin_centres p;
  do y <- project dim s;
  Ok (spline x (map (aget y) (c_order (ashape y)))).
(** parameter.py:946-963, ShiftParameter.apply_to: a shift by a multiple of the width needs
    no interpolation (shift.py:46-51). *)
Definition shift_kind (str : Qc -> string) (spline : list Qc -> list Qc -> Qc -> Qc) (dim : string) : pkind :=
  KDerive (fun v s =>
    do p <- get_par (s_cfg s) dim;
    do step <- get_width p;
    do m <- is_multiple v step;
    do f <- (if m then Ok (fun _ => 0%Qc) else interpolate1d spline dim s);
    Ok (DShift ("_shift" ++ str v) v f dim)).
(** parameter.py:832-849, ScaleParameter.apply_to *)
Definition scale_kind (str : Qc -> string) (spline : list Qc -> list Qc -> Qc -> Qc) (dim : string) : pkind :=
  KDerive (fun v s =>
    do sf <- set_scale_factor v;
    do f <- interpolate1d spline dim s;
    Ok (DScale ("_sf" ++ str v) sf f dim)).
(** parameter.py:709-731, ResolutionParameter.apply_to, with set_resolution (smear.py:194-207,
    440-455) and the default number of sigma (smear.py:35).  [sigma_ly v], [sigma_res v] and
    the weights are the floating point formulas of the smearers. *)
Definition resolution_kind (name_ly name_res : Qc -> string) (sigma_ly sigma_res : Qc -> Qc -> Qc) (weight : Qc -> Qc -> Qc -> Qc)
  (dim : string) : pkind :=
  KDerive (fun v _ =>
    if qlt (zq 10) v then Ok (DWeighted (name_ly v) (zq 5) (sigma_ly v) (weight v) dim)
    else if qlt 0 v && qlt v 1 then Ok (DWeighted (name_res v) (zq 5) (sigma_res v) (weight v) dim)
    else Err EValueError).
(** The parameters of the GlobalFitConfig in its order (config.py:364-387); [q_global]: type
    "global" rather than "spectra". *)
Record fitpar := FitPar {
  q_name : string;
  q_global : bool;
  q_kind : pkind;
  q_prior : Qc;
  q_sigma : option Qc }.
(** A floating background or the signal: the object, its own fit configuration (_fit_config,
    positions in the global list; none if it has no fit configuration) and its ROI
    parameters. fit.py:492-560 *)
Record part := Part { pt_ref : nat; pt_own : list nat; pt_pars : list string }.
(** fit.py:78-151: the attributes of Fit that _funct reads.  [ft_str] is Python's [str] of a
    float. *)
Record fit := Fit {
  ft_str : Qc -> string;
  ft_pars : list fitpar;
  ft_data : nat;
  ft_data_pars : list string;
  ft_fixed : option (nat * list string);
  ft_floating : list part;
  ft_signal : option part }.
(** What _funct changes: the objects, _global_dict, and the _current_value of the
    parameters. fit.py:447-580 *)
Record fstate := FState {
  fs_heap : heap;
  fs_cache : dict (dict (nat * list nat));
  fs_cur : list (option Qc) }.
(** Assignment to an attribute of a spectrum object (bookkeeping of the state of fit.py:447-580). *)
Definition fs_with_heap (st : fstate) (h : heap) : fstate := FState h (fs_cache st) (fs_cur st).
(** Assignment to self._global_dict, fit.py:497-510. *)
Definition fs_with_cache (st : fstate) c : fstate := FState (fs_heap st) c (fs_cur st).
(** Assignment of current values, fit.py:478-481. *)
Definition fs_with_cur (st : fstate) c : fstate := FState (fs_heap st) (fs_cache st) c.

(** Python statements: they change the state and return a value or raise. fit.py:447-580 *)
Definition M (A : Type) : Type := fstate -> fstate * res A.
(** [return] in the model of fit.py:447-580. *)
Definition mret {A} (x : A) : M A := fun st => (st, Ok x).
(** A call without effect that may raise. fit.py:447-580 *)
Definition mlift {A} (x : res A) : M A := fun st => (st, x).
(** Statements one after the other; an exception ends the method. fit.py:447-580 *)
Definition mbind {A B} (m : M A) (k : A -> M B) : M B :=
  fun st => match m st with
            | (st', Ok x) => k x st'
            | (st', Err e) => (st', Err e)
            end.
Notation "'let!' x ':=' m 'in' k" := (mbind m (fun x => k)) (at level 200, x name, m at level 100, k at level 200).
(** A method call on a spectrum. fit.py:500-560 *)
Definition on_heap (f : heap -> heap * out) : M unit :=
  fun st => let (h, e) := f (fs_heap st) in
            (fs_with_heap st h, match e with None => Ok tt | Some e => Err e end).
(** Look at a spectrum. fit.py:500-560 *)
Definition look (r : nat) : M spectra :=
  fun st => (st, match abs (fs_heap st) r with Some s => Ok s | None => Err EAttributeError end).

(** fit.py:478-481: [enumerate(args)], get_par_by_index (config.py:114-125). *)
Fixpoint set_currents (args : list Qc) (cur : list (option Qc)) : list (option Qc) * out :=
  match args, cur with
  | [], _ => (cur, None)
  | _ :: _, [] => ([], Some EIndexError)
  | v :: args', _ :: cur' => let (c, e) := set_currents args' cur' in (Some v :: c, e)
  end.

(** fit.py:489 and config.py:364-375: positions of the global parameters. *)
Fixpoint global_from (i : nat) (ps : list fitpar) : list nat :=
  match ps with
  | [] => []
  | p :: ps' => if q_global p then i :: global_from (S i) ps' else global_from (S i) ps'
  end.
(** fit.py:489, self._fit_config.get_global_pars() (config.py:364-375). *)
Definition global_pars (ft : fit) : list nat := global_from 0 (ft_pars ft).

(** fit.py:490-492 *)
Fixpoint cur_val (ft : fit) (cur : list (option Qc)) (l : list nat) : string :=
  match l with
  | [] => ""
  | i :: l' =>
      match nth_error (ft_pars ft) i, nth_error cur i with
      | Some p, Some v =>
          (q_name p ++ match v with Some x => ft_str ft x | None => "None"%string end ++ "_" ++ cur_val ft cur l')%string
      | _, _ => cur_val ft cur l'
      end
  end.

(** parameter.py: apply_to.  A parameter without current value raises ValueError
    (parameter.py:676-678 etc.); positions outside the list do not occur in Python. *)
Definition apply_to (ft : fit) (i r : nat) : M nat := fun st =>
  match nth_error (ft_pars ft) i, nth_error (fs_cur st) i with
  | Some p, Some (Some v) =>
      match q_kind p with
      | KRate => (let! _ := on_heap (h_scale v r) in mret r) st
      | KDerive f =>
          (let! s := look r in
           let! d := mlift (f v s) in
           let! _ := on_heap (h_derive d r) in
           mret (length (h_objs (fs_heap st)))) st
      end
  | _, _ => (st, Err EValueError)
  end.
(** fit.py:505-506, 513-516: one after the other, each on the result of the previous one. *)
Fixpoint apply_all (ft : fit) (l : list nat) (r : nat) : M nat :=
  match l with
  | [] => mret r
  | i :: l' => let! r' := apply_to ft i r in apply_all ft l' r'
  end.
(** fit.py:542-543: each on the original signal; the last result is kept. *)
Fixpoint apply_each (ft : fit) (l : list nat) (r : nat) (last : nat) : M nat :=
  match l with
  | [] => mret last
  | i :: l' => let! r' := apply_to ft i r in apply_each ft l' r r'
  end.

(** fit.py:497-510, 533-547: the dictionary _global_dict of convolved spectra.  The name
    that get_background_name remembers (spectra.py:202-222) is not written back: asking
    again gives the same name. *)
Definition through_cache (ft : fit) (p : part) (make : M nat) : M (nat * list nat) :=
  let! s := look (pt_ref p) in
  let! name := mlift (snd (get_background_name s)) in
  fun st =>
    let d := match dget name (fs_cache st) with Some d => d | None => [] end in
    let key := cur_val ft (fs_cur st) (global_pars ft) in
    let st1 := fs_with_cache st (dset name d (fs_cache st)) in
    match dget key d with
    | Some e => (st1, Ok e)
    | None =>
        match make st1 with
        | (st2, Ok r) => (fs_with_cache st2 (dset name (dset key (r, pt_own p) d) (fs_cache st2)), Ok (r, pt_own p))
        | (st2, Err e) => (st2, Err e)
        end
    end.

(** fit.py:866-884, shrink_to_data: the keywords.  A Python dict has no order; the order
    decides at most which of several errors is raised. *)
Fixpoint data_keywords (dc : list (string * spar)) (sc : sconfig) (kw : dict Qc) : res (dict Qc) :=
  match dc with
  | [] => Ok kw
  | (v, p) :: dc' =>
      let dim := get_dim v in
      do t <- get_dim_type sc dim;
      data_keywords dc' sc
        (dset (dim ++ "_" ++ t ++ "_high")%string (sp_high p) (dset (dim ++ "_" ++ t ++ "_low")%string (sp_low p) kw))
  end.
(** fit.py:866-884, shrink_to_data *)
Definition shrink_to_data (ft : fit) (r : nat) : M unit :=
  let! d := look (ft_data ft) in
  let! s := look r in
  let! kw := mlift (data_keywords (s_cfg d) (s_cfg s) []) in
  on_heap (h_shrink kw r).
(** fit.py:520-522, 548-549 *)
Definition match_data (ft : fit) (r : nat) : M unit :=
  let! _ := shrink_to_data ft r in
  let! d := look (ft_data ft) in
  on_heap (h_rebin (map Z.of_nat (ashape (s_data d))) r).
(** nd_project of a spectrum: fit.py:483, 487, 523, 551. *)
Definition projection (r : nat) (pars : list string) : M ndarray :=
  let! s := look r in mlift (nd_project pars s).

(** fit.py:524-527, 553: in-place addition of arrays; numpy raises if the shapes differ
    (broadcasting over axes of length one is not modelled). *)
Definition add_to (acc : option ndarray) (x : ndarray) : res ndarray :=
  match acc with
  | None => Ok x
  | Some a => if list_eq_dec Nat.eq_dec (ashape a) (ashape x) then Ok (aplus a x) else Err EValueError
  end.

(** fit.py:493-527, one turn of the loop over floating backgrounds *)
Definition add_floating (ft : fit) (p : part) (acc : option ndarray) : M ndarray :=
  let! x := (match global_pars ft with
             | [] => mret (pt_ref p, pt_own p)
             | gs => through_cache ft p (apply_all ft gs (pt_ref p))
             end) in
  let! r := apply_all ft (snd x) (fst x) in
  let! _ := match_data ft r in
  let! a := projection r (pt_pars p) in
  mlift (add_to acc a).
(** fit.py:493-527, the loop over the floating backgrounds. *)
Fixpoint add_floatings (ft : fit) (l : list part) (acc : option ndarray) : M (option ndarray) :=
  match l with
  | [] => mret acc
  | p :: l' => let! a := add_floating ft p acc in add_floatings ft l' (Some a)
  end.

(** fit.py:529-553 *)
Definition signal_ref (ft : fit) (p : part) : M nat :=
  match global_pars ft with
  | [] => mret (pt_ref p)
  | gs =>
      let! s := look (pt_ref p) in
      let! x := through_cache ft p (apply_each ft gs (pt_ref p) (pt_ref p)) in
      let! _ := match_data ft (fst x) in
      let! _ := on_heap (h_scale (s_decays s) (fst x)) in
      mret (fst x)
  end.
(** fit.py:529-553, the signal. *)
Definition add_signal (ft : fit) (acc : option ndarray) : M (option ndarray) :=
  match ft_signal ft with
  | None => mret acc
  | Some p =>
      let! r := signal_ref ft p in
      let! a := projection r (pt_pars p) in
      match acc with
      | None => mlift (Err ETypeError)
      | Some _ => let! e := mlift (add_to acc a) in mret (Some e)
      end
  end.

(** fit.py:474-553: observed and expected for the given parameter values. *)
Definition spectra_of (ft : fit) (args : list Qc) : M (ndarray * ndarray) :=
  match ft_floating ft with
  | [] => mlift (Err EValueError)
  | l =>
      let! _ := (fun st => let (c, e) := set_currents args (fs_cur st) in
                           (fs_with_cur st c, match e with None => Ok tt | Some e => Err e end)) in
      let! obs := projection (ft_data ft) (ft_data_pars ft) in
      let! acc := (match ft_fixed ft with
                   | None => mret None
                   | Some (r, pars) => let! a := projection r pars in mret (Some a)
                   end) in
      let! acc := add_floatings ft l acc in
      let! acc := add_signal ft acc in
      match acc with
      | Some e => mret (obs, e)
      | None => mlift (Err ETypeError)
      end
  end.

(** fit.py:555-558, 562: what compute_statistic is given. *)
Definition flat (single_bin : bool) (a : ndarray) : list Qc :=
  if single_bin then [sum_over (ashape a) (aget a)] else map (aget a) (c_order (ashape a)).
(** fit.py:565-574: the penalty of every parameter with a sigma; the penalty of one
    parameter (test_statistic.py:88-105, Model/TestStat.v) is an argument. *)
Fixpoint total_penalty (pen : Qc -> Qc -> Qc -> Qc) (ps : list fitpar) (cur : list (option Qc)) : res Qc :=
  match ps, cur with
  | p :: ps', c :: cur' =>
      match c with
      | None => Err EValueError
      | Some v =>
          do t <- total_penalty pen ps' cur';
          Ok (match q_sigma p with Some s => pen v (q_prior p) s + t | None => t end)%Qc
      end
  | _, _ => Ok 0%Qc
  end.
(** fit.py:576-578: with per_bin the statistics get the shape of the last floating
    spectrum, which has just been rebinned to the shape of the data (522). *)
Definition per_bin_shape (per_bin : bool) (sh : list nat) (r : sres) : res sres :=
  if per_bin
  then rmap RArr (areshape sh (match r with RArr a => a | RNum x => ND [] (fun _ => x) end))
  else Ok r.
(** fit.py:447-580, _funct; [stat] is compute_statistic. *)
Definition funct (ft : fit) (stat : list Qc -> list Qc -> res sres) (pen : Qc -> Qc -> Qc -> Qc) (per_bin single_bin : bool)
  (args : list Qc) : M (sres * Qc) :=
  let! x := spectra_of ft args in
  let! t := mlift (stat (flat single_bin (fst x)) (flat single_bin (snd x))) in
  let! p := (fun st => (st, total_penalty pen (ft_pars ft) (fs_cur st))) in
  let! d := look (ft_data ft) in
  let! t := mlift (per_bin_shape per_bin (ashape (s_data d)) t) in
  mret (t, p).
(** What the minimiser is given (fit.py:445). *)
Definition objective (ft : fit) stat pen (per_bin single_bin : bool) (st : fstate) (args : list Qc) : fstate * res (sres * Qc) :=
  funct ft stat pen per_bin single_bin args st.

(** A minimiser calls _funct again and again with different values. minimise.py:303-367 *)
Fixpoint f_run (ft : fit) (l : list (list Qc)) (st : fstate) : fstate :=
  match l with
  | [] => st
  | args :: l' => f_run ft l' (fst (spectra_of ft args st))
  end.
(** The state before the first call: empty _global_dict (fit.py:119), no current values. *)
Definition f_start (ft : fit) (h : heap) : fstate := FState h [] (map (fun _ => None) (ft_pars ft)).

(** Preparation of a fit: echidna/fit/fit.py, the methods of class Fit that set, shrink and
    check the spectra, on the heap of Model/Heap.v.
    Not modelled here: the fit configuration (Model/FitConfig.v; its checks are an argument),
    minimiser and test statistic, logging. *)
From Verif Require Import Model.Base Model.PyStr Model.NDArray Model.Param Model.Config Model.Spectra
  Model.Smear Model.Shift Model.Heap Model.Minimise Model.Fit.

(** The region of interest: dimension -> (low, high).  A Python dict has no order; the list
    is the order of iteration, which is the same as long as the dict is not changed. fit.py:290-312, 794-805 *)
Definition rdict := dict (Qc * Qc).
(** What set_roi is given: sequences of any length.  That roi is a dict of tuples or lists
    (304-307) is given by the type. fit.py:290-312 *)
Definition rgiven := dict (list Qc).

(** fit.py:290-312, check_roi.  The message of the error on line 311 reads self._roi[dim]:
    AttributeError before the first ROI is set, KeyError if the old ROI has no such
    dimension.  Result: the caller's dict, which is changed, and the outcome. *)
Fixpoint check_roi (old : option rdict) (r : rgiven) : rgiven * res rdict :=
  match r with
  | [] => ([], Ok [])
  | (d, [a; b]) :: r' =>
      let lh := if qlt b a then (b, a) else (a, b) in
      let (g, x) := check_roi old r' in
      ((d, [fst lh; snd lh]) :: g, rmap (cons (d, lh)) x)
  | (d, l) :: r' =>
      (r, Err match old with
              | None => EAttributeError
              | Some o => match dget d o with Some _ => ECompatibilityError | None => EKeyError end
              end)
  end.

(** The attributes of Fit: fit.py:78-151.  [z_floating]: _floating_backgrounds and
    _floating_pars. *)
Record fitset := FitSet {
  z_heap : heap;
  z_roi : option rdict;
  z_data : option (nat * list string);
  z_fixed : option (nat * list string);
  z_floating : option (list nat * list (list string));
  z_signal : option (nat * list string) }.
(** State after a call that changes spectrum objects (bookkeeping). fit.py:668-740 *)
Definition z_with_heap (z : fitset) (h : heap) : fitset :=
  FitSet h (z_roi z) (z_data z) (z_fixed z) (z_floating z) (z_signal z).
(** Assignment to self._roi, fit.py:803. *)
Definition z_with_roi (z : fitset) r : fitset := FitSet (z_heap z) r (z_data z) (z_fixed z) (z_floating z) (z_signal z).
(** Assignment to self._data and self._data_pars, fit.py:681, 684. *)
Definition z_with_data (z : fitset) d : fitset := FitSet (z_heap z) (z_roi z) d (z_fixed z) (z_floating z) (z_signal z).
(** Assignment to self._fixed_background and self._fixed_pars, fit.py:714-715. *)
Definition z_with_fixed (z : fitset) f : fitset := FitSet (z_heap z) (z_roi z) (z_data z) f (z_floating z) (z_signal z).
(** Assignment to self._floating_backgrounds and self._floating_pars, fit.py:739-740. *)
Definition z_with_floating (z : fitset) f : fitset := FitSet (z_heap z) (z_roi z) (z_data z) (z_fixed z) f (z_signal z).
(** Assignment to self._signal and self._signal_pars, fit.py:819, 822. *)
Definition z_with_signal (z : fitset) s : fitset := FitSet (z_heap z) (z_roi z) (z_data z) (z_fixed z) (z_floating z) s.
(** self._roi; fit.py:389-395 *)
Definition the_roi (z : fitset) : rdict := match z_roi z with Some r => r | None => [] end.

(** fit.py:794-805, set_roi *)
Definition set_roi (r : rgiven) (z : fitset) : fitset * out :=
  match snd (check_roi (z_roi z) r) with
  | Ok r' => (z_with_roi z (Some r'), None)
  | Err e => (z, Some e)
  end.

(** fit.py:397-412, get_roi_pars *)
Fixpoint roi_pars (roi : rdict) (c : sconfig) : res (list string) :=
  match roi with
  | [] => Ok []
  | (d, _) :: roi' => do t <- get_dim_type c d; do l <- roi_pars roi' c; Ok ((d ++ "_" ++ t)%string :: l)
  end.
(** fit.py:851-864, shrink_spectra *)
Fixpoint roi_keywords (roi : rdict) (c : sconfig) (kw : dict Qc) : res (dict Qc) :=
  match roi with
  | [] => Ok kw
  | (d, (lo, hi)) :: roi' =>
      do t <- get_dim_type c d;
      roi_keywords roi' c (dset (d ++ "_" ++ t ++ "_high")%string hi (dset (d ++ "_" ++ t ++ "_low")%string lo kw))
  end.
(** fit.py:851-864, shrink_spectra *)
Definition shrink_spectra (roi : rdict) (r : nat) (h : heap) : heap * out :=
  match abs h r with
  | None => (h, Some EAttributeError)
  | Some s => match roi_keywords roi (s_cfg s) [] with
              | Err e => (h, Some e)
              | Ok kw => h_shrink kw r h
              end
  end.
(** fit.py:314-339, check_spectra *)
Fixpoint check_spectra (roi : rdict) (c : sconfig) : out :=
  match roi with
  | [] => None
  | (d, (lo, hi)) :: roi' =>
      match (do t <- get_dim_type c d; get_par c (d ++ "_" ++ t)%string) with
      | Err e => Some e
      | Ok p =>
          if negb (isclose lo (sp_low p)) then Some EValueError
          else if negb (isclose hi (sp_high p)) then Some EValueError
          else check_spectra roi' c
      end
  end.
(** fit.py:314-339 on an object. *)
Definition check_obj (roi : rdict) (r : nat) (h : heap) : out :=
  match abs h r with Some s => check_spectra roi (s_cfg s) | None => Some EAttributeError end.
(** fit.py:397-412 on an object. *)
Definition pars_of (roi : rdict) (r : nat) (h : heap) : res (list string) :=
  match abs h r with Some s => roi_pars roi (s_cfg s) | None => Err EAttributeError end.

(** fit.py:668-684, 701-715, 807-822: set_data, set_fixed_background and set_signal; the
    last makes no check.  The attribute is set before the ROI parameters are looked up. *)
Definition set_one (checks shrink : bool) (put : fitset -> option (nat * list string) -> fitset) (old : fitset -> list string)
  (r : nat) (z : fitset) : fitset * out :=
  let (h, e) := if shrink then shrink_spectra (the_roi z) r (z_heap z)
                else (z_heap z, if checks then check_obj (the_roi z) r (z_heap z) else None) in
  let z1 := z_with_heap z h in
  match e with
  | Some e => (z1, Some e)
  | None =>
      match pars_of (the_roi z) r h with
      | Err e => (put z1 (Some (r, old z)), Some e)
      | Ok l => (put z1 (Some (r, l)), None)
      end
  end.
(** The value an attribute has before it is assigned. fit.py:668-740 *)
Definition old_pars (x : option (nat * list string)) : list string := match x with Some (_, l) => l | None => [] end.
(** fit.py:668-685, set_data *)
Definition set_data (r : nat) (shrink : bool) := set_one true shrink z_with_data (fun z => old_pars (z_data z)) r.
(** fit.py:701-715, set_fixed_background *)
Definition set_fixed_background (r : nat) (shrink : bool) := set_one true shrink z_with_fixed (fun z => old_pars (z_fixed z)) r.
(** fit.py:807-822, set_signal *)
Definition set_signal (r : nat) (shrink : bool) := set_one false shrink z_with_signal (fun z => old_pars (z_signal z)) r.

(** fit.py:717-740, set_floating_backgrounds: the attributes are set at the end.  [config r]
    is the outcome of check_fit_config and add_config for a background (733-736). *)
Fixpoint float_each (config : nat -> out) (shrink : bool) (roi : rdict) (l : list nat) (h : heap) : heap * res (list (list string)) :=
  match l with
  | [] => (h, Ok [])
  | r :: l' =>
      match config r with
      | Some e => (h, Err e)
      | None =>
          let (h1, e) := if shrink then shrink_spectra roi r h else (h, check_obj roi r h) in
          match e with
          | Some e => (h1, Err e)
          | None =>
              match pars_of roi r h1 with
              | Err e => (h1, Err e)
              | Ok ps => let (h2, x) := float_each config shrink roi l' h1 in (h2, rmap (cons ps) x)
              end
          end
      end
  end.
(** fit.py:717-740, set_floating_backgrounds *)
Definition set_floating_backgrounds (config : nat -> out) (l : list nat) (shrink : bool) (z : fitset) : fitset * out :=
  let (h, x) := float_each config shrink (the_roi z) l (z_heap z) in
  match x with
  | Ok ps => (z_with_floating (z_with_heap z h) (Some (l, ps)), None)
  | Err e => (z_with_heap z h, Some e)
  end.

(** Methods one after the other until one raises. fit.py:630-661, 838-864 *)
Definition then_ (x : heap * out) (f : heap -> heap * out) : heap * out :=
  match snd x with None => f (fst x) | Some _ => x end.
(** spectrum._name = ...: fit.py:651. *)
Definition o_with_name (o : hspec) (n : string) : hspec :=
  HSpec n (o_bg o) (o_cfg o) (o_buf o) (o_view o) (o_decays o) (o_raw o) (o_bipo o) (o_rois o).
(** fit.py:651 on an object. *)
Definition h_rename (n : string) (r : nat) (h : heap) : heap * out := on_obj h r (fun o _ => (set_obj h r (o_with_name o n), None)).
(** fit.py:164-167, 644-649, 653-655: copy.copy, shrink, scale.  The copy is the newest object. *)
Definition copy_scaled (shrink : bool) (roi : rdict) (r : nat) (n : Qc) (h : heap) : heap * out :=
  let c := length (h_objs h) in
  then_ (then_ (h_copy r h) (fun h => if shrink then shrink_spectra roi c h else (h, None))) (h_scale n c).
(** fit.py:162-168, append_fixed_background; 640-656 after the first spectrum.  The dict is
    given as the list of its items in the order of iteration. *)
Fixpoint add_each (shrink : bool) (roi : rdict) (total : nat) (l : list (nat * Qc)) (h : heap) : heap * out :=
  match l with
  | [] => (h, None)
  | (r, n) :: l' =>
      then_ (then_ (copy_scaled shrink roi r n h) (h_add (length (h_objs h)) total)) (add_each shrink roi total l')
  end.
(** fit.py:630-661, make_fixed_background.  With an empty dict total_spectrum is not
    defined. *)
Definition make_fixed_background (l : list (nat * Qc)) (shrink : bool) (z : fitset) : fitset * out :=
  match l with
  | [] => (z, Some EException)
  | (r, n) :: l' =>
      let roi := the_roi z in
      let h := z_heap z in
      let t := length (h_objs h) in
      let (h1, e) := then_ (then_ (copy_scaled shrink roi r n h) (h_rename "Fixed Background" t)) (add_each shrink roi t l') in
      let z1 := z_with_heap z h1 in
      match e with
      | Some e => (z1, Some e)
      | None =>
          if shrink
          then match pars_of roi t h1 with
               | Ok ps => (z_with_fixed z1 (Some (t, ps)), None)
               | Err e => (z_with_fixed z1 (Some (t, old_pars (z_fixed z))), Some e)
               end
          else set_fixed_background t false z1
      end
  end.
(** fit.py:153-168, append_fixed_background *)
Definition append_fixed_background (l : list (nat * Qc)) (shrink : bool) (z : fitset) : fitset * out :=
  match z_fixed z with
  | Some (t, _) => let (h, e) := add_each shrink (the_roi z) t l (z_heap z) in (z_with_heap z h, e)
  | None =>
      (* the first copy is made before self._fixed_background.add fails *)
      match l with
      | [] => (z, None)
      | (r, n) :: _ =>
          let (h, e) := copy_scaled shrink (the_roi z) r n (z_heap z) in
          (z_with_heap z h, match e with Some e => Some e | None => Some EAttributeError end)
      end
  end.

(** fit.py:838-849, shrink_all *)
Fixpoint shrink_each (roi : rdict) (l : list nat) (h : heap) : heap * out :=
  match l with
  | [] => (h, None)
  | r :: l' => then_ (shrink_spectra roi r h) (shrink_each roi l')
  end.
(** [if self._data:] etc. in fit.py:841-849. *)
Definition opt_ref (x : option (nat * list string)) : list nat := match x with Some (r, _) => [r] | None => [] end.
(** The floating backgrounds in fit.py:841-849. *)
Definition float_refs (z : fitset) : list nat := match z_floating z with Some (l, _) => l | None => [] end.
(** fit.py:838-849, shrink_all *)
Definition shrink_all (z : fitset) : fitset * out :=
  let (h, e) := shrink_each (the_roi z) (opt_ref (z_data z) ++ opt_ref (z_fixed z) ++ opt_ref (z_signal z) ++ float_refs z) (z_heap z) in
  (z_with_heap z h, e).

(** fit.py:170-224, check_all_spectra; [config r]: check_fit_config of a floating
    background. *)
Definition check_part (roi : rdict) (h : heap) (x : option (nat * list string)) : out :=
  match x with
  | None => None
  | Some (_, []) => Some ECompatibilityError
  | Some (r, _) => check_obj roi r h
  end.
(** Checks one after the other: the first exception is the one raised. fit.py:186-224 *)
Fixpoint first_error (l : list out) : out :=
  match l with [] => None | Some e :: _ => Some e | None :: l' => first_error l' end.
(** fit.py:214-224, the floating backgrounds in check_all_spectra. *)
Definition check_floating (config : nat -> out) (x : option (list nat * list (list string))) : out :=
  match x with
  | None | Some ([], _) => None
  | Some (_, []) => Some ECompatibilityError
  | Some (l, ps) => if (length ps =? length l)%nat then first_error (map config l) else Some ECompatibilityError
  end.
(** fit.py:170-224, check_all_spectra *)
Definition check_all_spectra (config : nat -> out) (z : fitset) : out :=
  match z_data z with
  | None => Some ECompatibilityError
  | Some _ =>
      first_error
        [check_part (the_roi z) (z_heap z) (z_data z);
         match z_fixed z, z_floating z with None, None => Some ECompatibilityError | _, _ => None end;
         check_part (the_roi z) (z_heap z) (z_fixed z);
         check_part (the_roi z) (z_heap z) (z_signal z);
         check_floating config (z_floating z)]
  end.

(** fit.py:78-151, __init__, up to set_minimiser: the arguments data, signal, fixed and
    floating backgrounds (empty collections count as not given, 109-117).  [config]:
    check_fit_config and add_config; [values]: check_values of the parameters (122-123).  Of
    the errors of check_all_spectra only CompatibilityError and IndexError are caught
    (137-148). *)
Definition chain (x : fitset * out) (f : fitset -> fitset * out) : fitset * out :=
  match snd x with None => f (fst x) | Some _ => x end.
(** [if data:] etc. in __init__, fit.py:93-130. *)
Definition if_given {A} (x : option A) (f : A -> fitset -> fitset * out) (z : fitset) : fitset * out :=
  match x with Some a => f a z | None => (z, None) end.
(** fit.py:78-151, Fit.__init__ *)
Definition new_fit (config : nat -> out) (values : out) (roi : rgiven) (data : option nat) (fixed : list (nat * Qc)) (floating : list nat)
  (signal : option nat) (shrink : bool) (h : heap) : fitset * out :=
  chain (chain (chain (chain (chain (chain (chain
    (set_roi roi (FitSet h None None None None None))
    (if_given data (fun r => set_data r true)))
    (match fixed with [] => fun z => (z, None) | l => make_fixed_background l true end))
    (match floating with [] => fun z => (z, None) | l => set_floating_backgrounds config l true end))
    (fun z => (z, values)))
    (if_given signal (fun r => set_signal r true)))
    (if shrink then shrink_all else fun z => (z, None)))
    (fun z => (z, match check_all_spectra config z with
                  | Some ECompatibilityError | Some EIndexError => None
                  | e => e
                  end)).

(** fit.py:423-441, fit without floating backgrounds. *)
Definition fit_fixed (stat : list Qc -> list Qc -> res sres) (single_bin : bool) (z : fitset) : res sres :=
  match z_data z, z_fixed z with
  | Some (d, dp), Some (f, fp) =>
      match abs (z_heap z) d, abs (z_heap z) f with
      | Some sd, Some sf =>
          do o <- nd_project dp sd;
          do e <- nd_project fp sf;
          do e <- (match z_signal z with
                   | None => Ok e
                   | Some (s, sp) => match abs (z_heap z) s with
                                     | Some ss => do a <- nd_project sp ss; add_to (Some e) a
                                     | None => Err EAttributeError
                                     end
                   end);
          stat (flat single_bin o) (flat single_bin e)
      | _, _ => Err EAttributeError
      end
  | _, _ => Err EAttributeError
  end.

(** fit.py:423-445 and 474-553: the attributes that the fit function reads.  [pars] are the
    fit parameters of self._fit_config, [owns] the positions of the parameters of each
    floating background. *)
Definition fit_of (str : Qc -> string) (pars : list fitpar) (owns : list (list nat)) (z : fitset) (d : nat) (dp : list string) : fit :=
  Fit str pars d dp (z_fixed z)
    (match z_floating z with
     | Some (l, pss) => map (fun x => Part (fst (fst x)) (snd (fst x)) (snd x)) (combine (combine l owns) pss)
     | None => []
     end)
    (match z_signal z with Some (r, ps) => Some (Part r [] ps) | None => None end).

(** References: which spectra share a configuration object, a numpy buffer or a dictionary
    of ROIs.  Python passes all three by reference, and echidna copies spectra with
    copy.copy, which copies the references only.
    A heap holds the configuration objects, the numpy buffers, the ROI dictionaries and
    the spectrum objects; a reference is a position.  A method reads its spectrum through
    [abs], computes what Model/Spectra.v says, and writes the result back to the place the
    Python statement writes to.
    Simplification: each spectrum configuration is one cell, although in Python the
    configuration and each of its parameter objects are separate objects; echidna never
    shares parameter objects between configurations. *)
From Verif Require Import Model.Base Model.PyStr Model.NDArray Model.Param Model.Config Model.Spectra
  Model.Smear Model.Shift.

(** A numpy array object: a buffer and, for each axis, the offset and length of the window
    it shows (the basic slices made by shrink, spectra.py:530-536, are such views). *)
Definition view := list (nat * nat).
(** Shape of the array object (numpy). spectra.py:52 *)
Definition vshape (v : view) : list nat := map snd v.
(** The array that the object shows (numpy). spectra.py:242-247 *)
Definition vread (v : view) (b : ndarray) : ndarray :=
  ND (vshape v) (fun i => aget b (zip_with Nat.add (map fst v) i)).
(** The window of a newly made array: all of it (spectra.py:52). *)
Definition full_view (b : ndarray) : view := map (fun n => (0, n)) (ashape b).
(** The place of buffer entry [j] in the window, if it is inside. spectra.py:530-536 *)
Fixpoint vinside (v : view) (j : list nat) : option (list nat) :=
  match v, j with
  | [], [] => Some []
  | (o, n) :: v', k :: j' =>
      if (o <=? k)%nat && (k <? o + n)%nat
      then match vinside v' j' with Some i => Some ((k - o)%nat :: i) | None => None end
      else None
  | _, _ => None
  end.
(** Write the array [d] through the window. spectra.py:136, 200 *)
Definition vwrite (v : view) (d b : ndarray) : ndarray :=
  ND (ashape b) (fun j => match vinside v j with Some i => aget d i | None => aget b j end).
(** [a[l0:h0, ...]]: a window inside the window. spectra.py:530-536 *)
Definition vslice (sl : list (Z * Z)) (v : view) : res view :=
  if (length sl =? length v)%nat
  then Ok (zip_with (fun lh on => let '(s, n) := slice_axis lh (snd on) in (fst on + s, n)) sl v)
  else Err EIndexError.

(** spectra.py:43-63: the attributes of a spectrum object; [_config], [_data] and [_rois]
    are references. *)
Record hspec := HSpec {
  o_name : string;
  o_bg : option string;
  o_cfg : nat;
  o_buf : nat;
  o_view : view;
  o_decays : Qc;
  o_raw : Z;
  o_bipo : Z;
  o_rois : nat }.
(** All objects of the program that spectra.py refers to. spectra.py:43-63 *)
Record heap := Heap {
  h_cfgs : list sconfig;
  h_bufs : list ndarray;
  h_roid : list (dict roi);
  h_objs : list hspec }.

(** Before the first call. spectra.py:43-63 *)
Definition empty_heap : heap := Heap [] [] [] [].

(** Replace entry [n] of a list. spectra.py:52-63 *)
Fixpoint lset {A} (n : nat) (x : A) (l : list A) : list A :=
  match n, l with
  | _, [] => []
  | O, _ :: l' => x :: l'
  | S n', y :: l' => y :: lset n' x l'
  end.
(** Change of a configuration object in place: spectra.py:369, 527. *)
Definition set_cfg (h : heap) (n : nat) (c : sconfig) : heap :=
  Heap (lset n c (h_cfgs h)) (h_bufs h) (h_roid h) (h_objs h).
(** Change of a numpy buffer in place: spectra.py:136, 200. *)
Definition set_buf (h : heap) (n : nat) (b : ndarray) : heap :=
  Heap (h_cfgs h) (lset n b (h_bufs h)) (h_roid h) (h_objs h).
(** Change of an ROI dictionary in place: spectra.py:561-563. *)
Definition set_roid (h : heap) (n : nat) (d : dict roi) : heap :=
  Heap (h_cfgs h) (h_bufs h) (lset n d (h_roid h)) (h_objs h).
(** Assignment to an attribute of a spectrum object. spectra.py:52-63 *)
Definition set_obj (h : heap) (n : nat) (o : hspec) : heap :=
  Heap (h_cfgs h) (h_bufs h) (h_roid h) (lset n o (h_objs h)).
(** A new numpy array: spectra.py:52, 390, 374-376. *)
Definition new_buf (h : heap) (b : ndarray) : heap * nat :=
  (Heap (h_cfgs h) (h_bufs h ++ [b]) (h_roid h) (h_objs h), length (h_bufs h)).
(** A new configuration object: config.py:757. *)
Definition new_cfg (h : heap) (c : sconfig) : heap * nat :=
  (Heap (h_cfgs h ++ [c]) (h_bufs h) (h_roid h) (h_objs h), length (h_cfgs h)).
(** A new dictionary: spectra.py:59 (self._rois = {}). *)
Definition new_roid (h : heap) : heap * nat :=
  (Heap (h_cfgs h) (h_bufs h) (h_roid h ++ [[]]) (h_objs h), length (h_roid h)).
(** A new spectrum object: spectra.py:43, copy.copy. *)
Definition new_obj (h : heap) (o : hspec) : heap :=
  Heap (h_cfgs h) (h_bufs h) (h_roid h) (h_objs h ++ [o]).

(** What a caller sees when looking at an object: the spectrum as a value. spectra.py:43-63, 224-286 *)
Definition view_obj (h : heap) (o : hspec) : option spectra :=
  match nth_error (h_cfgs h) (o_cfg o), nth_error (h_bufs h) (o_buf o), nth_error (h_roid h) (o_rois o) with
  | Some c, Some b, Some r =>
      Some (Spec (o_name o) (o_bg o) c (vread (o_view o) b) (o_decays o) (o_raw o) (o_bipo o) r)
  | _, _, _ => None
  end.
(** The spectrum that reference [r] shows. spectra.py:43-63, 224-286 *)
Definition abs (h : heap) (r : nat) : option spectra :=
  match nth_error (h_objs h) r with Some o => view_obj h o | None => None end.

(** Attribute assignments. spectra.py:138, 202-222, 376, 392-423 *)
Definition o_with_bg (o : hspec) (b : option string) : hspec :=
  HSpec (o_name o) b (o_cfg o) (o_buf o) (o_view o) (o_decays o) (o_raw o) (o_bipo o) (o_rois o).
(** self._data = ..., spectra.py:374-376, 390, 536. *)
Definition o_with_data (o : hspec) (b : nat) (v : view) : hspec :=
  HSpec (o_name o) (o_bg o) (o_cfg o) b v (o_decays o) (o_raw o) (o_bipo o) (o_rois o).
(** self._num_decays = ..., spectra.py:138, 166, 392. *)
Definition o_with_decays (o : hspec) (n : Qc) : hspec :=
  HSpec (o_name o) (o_bg o) (o_cfg o) (o_buf o) (o_view o) n (o_raw o) (o_bipo o) (o_rois o).
(** self._raw_events = ..., spectra.py:137. *)
Definition o_with_raw (o : hspec) (n : Z) : hspec :=
  HSpec (o_name o) (o_bg o) (o_cfg o) (o_buf o) (o_view o) (o_decays o) n (o_bipo o) (o_rois o).

(** Update the array of object [r] in place: [self._data[...] += ...]. spectra.py:136, 200 *)
Definition write_data (h : heap) (o : hspec) (d : ndarray) : heap :=
  match nth_error (h_bufs h) (o_buf o) with
  | Some b => set_buf h (o_buf o) (vwrite (o_view o) d b)
  | None => h
  end.
(** Bind the attribute to a new array: [self._data = ...]. spectra.py:376, 390, 536 *)
Definition bind_data (h : heap) (r : nat) (o : hspec) (d : ndarray) : heap :=
  let (h1, b) := new_buf h d in set_obj h1 r (o_with_data o b (full_view d)).

(** A method call on a reference that does not exist cannot happen in Python; it is
    reported as AttributeError here. spectra.py:65-599 *)
Definition on_obj (h : heap) (r : nat) (k : hspec -> spectra -> heap * out) : heap * out :=
  match nth_error (h_objs h) r with
  | None => (h, Some EAttributeError)
  | Some o => match view_obj h o with
              | None => (h, Some EAttributeError)
              | Some s => k o s
              end
  end.

(** spectra.py:168-200, fill: line 200 adds in place. *)
Definition h_fill (w : Qc) (kw : dict Qc) (r : nat) (h : heap) : heap * out :=
  on_obj h r (fun o s =>
    match fill_data w kw s with
    | Ok d => (write_data h o d, None)
    | Err e => (h, Some e)
    end).

(** spectra.py:65-138, add: line 136 [self._data += spectrum._data] adds in place.  For
    overlapping windows of one buffer numpy (since 1.13) computes the sum before writing. *)
Definition h_add (r2 r : nat) (h : heap) : heap * out :=
  match abs h r2 with
  | None => (h, Some EAttributeError)
  | Some s2 =>
      on_obj h r (fun o s =>
        match add_check s s2 with
        | Err e => (h, Some e)
        | Ok _ =>
            let h1 := write_data h o (aplus (s_data s) (s_data s2)) in
            (set_obj h1 r (o_with_decays (o_with_raw o (s_raw s + s_raw s2)%Z) (s_decays s + s_decays s2)%Qc), None)
        end)
  end.

(** spectra.py:378-392, scale: line 390 binds a new array. *)
Definition h_scale (n : Qc) (r : nat) (h : heap) : heap * out :=
  on_obj h r (fun o s =>
    match qdiv n (s_decays s) with
    | Ok f => (bind_data h r (o_with_decays o n) (amap (fun x => x * f)%Qc (s_data s)), None)
    | Err e => (h, Some e)
    end).

(** spectra.py:343-376, rebin: the loop 363-369 updates the parameters of the configuration
    object, 374-376 bind a new array. *)
Definition h_rebin (bins : list Z) (r : nat) (h : heap) : heap * out :=
  on_obj h r (fun o s =>
    if negb (length bins =? length (get_pars (s_cfg s)))%nat then (h, Some EValueError)
    else
      let (c, e) := rebin_pars (s_cfg s) bins in
      let h1 := set_cfg h (o_cfg o) c in
      match e with
      | Some e => (h1, Some e)
      | None =>
          match rebin_data bins (s_data s) with
          | Ok d => (bind_data h1 r o d, None)
          | Err e => (h1, Some e)
          end
      end).

(** spectra.py:425-536, shrink: 525-527 update the parameters of the configuration object,
    530-536 bind a view of the same buffer. *)
Definition h_shrink (kw : dict Qc) (r : nat) (h : heap) : heap * out :=
  on_obj h r (fun o s =>
    match shrink_check (s_cfg s) kw with
    | Err e => (h, Some e)
    | Ok _ =>
        let (c, sl) := shrink_pars kw (s_cfg s) in
        let h1 := set_cfg h (o_cfg o) c in
        match sl with
        | Err e => (h1, Some e)
        | Ok [] => (h1, Some EException)
        | Ok sls =>
            match vslice sls (o_view o) with
            | Err e => (h1, Some e)
            | Ok v => (set_obj h1 r (o_with_data o (o_buf o) v), None)
            end
        end
    end).

(** spectra.py:140-166, cut *)
Definition h_cut (kw : dict Qc) (r : nat) (h : heap) : heap * out :=
  on_obj h r (fun _ s =>
    let initial := s_sum s in
    let (h1, e) := h_shrink kw r h in
    match e with
    | Some e => (h1, Some e)
    | None =>
        on_obj h1 r (fun o1 s1 =>
          match qdiv (s_sum s1) initial with
          | Err e => (h1, Some e)
          | Ok f => (set_obj h1 r (o_with_decays o1 (s_decays s1 * f)%Qc), None)
          end)
    end).

(** spectra.py:538-563, shrink_to_roi: 561-563 write into the dictionary [self._rois]. *)
Definition h_roi (lo hi : Qc) (dim : string) (r : nat) (h : heap) : heap * out :=
  on_obj h r (fun _ s =>
    let full := s_sum s in
    let (h1, e) := h_shrink [((dim ++ "_low")%string, lo); ((dim ++ "_high")%string, hi)] r h in
    match e with
    | Some e => (h1, Some e)
    | None =>
        on_obj h1 r (fun o1 s1 =>
          match qdiv (s_sum s1) full with
          | Err e => (h1, Some e)
          | Ok eff =>
              match get_par (s_cfg s1) dim with
              | Err e => (h1, Some e)
              | Ok p => (set_roid h1 (o_rois o1) (dset dim (ROI (sp_low p) (sp_high p) eff) (s_rois s1)), None)
              end
          end)
    end).

(** spectra.py:202-222, get_background_name: remembers the name it finds. *)
Definition h_name (r : nat) (h : heap) : heap * out :=
  on_obj h r (fun o s =>
    match get_background_name s with
    | (s', Ok _) => (set_obj h r (o_with_bg o (s_bg s')), None)
    | (_, Err e) => (h, Some e)
    end).

(** spectra.py:43-63, __init__, with a configuration object that exists already; a new
    array and a new dictionary. *)
Definition h_new_on (name : string) (n : Qc) (cr : nat) (bg : option string) (h : heap) : heap * out :=
  match nth_error (h_cfgs h) cr with
  | None => (h, Some EAttributeError)
  | Some c =>
      match new_spectra name n c bg with
      | Err e => (h, Some e)
      | Ok s =>
          let (h1, b) := new_buf h (s_data s) in
          let (h2, d) := new_roid h1 in
          (new_obj h2 (HSpec name bg cr b (full_view (s_data s)) n 0 0 d), None)
      end
  end.
(** The usual way: a configuration is loaded from a file for this spectrum
    (spectra.SpectraConfig.load_from_file) and the spectrum made with it. spectra.py:43-63; config.py:698-757 *)
Definition h_new (name : string) (n : Qc) (c : sconfig) (bg : option string) (h : heap) : heap * out :=
  match new_spectra name n c bg with
  | Err e => (h, Some e)
  | Ok _ => let (h1, cr) := new_cfg h c in h_new_on name n cr bg h1
  end.

(** copy.copy(spectrum): a new object with the same attribute values, references included
    (fit.py:650, 654; smear.py:241 etc.). *)
Definition h_copy (r : nat) (h : heap) : heap * out :=
  on_obj h r (fun o _ => (new_obj h o, None)).

(** The functions that return a new spectrum: smear.py weighted_smear and random_smear,
    shift.py Shift.shift, scale.py Scale.scale.  All start with copy.copy, a new name and a
    new array (smear.py:240-242, shift.py:52-54, 187-189, scale.py:54-56). *)
Inductive derivation :=
| DWeighted (suffix : string) (nsig : Qc) (sigma : Qc -> Qc) (W : Qc -> Qc -> Qc) (par : string)
| DRandom (suffix : string) (draw : list nat -> nat -> Qc) (par : string)
| DShift (suffix : string) (shift : Qc) (interp : Qc -> Qc) (dim : string)
| DScale (suffix : string) (sf : Qc) (interp : Qc -> Qc) (dim : string).
(** What those functions compute, as values: Model/Smear.v, Model/Shift.v.
    smear.py:209-284; shift.py:33-210; scale.py:38-61 *)
Definition derive (d : derivation) (s : spectra) : res spectra :=
  match d with
  | DWeighted suffix nsig sigma W par => weighted_smear suffix nsig sigma W par s
  | DRandom suffix draw par => random_smear suffix draw par s
  | DShift suffix shift interp dim => shift_axis suffix shift interp dim s
  | DScale suffix sf interp dim => scale_axis suffix sf interp dim s
  end.
(** smear.py:240-242, shift.py:52-54, 187-189, scale.py:54-56: the result is a new object that shares the configuration and the ROIs of its input. *)
Definition h_derive (d : derivation) (r : nat) (h : heap) : heap * out :=
  on_obj h r (fun o s =>
    match derive d s with
    | Err e => (h, Some e)
    | Ok s' =>
        let (h1, b) := new_buf h (s_data s') in
        (new_obj h1 (HSpec (s_name s') (o_bg o) (o_cfg o) b (full_view (s_data s')) (o_decays o)
                           (o_raw o) (o_bipo o) (o_rois o)), None)
    end).

(** The calls a program can make. spectra.py:65-599; smear.py:209; shift.py:33; scale.py:38; fit.py:630-661 *)
Inductive call :=
| CNew (name : string) (n : Qc) (c : sconfig) (bg : option string)
| CNewOn (name : string) (n : Qc) (r : nat) (bg : option string)  (* with r.get_config() *)
| CCopy (r : nat)
| CDerive (d : derivation) (r : nat)
| CFill (w : Qc) (kw : dict Qc) (r : nat)
| CAdd (r2 r : nat)
| CScale (n : Qc) (r : nat)
| CRebin (bins : list Z) (r : nat)
| CShrink (kw : dict Qc) (r : nat)
| CCut (kw : dict Qc) (r : nat)
| CRoi (lo hi : Qc) (dim : string) (r : nat)
| CName (r : nat).
(** One call. spectra.py:65-599; smear.py:209; shift.py:33; scale.py:38; fit.py:630-661 *)
Definition h_step (a : call) (h : heap) : heap * out :=
  match a with
  | CNew name n c bg => h_new name n c bg h
  | CNewOn name n r bg => on_obj h r (fun o _ => h_new_on name n (o_cfg o) bg h)
  | CCopy r => h_copy r h
  | CDerive d r => h_derive d r h
  | CFill w kw r => h_fill w kw r h
  | CAdd r2 r => h_add r2 r h
  | CScale n r => h_scale n r h
  | CRebin bins r => h_rebin bins r h
  | CShrink kw r => h_shrink kw r h
  | CCut kw r => h_cut kw r h
  | CRoi lo hi dim r => h_roi lo hi dim r h
  | CName r => h_name r h
  end.
(** A history of calls; the caller catches every exception.  The outcomes are returned in
    order. e.g. fill_spectrum.py:36-41 *)
Fixpoint h_run (l : list call) (h : heap) : heap * list out :=
  match l with
  | [] => (h, [])
  | a :: l' =>
      let (h1, e) := h_step a h in
      let (h2, es) := h_run l' h1 in
      (h2, e :: es)
  end.

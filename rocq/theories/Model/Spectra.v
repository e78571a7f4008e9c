(** echidna/core/spectra.py, class Spectra.
    A method that mutates the spectrum returns the spectrum as it is when the method
    returns or raises, together with [None] (returned) or [Some e] (raised e).
    The configuration is held by value here; sharing is modelled in Model/Heap.v. *)
From Verif Require Import Model.Base Model.PyStr Model.NDArray Model.Param Model.Config.
Local Open Scope string_scope.

(** Outcome of a method: None if it returned, the exception if it raised. spectra.py:65-599 *)
Definition out := option exn.

(** spectra.py:561-563: the record stored per ROI. *)
Record roi := ROI { roi_low : Qc; roi_high : Qc; roi_eff : Qc }.

(** spectra.py:43-63.  [_style], [_fit_config] and [_location] are left to
    Model/Store.v and Model/Fit.v: no method below reads them. *)
Record spectra := Spec {
  s_name : string;
  s_bg : option string;       (* _background_name, None if not given *)
  s_cfg : sconfig;
  s_data : ndarray;
  s_decays : Qc;
  s_raw : Z;
  s_bipo : Z;
  s_rois : dict roi }.

(** self._data = ..., spectra.py:374-376, 390, 536. *)
Definition with_data (s : spectra) (d : ndarray) : spectra :=
  Spec (s_name s) (s_bg s) (s_cfg s) d (s_decays s) (s_raw s) (s_bipo s) (s_rois s).
(** Change of the configuration, spectra.py:369, 527. *)
Definition with_cfg (s : spectra) (c : sconfig) : spectra :=
  Spec (s_name s) (s_bg s) c (s_data s) (s_decays s) (s_raw s) (s_bipo s) (s_rois s).
(** self._num_decays = ..., spectra.py:138, 166, 392. *)
Definition with_decays (s : spectra) (n : Qc) : spectra :=
  Spec (s_name s) (s_bg s) (s_cfg s) (s_data s) n (s_raw s) (s_bipo s) (s_rois s).
(** self._raw_events = ..., spectra.py:137. *)
Definition with_raw (s : spectra) (n : Z) : spectra :=
  Spec (s_name s) (s_bg s) (s_cfg s) (s_data s) (s_decays s) n (s_bipo s) (s_rois s).
(** self._background_name = ..., spectra.py:202-222, 394-400. *)
Definition with_bg (s : spectra) (b : option string) : spectra :=
  Spec (s_name s) b (s_cfg s) (s_data s) (s_decays s) (s_raw s) (s_bipo s) (s_rois s).
(** self._rois[...] = ..., spectra.py:561-563. *)
Definition with_rois (s : spectra) (r : dict roi) : spectra :=
  Spec (s_name s) (s_bg s) (s_cfg s) (s_data s) (s_decays s) (s_raw s) (s_bipo s) r.

(** spectra.py:43-63, Spectra.__init__; numpy.zeros refuses negative sizes. *)
Definition new_spectra (name : string) (n : Qc) (c : sconfig) (bg : option string)
  : res spectra :=
  if forallb (fun b => (0 <=? b)%Z) (get_shape c)
  then Ok (Spec name bg c (azeros (map Z.to_nat (get_shape c))) n 0 0 [])
  else Err EValueError.

(** spectra.py:565-571 *)
Definition s_sum (s : spectra) : Qc := asum (s_data s).

(** spectra.py:65-135, the checks of Spectra.add, in order. *)
Definition shape_eqb (a b : list nat) : bool := idx_eqb a b.
(** spectra.py:89-91 and 92-94 *)
Fixpoint check_dims (ds ds' : list string) : res unit :=       (* 89-91 and 92-94 *)
  match ds with
  | [] => Ok tt
  | d :: r => if str_in d ds' then check_dims r ds' else Err EIndexError
  end.
(** spectra.py:97-102 *)
Fixpoint diff_types (mine : sconfig) (other : sconfig) (vs : list string)  (* 97-102 *)
  : res (dict string) :=
  match vs with
  | [] => Ok []
  | v :: r =>
      if str_in v (get_pars mine) then diff_types mine other r
      else do t <- get_dim_type other (get_dim v);
           do ts <- diff_types mine other r;
           Ok ((get_dim v, t) :: ts)   (* all entries of one key are equal *)
  end.
(** spectra.py:103-135, one parameter *)
Definition check_par (mine other : sconfig) (types : dict string) (v : string)  (* 103-135 *)
  : res unit :=
  let v_spec := match dget (get_dim v) types with
                | Some t => (get_dim v ++ "_" ++ t)%string
                | None => v
                end in
  do p <- get_par mine v;
  do q <- get_par other v_spec;
  if negb (isclose (sp_high p) (sp_high q)) then Err EValueError
  else if negb (isclose (sp_low p) (sp_low q)) then Err EValueError
  else if negb (sp_bins p =? sp_bins q)%Z then Err EValueError
  else Ok tt.
(** spectra.py:103-135, the loop *)
Fixpoint check_pars (mine other : sconfig) (types : dict string) (vs : list string) : res unit :=
  match vs with
  | [] => Ok tt
  | v :: r => do _ <- check_par mine other types v; check_pars mine other types r
  end.
(** spectra.py:85-135, all checks of add *)
Definition add_check (s o : spectra) : res unit :=
  if negb (shape_eqb (ashape (s_data s)) (ashape (s_data o))) then Err EValueError
  else
    do _ <- check_dims (get_dims (s_cfg s)) (get_dims (s_cfg o));
    do _ <- check_dims (get_dims (s_cfg o)) (get_dims (s_cfg s));
    do types <- diff_types (s_cfg s) (s_cfg o) (get_pars (s_cfg o));
    check_pars (s_cfg s) (s_cfg o) types (get_pars (s_cfg s)).
(** spectra.py:65-138, Spectra.add *)
Definition s_add (o s : spectra) : spectra * out :=
  match add_check s o with
  | Err e => (s, Some e)
  | Ok _ =>
      (with_decays
         (with_raw (with_data s (aplus (s_data s) (s_data o))) (s_raw s + s_raw o)%Z)
         (s_decays s + s_decays o)%Qc, None)
  end.

(** spectra.py:168-200, Spectra.fill. [kw] lists the keyword arguments. *)
Fixpoint fill_check_unknown (pars : list string) (kws : list string) : res unit :=   (* 184-186 *)
  match kws with
  | [] => Ok tt
  | k :: r => if str_in k pars then fill_check_unknown pars r else Err EException
  end.
(** spectra.py:187-189 *)
Fixpoint fill_check_missing (kws : list string) (pars : list string) : res unit :=   (* 187-189 *)
  match pars with
  | [] => Ok tt
  | p :: r => if str_in p kws then fill_check_missing kws r else Err EException
  end.
(** spectra.py:190-193 *)
Fixpoint fill_check_range (kw : dict Qc) (c : sconfig) : res unit :=                 (* 190-193 *)
  match c with
  | [] => Ok tt
  | (v, p) :: r =>
      do x <- dlookup v kw;
      if qle (sp_low p) x && qlt x (sp_high p) then fill_check_range kw r
      else Err EValueError
  end.
(** spectra.py:196-199 *)
Definition fill_bin (p : spar) (x : Qc) : res Z :=                                   (* 196-199 *)
  do r <- qdiv (x - sp_low p)%Qc (sp_high p - sp_low p)%Qc;
  Ok (qtrunc (r * zq (sp_bins p))%Qc).
(** spectra.py:194-199 *)
Fixpoint fill_bins (kw : dict Qc) (c : sconfig) : res (list Z) :=                    (* 194-199 *)
  match c with
  | [] => Ok []
  | (v, p) :: r =>
      do x <- dlookup v kw;
      do b <- fill_bin p x;
      do bs <- fill_bins kw r;
      Ok (b :: bs)
  end.
(** spectra.py:168-200, fill: the new array *)
Definition fill_data (w : Qc) (kw : dict Qc) (s : spectra) : res ndarray :=
  do _ <- fill_check_unknown (get_pars (s_cfg s)) (dkeys kw);
  do _ <- fill_check_missing (dkeys kw) (get_pars (s_cfg s));
  do _ <- fill_check_range kw (s_cfg s);
  do bins <- fill_bins kw (s_cfg s);
  aadd_at (s_data s) bins w.                                                         (* 200 *)
(** spectra.py:168-200 *)
Definition fill (w : Qc) (kw : dict Qc) (s : spectra) : spectra * out :=
  match fill_data w kw s with
  | Ok d => (with_data s d, None)
  | Err e => (s, Some e)
  end.

(** spectra.py:202-222, Spectra.get_background_name *)
Definition get_background_name (s : spectra) : spectra * res string :=
  let give b := (with_bg s (Some b), Ok b) in
  match s_bg s with
  | Some (String a b) => (s, Ok (String a b))
  | _ =>                                         (* None or '' *)
      if contains "mc" (s_name s) then give (drop_last 1 (before "mc" (s_name s)))
      else if contains "mix" (s_name s) then give (drop_last 1 (before "mix" (s_name s)))
      else if contains "reco" (s_name s) then give (drop_last 1 (before "reco" (s_name s)))
      else (s, Err EValueError)
  end.

(** spectra.py:302-320, Spectra.nd_project *)
Fixpoint nd_project_loop (axes : list nat) (is : list nat) (a : ndarray) : res ndarray :=
  match is with
  | [] => Ok a
  | i :: r =>
      if existsb (Nat.eqb i) axes then nd_project_loop axes r a
      else do a' <- asum_axis (Z.of_nat i) a; nd_project_loop axes r a'
  end.
(** spectra.py:302-320, Spectra.nd_project *)
Definition nd_project (dims : list string) (s : spectra) : res ndarray :=
  do axes <- rmapM (get_index (s_cfg s)) dims;
  let n := length (get_pars (s_cfg s)) in
  if (length axes =? n)%nat then Ok (s_data s)
  else nd_project_loop axes (seq 0 n) (s_data s).

(** spectra.py:322-341, Spectra.project *)
Fixpoint project_loop (axis : nat) (is : list nat) (a : ndarray) : res ndarray :=
  match is with
  | [] => Ok a
  | i :: r =>
      do a' <- asum_axis (if (axis <? i + 1)%nat then 1 else 0)%Z a;
      project_loop axis r a'
  end.
(** spectra.py:322-341, Spectra.project *)
Definition project (d : string) (s : spectra) : res ndarray :=
  do axis <- get_index (s_cfg s) d;
  project_loop axis (seq 0 (length (get_pars (s_cfg s)) - 1)) (s_data s).

(** spectra.py:573-599, Spectra.surface.  The bound checks at 591-594 cannot fail: the
    axes come from get_index; they are kept as in the code. *)
Fixpoint surface_loop (a1 a2 : nat) (is : list nat) (a : ndarray) : res ndarray :=
  match is with
  | [] => Ok a
  | i :: r =>
      if negb (i =? a1)%nat && negb (i =? a2)%nat
      then do a' <- asum_axis (Z.of_nat i) a; surface_loop a1 a2 r a'
      else surface_loop a1 a2 r a
  end.
(** spectra.py:573-599, Spectra.surface *)
Definition surface (d1 d2 : string) (s : spectra) : res ndarray :=
  do a1 <- get_index (s_cfg s) d1;
  do a2 <- get_index (s_cfg s) d2;
  let n := length (get_pars (s_cfg s)) in
  if (n <? a1)%nat then Err EIndexError
  else if (n <? a2)%nat then Err EIndexError
  else surface_loop a1 a2 (seq 0 n) (s_data s).

(** spectra.py:343-376, Spectra.rebin.  [rebin_pars] is the loop 363-369, which updates
    the configuration one parameter at a time and may raise half-way
    (ZeroDivisionError from [%] if a new bin number is 0). *)
Fixpoint rebin_pars (c : sconfig) (new_bins : list Z) : sconfig * out :=
  match c, new_bins with
  | (v, p) :: c', b :: bs =>
      if (b =? 0)%Z then (c, Some EZeroDivisionError)
      else if negb (sp_bins p mod b =? 0)%Z then (c, Some EValueError)
      else let (c'', o) := rebin_pars c' bs in
           ((v, SPar (sp_low p) (sp_high p) b) :: c'', o)
  | _, _ => (c, None)
  end.
(** 375-376: [for i in range(k): data = data.sum(-1*(i+1))]; spectra.py:375-376 *)
Fixpoint rebin_sums (is : list nat) (a : ndarray) : res ndarray :=
  match is with
  | [] => Ok a
  | i :: r => do a' <- asum_axis (- (Z.of_nat i + 1))%Z a; rebin_sums r a'
  end.
(** 371-373: the interleaved shape; numpy accepts one -1 in a shape, a case not modelled:
    a negative entry is an error here. spectra.py:371-373 *)
Fixpoint rebin_shape (new_bins : list Z) (sh : list nat) : res (list nat) :=
  match new_bins, sh with
  | b :: bs, c :: cs =>
      if (b <? 0)%Z then Err EValueError
      else do r <- rebin_shape bs cs;
           Ok (Z.to_nat b :: Z.to_nat (Z.of_nat c / b) :: r)
  | _, _ => Ok []
  end.
(** spectra.py:371-376 *)
Definition rebin_data (new_bins : list Z) (a : ndarray) : res ndarray :=
  do sh <- rebin_shape new_bins (ashape a);
  do a' <- areshape sh a;
  rebin_sums (seq 0 (length new_bins)) a'.
(** spectra.py:343-376, Spectra.rebin *)
Definition rebin (new_bins : list Z) (s : spectra) : spectra * out :=
  if negb (length new_bins =? length (get_pars (s_cfg s)))%nat then (s, Some EValueError)
  else
    let (c, o) := rebin_pars (s_cfg s) new_bins in
    let s1 := with_cfg s c in
    match o with
    | Some e => (s1, Some e)
    | None =>
        match rebin_data new_bins (s_data s) with
        | Ok d => (with_data s1 d, None)
        | Err e => (s1, Some e)
        end
    end.

(** spectra.py:378-392, Spectra.scale *)
Definition scale (n : Qc) (s : spectra) : spectra * out :=
  match qdiv n (s_decays s) with
  | Ok f => (with_decays (with_data s (amap (fun x => x * f)%Qc (s_data s))) n, None)
  | Err e => (s, Some e)
  end.

(** spectra.py:453-476: validation of the keywords of shrink. *)
Definition split_kw (arg : string) : string * string :=
  let hl := last (split_char "_"%char arg) "" in
  (drop_last (String.length hl + 1) arg, hl).
(** spectra.py:453-476, one keyword *)
Definition shrink_check1 (c : sconfig) (arg : string) (v : Qc) : res unit :=
  let (par, hl) := split_kw arg in
  if negb (str_in par (get_pars c)) then Err EIndexError
  else
    do p <- get_par c par;
    if String.eqb hl "low" then
      if isclose v (sp_low p) then Ok tt
      else if qlt v (sp_low p) then Err EValueError else Ok tt
    else if String.eqb hl "high" then
      if isclose v (sp_high p) then Ok tt
      else if qlt (sp_high p) v then Err EValueError else Ok tt
    else Err EIndexError.
(** spectra.py:453-476, the loop *)
Fixpoint shrink_check (c : sconfig) (kw : dict Qc) : res unit :=
  match kw with
  | [] => Ok tt
  | (a, v) :: r => do _ <- shrink_check1 c a v; shrink_check c r
  end.
(** spectra.py:487-528 for one parameter: the updated parameter and the slice. *)
Definition shrink_axis (p : spar) (lo hi : Qc) : res (spar * (Z * Z)) :=
  do w <- get_width p;
  do rl <- qdiv (lo - sp_low p)%Qc w;
  let low_bin := qtrunc rl in                                              (* 488 *)
  do rh <- qdiv (hi - sp_low p)%Qc w;
  let high_bin := qceil rh in                                              (* 490 *)
  do new_low <- sp_round p (sp_low p + zq low_bin * w)%Qc;                 (* 493 *)
  do new_high <- sp_round p (sp_low p + zq high_bin * w)%Qc;               (* 495 *)
  do hb_nh <-
    (if qlt (qq 99 100 * w)%Qc (qabs (new_high - hi))%Qc then              (* 500-511 *)
       let hb := if qlt 0 (new_high - hi)%Qc then (high_bin - 1)%Z else (high_bin + 1)%Z in
       do nh <- sp_round p (sp_low p + zq hb * w)%Qc; Ok (hb, nh)
     else Ok (high_bin, new_high));
  let (hb, nh) := (hb_nh : Z * Qc) in
  let (lb, nl) :=
    (if qlt (qq 99 100 * w)%Qc (qabs (new_low - lo))%Qc then               (* 513-524 *)
       let lb := if qlt 0 (new_low - lo)%Qc then (low_bin - 1)%Z else (low_bin + 1)%Z in
       (lb, (sp_low p + zq lb * w)%Qc)
     else (low_bin, new_low)) in
  Ok (SPar nl nh (hb - lb), (lb, hb)).                                     (* 525-528 *)
(** spectra.py:484-491 *)
Definition kw_or (k : string) (kw : dict Qc) (d : Qc) : Qc :=              (* 483-486 *)
  match dget k kw with Some v => v | None => d end.
(** spectra.py:479-528: the loop over the parameters; each is updated in turn. *)
Fixpoint shrink_pars (kw : dict Qc) (c : sconfig) : sconfig * res (list (Z * Z)) :=
  match c with
  | [] => ([], Ok [])
  | (v, p) :: r =>
      match shrink_axis p (kw_or (v ++ "_low") kw (sp_low p))
                          (kw_or (v ++ "_high") kw (sp_high p)) with
      | Err e => (c, Err e)
      | Ok (p', sl) =>
          let (r', o) := shrink_pars kw r in
          ((v, p') :: r', rmap (cons sl) o)
      end
  end.
(** spectra.py:425-536, Spectra.shrink.  With no parameter at all the evaluated command
    is a syntax error (530-536). *)
Definition shrink (kw : dict Qc) (s : spectra) : spectra * out :=
  match shrink_check (s_cfg s) kw with
  | Err e => (s, Some e)
  | Ok _ =>
      let (c, o) := shrink_pars kw (s_cfg s) in
      let s1 := with_cfg s c in
      match o with
      | Err e => (s1, Some e)
      | Ok [] => (s1, Some EException)
      | Ok sls =>
          match aslice sls (s_data s) with
          | Err e => (s1, Some e)
          | Ok d => (with_data s1 d, None)
          end
      end
  end.

(** spectra.py:140-166, Spectra.cut *)
Definition cut (kw : dict Qc) (s : spectra) : spectra * out :=
  let initial := s_sum s in
  let (s1, o) := shrink kw s in
  match o with
  | Some e => (s1, Some e)
  | None =>
      match qdiv (s_sum s1) initial with
      | Err e => (s1, Some e)
      | Ok f => (with_decays s1 (s_decays s1 * f)%Qc, None)
      end
  end.

(** spectra.py:538-563, Spectra.shrink_to_roi *)
Definition shrink_to_roi (lo hi : Qc) (dim : string) (s : spectra) : spectra * out :=
  let full := s_sum s in
  let (s1, o) := shrink [((dim ++ "_low")%string, lo); ((dim ++ "_high")%string, hi)] s in
  match o with
  | Some e => (s1, Some e)
  | None =>
      match qdiv (s_sum s1) full with
      | Err e => (s1, Some e)
      | Ok eff =>
          match get_par (s_cfg s1) dim with
          | Err e => (s1, Some e)
          | Ok p => (with_rois s1 (dset dim (ROI (sp_low p) (sp_high p) eff) (s_rois s1)), None)
          end
      end
  end.

(** spectra.py:272-279 *)
Definition get_roi (dim : string) (s : spectra) : res roi := dlookup dim (s_rois s).

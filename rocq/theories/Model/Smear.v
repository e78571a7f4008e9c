(** echidna/core/smear.py: weighted and random smearing of spectra.
    The three classes (EnergySmearLY 106-345, EnergySmearRes 348-594, RadialSmear
    597-801) run the same loops; they differ in [get_sigma], in the weight function and
    in the name suffix.  These are arguments here: [sigma mean] is get_sigma, and
    [W energy mean] stands for calc_gaussian(energy, mean, sigma) (65-72 etc.) or
    calc_poisson_energy(energy, mean) (128-147), whose values are transcendental.
    A complex or nan sigma (negative mean energy) is not modelled. *)
From Verif Require Import Model.Base Model.PyStr Model.NDArray Model.Param Model.Config Model.Spectra.
Local Open Scope string_scope.

(** smear.py:52-63, Smear.get_bin_mean *)
Definition get_bin_mean (low : Qc) (bin : nat) (width : Qc) : Qc :=
  (low + (nq bin + qq 1 2) * width)%Qc.

(** smear.py:74-87, Smear.set_num_sigma *)
Definition set_num_sigma (n : Qc) : res Qc := if qlt 0 n then Ok n else Err EValueError.

(** smear.py:89-103, Smear.get_bounds *)
Definition get_bounds (nsig mean sg : Qc) : Qc * Qc :=
  ((mean - nsig * sg)%Qc, (mean + nsig * sg)%Qc).

(** itertools.product( range(b1), range(b2), ...); smear.py:243, 320, 491, 569 *)
Fixpoint product (bins : list nat) : list (list nat) :=
  match bins with
  | [] => [[]]
  | n :: r => flat_map (fun i => map (cons i) (product r)) (seq 0 n)
  end.

(** smear.py:244-257 (also 483-496, 690-703): the energies of the smearing window of a
    bin with the given mean. *)
Definition smear_window (nsig : Qc) (sigma : Qc -> Qc) (p : spar) (mean : Qc) : res (list Qc) :=
  do w <- get_width p;
  let (lo, hi) := get_bounds nsig mean (sigma mean) in
  do l <- sp_round p (lo - qq 1 2 * w)%Qc;
  do h <- sp_round p (hi + qq 1 2 * w)%Qc;
  let low := (l + qq 1 2 * w)%Qc in
  let high := (h + qq 1 2 * w)%Qc in
  let low := if qlt low (sp_low p) then (sp_low p + qq 1 2 * w)%Qc else low in
  let high := if qlt (sp_high p) high then (sp_high p - qq 1 2 * w)%Qc else high in
  arange low high w.

(** The dictionary of the bin means (smear.py:254-256, 269-270): every parameter at the
    mean of its bin.  The entry of the smeared parameter is overwritten by [dset]
    below, which Python achieves by adding it afterwards. *)
Fixpoint bin_means (c : sconfig) (bin : list nat) : res (dict Qc) :=
  match c, bin with
  | [], [] => Ok []
  | (v, p) :: r, b :: bin' =>
      do w <- get_width p;
      do d <- bin_means r bin';
      Ok ((v, get_bin_mean (sp_low p) b w) :: d)
  | _, _ => Err EIndexError
  end.

(** smear.py:247-280: the fills made for one bin (weight, keyword values). *)
Definition bin_fills (nsig : Qc) (sigma : Qc -> Qc) (W : Qc -> Qc -> Qc) (c : sconfig)
  (par : string) (p : spar) (entries : Qc) (bin : list nat) : res (list (Qc * dict Qc)) :=
  if qeq entries 0 then Ok []
  else
    do data <- bin_means c bin;
    do mean <- dlookup par data;
    do es <- smear_window nsig sigma p mean;
    let total_weight := qsum (map (fun e => W e mean) es) in
    rmapM (fun e => do w <- qdiv (entries * W e mean)%Qc total_weight;
                    Ok (w, dset par e data)) es.

(** The fills of the bins, one after the other; an exception of fill propagates. smear.py:321-345, 570-594 *)
Fixpoint fill_list (l : list (Qc * dict Qc)) (s : spectra) : res spectra :=
  match l with
  | [] => Ok s
  | (w, kw) :: r => match fill w kw s with
                    | (s', None) => fill_list r s'
                    | (_, Some e) => Err e
                    end
  end.
(** smear.py:243-282: the loop over the bins. *)
Fixpoint smear_bins (f : list nat -> res (list (Qc * dict Qc))) (bins : list (list nat)) (s : spectra)
  : res spectra :=
  match bins with
  | [] => Ok s
  | b :: r => do l <- f b; do s' <- fill_list l s; smear_bins f r s'
  end.

(** copy.copy(spectrum), a new name and a zeroed array of the same shape
    (smear.py:240-242).  The configuration stays shared: Model/Heap.v. *)
Definition smear_target (suffix : string) (s : spectra) : spectra :=
  Spec (s_name s ++ suffix) (s_bg s) (s_cfg s) (azeros (ashape (s_data s))) (s_decays s)
       (s_raw s) (s_bipo s) (s_rois s).

(** smear.py:209-284, 457-533, 664-744: weighted_smear *)
Definition weighted_smear (suffix : string) (nsig : Qc) (sigma : Qc -> Qc) (W : Qc -> Qc -> Qc)
  (par : string) (s : spectra) : res spectra :=
  if negb (str_in par (get_pars (s_cfg s))) then Err EIndexError
  else
    do p <- get_par (s_cfg s) par;
    do _ <- rmapM (fun vp => get_width (snd vp)) (s_cfg s);
    let bins := product (map (fun vp => Z.to_nat (sp_bins (snd vp))) (s_cfg s)) in
    smear_bins
      (fun b => if in_shape b (ashape (s_data s))
                then bin_fills nsig sigma W (s_cfg s) par p (aget (s_data s) b) b
                else Err EIndexError)
      bins (smear_target suffix s).

(** smear.py:286-345 and 535-594: random_smear of the energy classes.  [draw b i] is the
    absolute value of the i-th random number drawn for bin [b]; ValueErrors of fill are
    caught.  Only fills can raise here once the set-up has succeeded. *)
Definition random_fills (draw : list nat -> nat -> Qc) (c : sconfig) (par : string)
  (content : Qc) (bin : list nat) : res (list (Qc * dict Qc)) :=
  let entries := qtrunc content in
  if (entries =? 0)%Z then Ok []
  else
    do data <- bin_means c bin;
    Ok (map (fun i => (1%Qc, dset par (draw bin i) data)) (seq 0 (Z.to_nat entries))).
(** smear.py:331-343: the fills of one bin; ValueErrors are caught. *)
Fixpoint fill_list_try (l : list (Qc * dict Qc)) (s : spectra) : res spectra :=
  match l with
  | [] => Ok s
  | (w, kw) :: r => match fill w kw s with
                    | (s', None) => fill_list_try r s'
                    | (s', Some EValueError) => fill_list_try r s'
                    | (_, Some e) => Err e
                    end
  end.
(** smear.py:320-343: the loop over the bins. *)
Fixpoint random_bins (f : list nat -> res (list (Qc * dict Qc))) (bins : list (list nat)) (s : spectra)
  : res spectra :=
  match bins with
  | [] => Ok s
  | b :: r => do l <- f b; do s' <- fill_list_try l s; random_bins f r s'
  end.
(** smear.py:286-345 and 535-594, random_smear *)
Definition random_smear (suffix : string) (draw : list nat -> nat -> Qc) (par : string) (s : spectra)
  : res spectra :=
  if negb (str_in par (get_pars (s_cfg s))) then Err EIndexError
  else
    do _ <- rmapM (fun vp => get_width (snd vp)) (s_cfg s);
    let bins := product (map (fun vp => Z.to_nat (sp_bins (snd vp))) (s_cfg s)) in
    random_bins
      (fun b => if in_shape b (ashape (s_data s))
                then random_fills draw (s_cfg s) par (aget (s_data s) b) b
                else Err EIndexError)
      bins (smear_target suffix s).

(** smear.py:746-801: RadialSmear.random_smear calls range(entries) on the float content
    of the array (791), which Python 2.7 refuses with TypeError. *)
Definition radial_fills (c : sconfig) (content : Qc) (bin : list nat) : res (list (Qc * dict Qc)) :=
  if qeq content 0 then Ok []
  else do _ <- bin_means c bin; Err ETypeError.
(** smear.py:746-801, RadialSmear.random_smear *)
Definition radial_random_smear (suffix : string) (par : string) (s : spectra) : res spectra :=
  if negb (str_in par (get_pars (s_cfg s))) then Err EIndexError
  else
    do _ <- rmapM (fun vp => get_width (snd vp)) (s_cfg s);
    let bins := product (map (fun vp => Z.to_nat (sp_bins (snd vp))) (s_cfg s)) in
    random_bins
      (fun b => if in_shape b (ashape (s_data s))
                then radial_fills (s_cfg s) (aget (s_data s) b) b
                else Err EIndexError)
      bins (smear_target suffix s).

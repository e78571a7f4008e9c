(** Specification vocabulary for C70: the expected spectrum of a fit that loads convolved
    spectra, as a function of the files, of the spectra the fit was given and of the
    parameter values. *)
From Verif Require Import Model.Base Model.PyStr Model.NDArray Model.Param Model.Config Model.Spectra
  Model.Smear Model.Shift Model.Heap Model.Minimise Model.Fit Model.FitConfig Model.Store Model.Combine Model.PreConv Model.Scripts Model.PreMade.
From Verif Require Import Spec.AxisSpec Spec.ArraySpec Spec.SpectraSpec Spec.ShrinkSpec Spec.HeapSpec Spec.FitRunSpec Spec.FitLimitSpec.

(** A spectrum cut to the bounds of the data and rebinned to its bins. *)
Definition on_axes_of (d s : spectra) : res spectra :=
  do kw <- data_keywords (s_cfg d) (s_cfg s) [];
  do t <- done (shrink kw s);
  done (rebin (map Z.of_nat (ashape (s_data d))) t).
(** Parameters that are rates, the numbers of decays. *)
Definition rates_only (ps : list fitpar) (l : list nat) : Prop :=
  forall i, In i l -> exists p, nth_error ps i = Some p /\ q_kind p = KRate.

Section Files.
Variables (pf : string -> res Qc) (e : Qc) (fs : fsys) (base : string)
  (location : nat -> option string) (orig_decays : nat -> option Qc) (class : nat -> option syst) (dimension : nat -> option string).
(** The global parameters at the values [args]. *)
Definition at_values (ft : fit) (args : list Qc) : list gpar :=
  map (fun i => GPar (class i) (dimension i) (option_map (fun v => PVal v (ft_str ft v)) (nth_error args i))) (global_pars ft).
(** The spectrum in the file for these values, with the decays of the fit's spectrum. *)
Definition pre_made_spectrum (ft : fit) (h : heap) (args : list Qc) (p : part) : res spectra :=
  do s <- shown h (pt_ref p);
  do f <- pre_made_path base (location (pt_ref p)) (at_values ft args);
  do q <- load pf e (fs f);
  done (scale (s_decays s)
    (match orig_decays (pt_ref p) with Some n => if qeq n 0 then st_spec q else with_decays (st_spec q) n | None => st_spec q end)).
(** Its projection after the parameters [l], on the axes of the data [d]. *)
Definition pre_made_contribution (ft : fit) (h : heap) (d : spectra) (args : list Qc) (l : list nat) (p : part) : res ndarray :=
  do s <- pre_made_spectrum ft h args p;
  do m <- on_axes_of d s;
  do t <- apply_values (ft_pars ft) args l m;
  nd_project (pt_pars p) t.
(** The observed and the expected spectrum: the fixed background, every floating background
    with its own parameters, the signal. *)
Definition pre_made_fitted (ft : fit) (h : heap) (args : list Qc) : res (ndarray * ndarray) :=
  do o <- observed ft h;
  do d <- shown h (ft_data ft);
  do fixed <- (match ft_fixed ft with
               | None => Ok None
               | Some (r, pars) => do s <- shown h r; rmap Some (nd_project pars s)
               end);
  do x <- sum_parts fixed (map (fun p => pre_made_contribution ft h d args (pt_own p) p) (ft_floating ft) ++
                           match ft_signal ft with Some p => [pre_made_contribution ft h d args [] p] | None => [] end);
  match x with Some x => Ok (o, x) | None => Err ETypeError end.
(** The files that can be loaded fit the data.  Files with other axes than the data are used
    for spectra whose own parameters are rates only. *)
Definition files_fit (ft : fit) (h : heap) (V : Qc -> Prop) : Prop :=
  forall d p s args t, abs h (ft_data ft) = Some d -> In p (all_parts ft) -> abs h (pt_ref p) = Some s -> good_args ft V args ->
  pre_made_spectrum ft h args p = Ok t ->
  s_decays s <> 0%Qc /\ (exists m, on_axes_of d t = Ok m /\ fit_ready d m) /\
  (fit_ready d t \/ ft_signal ft = Some p \/ rates_only (ft_pars ft) (pt_own p)).
End Files.

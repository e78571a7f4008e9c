(** Specification vocabulary for C75: one fit, several signals, a Limit for each. *)
From Verif Require Import Model.Base Model.PyStr Model.NDArray Model.Param Model.Config Model.Spectra
  Model.Smear Model.Shift Model.FitParam Model.Heap Model.Minimise Model.Fit Model.FitPrepare Model.Limit Model.FitLimit.
From Verif Require Import Spec.AxisSpec Spec.ArraySpec Spec.SpectraSpec Spec.ShrinkSpec Spec.HeapSpec Spec.SearchSpec Spec.FitRunSpec Spec.LimitSpec Spec.FitLimitSpec.

(** A signal: its place (object, no parameters of its own, parameters of the region) and the
    spectrum the object shows before the first call. *)
Definition signal : Type := part * spectra.
Definition sig_ref (x : signal) : nat := pt_ref (fst x).
(** The fit with another signal, or with none. *)
Definition fit_with (ft : fit) (o : option part) : fit :=
  Fit (ft_str ft) (ft_pars ft) (ft_data ft) (ft_data_pars ft) (ft_fixed ft) (ft_floating ft) o.
Definition fitter_with (u : fitter) (o : option part) : fitter :=
  u_with_set u (z_with_signal (u_set u) (option_map (fun p => (pt_ref p, pt_pars p)) o)).

(** A fit [ft] (listed without signal) and the signals that are going to be used with it. *)
Record many_ready (su : setup) (u : fitter) (ft : fit) (sigs : list signal) : Prop := ManyReady {
  mr_fit : exists d dp, z_data (u_set u) = Some (d, dp) /\ ft = fit_of (su_str su) (su_pars su) (su_owns su) (z_with_signal (u_set u) None) d dp;
  (* without a signal and with each of them the spectra are prepared as in C52 *)
  mr_prepared : prepared ft (z_heap (u_set u));
  mr_each : forall p s0, In (p, s0) sigs ->
    prepared (fit_with ft (Some p)) (z_heap (u_set u)) /\ abs (z_heap (u_set u)) (pt_ref p) = Some s0 /\
    pt_own p = [] /\ roi_pars (the_roi (u_set u)) (s_cfg s0) = Ok (pt_pars p) /\
    pt_ref p <> ft_data ft /\ forall r pars, ft_fixed ft = Some (r, pars) -> pt_ref p <> r;
  (* the signals are different objects, with different background names *)
  mr_distinct : NoDup (map sig_ref sigs);
  mr_names : global_pars ft <> [] -> NoDup (map (fun x => name_of (z_heap (u_set u)) (fst x)) sigs);
  mr_commutes : forall i q, In i (global_pars ft) -> nth_error (ft_pars ft) i = Some q -> commutes (q_kind q);
  mr_start : u_cache u = [] /\ u_cur u = map (fun _ => None) (su_pars su) }.

(** The axes of a spectrum in the dimensions of the region end at the bounds of the region. *)
Definition on_roi (roi : rdict) (s : spectra) : Prop :=
  wf_spectra s /\ s_cfg s <> [] /\ Forall (fun vp => aligned (snd vp)) (s_cfg s) /\
  NoDup (map (fun y => get_dim (fst y)) (s_cfg s)) /\ Forall (fun y => typed_name (fst y)) (s_cfg s) /\
  Forall (fun x => exists v p, In (v, p) (s_cfg s) /\ get_dim v = fst x /\ snd x = (sp_low p, sp_high p)) roi.

(** What can happen: Limit(signal i, fit, shrink), its get_limit, one of its scalings (or
    removal) of the signal of the fit, the caller's own scaling of a signal, an evaluation of
    the fit by any minimiser. *)
Inductive mstep :=
| MLimit (i : nat) (shrink : bool)
| MCall (i : nat) (c : lcall)
| MSelect (i : nat) (k : option Qc)
| MScale (i : nat) (k : Qc)
| MEval (args : list Qc).
Definition m_step (su : setup) (sigs : list signal) (fps : list fpar) (u : fitter) (e : mstep) : fitter :=
  match e with
  | MEval args => fst (u_eval su args u)
  | MLimit i _ | MCall i _ | MSelect i _ | MScale i _ =>
      match nth_error sigs i with
      | None => u
      | Some x =>
          match e with
          | MLimit _ shrink => fst (limit_init su (sig_ref x) shrink u)
          | MCall _ c => fst (run_call su (sig_ref x) fps c u)
          | MSelect _ k => fst (select (sig_ref x) k u)
          | MScale _ k => u_with_set u (z_with_heap (u_set u) (fst (h_scale k (sig_ref x) (z_heap (u_set u)))))
          | MEval _ => u
          end
      end
  end.
Definition m_run (su : setup) (sigs : list signal) (fps : list fpar) (l : list mstep) (u : fitter) : fitter := fold_left (m_step su sigs fps) l u.

(** The signal the fit has: that of the last Limit made or used; none if the last fit of a
    limit was without signal. *)
Definition selected (cur : option nat) (e : mstep) : option nat :=
  match e with
  | MLimit i _ => Some i
  | MCall i (scales, _, _) => if isclose (last scales 0%Qc) 0 then None else Some i
  | MSelect i None => None
  | MSelect i (Some _) => Some i
  | MScale _ _ | MEval _ => cur
  end.
(** The signal of the fit is signal [i], or there is none. *)
Definition its_turn (cur : option nat) (i : nat) : Prop := cur = None \/ cur = Some i.
(** A step that can be asked for: numbers of decays of the same sign as the signal has, fits
    that give numbers, spectra on the region if they are to be restricted to it, and, for a
    limit with a given minimum, no other signal in the fit. *)
Definition step_gives (value : part -> option spectra -> list Qc -> res (sres * Qc)) (su : setup) (u : fitter) (ft : fit) (sigs : list signal) (V : Qc -> Prop) (ls : list (list Qc)) (cur : option nat) (e : mstep) : Prop :=
  match e with
  | MEval args => good_args ft V args
  | MLimit i _ | MCall i _ | MSelect i _ | MScale i _ =>
      exists p s0, nth_error sigs i = Some (p, s0) /\
      match e with
      | MLimit _ shrink => su_config su (pt_ref p) = None /\ (shrink = true -> on_roi (the_roi (u_set u)) s0)
      | MCall _ c => call_gives (value p) s0 ls c /\ (snd c <> None -> its_turn cur i)
      | MSelect _ (Some k) => (0 < k / s_decays s0)%Qc /\ its_turn cur i
      | MScale _ k => (0 < k / s_decays s0)%Qc
      | MSelect _ None | MEval _ => True
      end
  end.
Fixpoint steps_give (value : part -> option spectra -> list Qc -> res (sres * Qc)) (su : setup) (u : fitter) (ft : fit) (sigs : list signal) (V : Qc -> Prop) (ls : list (list Qc)) (cur : option nat) (l : list mstep) : Prop :=
  match l with
  | [] => True
  | e :: l' => step_gives value su u ft sigs V ls cur e /\ steps_give value su u ft sigs V ls (selected cur e) l'
  end.
Definition step_ok (su : setup) (u : fitter) (ft : fit) := step_gives (value_with su ft (z_heap (u_set u))) su u ft.
Definition steps_ok (su : setup) (u : fitter) (ft : fit) := steps_give (value_with su ft (z_heap (u_set u))) su u ft.
(** The signal of the fit at the start. *)
Definition starts_with (u : fitter) (sigs : list signal) (cur : option nat) : Prop :=
  match cur with
  | None => z_signal (u_set u) = None
  | Some i => exists p s0, nth_error sigs i = Some (p, s0) /\ z_signal (u_set u) = Some (pt_ref p, pt_pars p)
  end.

(** Specification vocabulary for C86: the statistics of all scalings of a signal. *)
From Verif Require Import Model.Base Model.PyStr Model.NDArray Model.Param Model.Config Model.Spectra
  Model.Smear Model.Shift Model.FitParam Model.Heap Model.Minimise Model.Fit Model.FitPrepare Model.Limit Model.FitLimit Model.Statistics.
From Verif Require Import Spec.AxisSpec Spec.ArraySpec Spec.SpectraSpec Spec.ShrinkSpec Spec.HeapSpec Spec.SearchSpec Spec.FitRunSpec Spec.LimitSpec Spec.FitLimitSpec Spec.FitMethodSpec.

(** What a Limit is asked for. *)
Inductive question := AskLimit (c : lcall) | AskStatistics (scales : list Qc).
Definition ask (su : setup) (r : nat) (fps : list fpar) (q : question) (u : fitter) : fitter :=
  match q with
  | AskLimit c => fst (run_call su r fps c u)
  | AskStatistics scales => fst (get_statistics su r scales u)
  end.
Definition ask_all (su : setup) (r : nat) (fps : list fpar) (qs : list question) (u : fitter) : fitter :=
  fold_left (fun u q => ask su r fps q u) qs u.
(** Scalings of the same sign as the decays of the signal (or near zero), and fits that give
    numbers. *)
Definition scales_give (value : option spectra -> list Qc -> res (sres * Qc)) (s0 : spectra) (ls : list (list Qc)) (scales : list Qc) : Prop :=
  Forall (fun k => isclose k 0 = true \/ (0 < k / s_decays s0)%Qc) scales /\
  forall k v, In k scales -> In v (combinations ls) -> exists t q, value (at_scale s0 k) v = Ok (RNum t, q).
Definition question_gives (value : option spectra -> list Qc -> res (sres * Qc)) (s0 : spectra) (ls : list (list Qc)) (q : question) : Prop :=
  match q with AskLimit c => call_gives value s0 ls c | AskStatistics scales => scales_give value s0 ls scales end.
(** One row for each scaling: statistic and penalty of the best fit to the spectra. *)
Definition rows_of_best (value : option spectra -> list Qc -> res (sres * Qc)) (s0 : spectra) (points : list (list Qc)) (scales : list Qc) (a : ndarray) : Prop :=
  ashape a = [length scales; 2]%nat /\
  forall j k, nth_error scales j = Some k -> best_point (value (at_scale s0 k)) points (aget a [j; 0]%nat) (aget a [j; 1]%nat).

(** ** A fit without floating backgrounds *)
(** The statistic of the data [o] and of the fixed background [e] plus the signal. *)
Definition fixed_value (su : setup) (o e : ndarray) (sp : list string) (sig : option spectra) : res sres :=
  match sig with
  | None => su_stat su (contents (su_single_bin su) o) (contents (su_single_bin su) e)
  | Some s =>
      do a <- nd_project sp s;
      if shape_eqb (ashape e) (ashape a)
      then su_stat su (contents (su_single_bin su) o) (contents (su_single_bin su) (ND (ashape e) (fun i => aget e i + aget a i)%Qc))
      else Err EValueError
  end.
(** A checked fit with data and fixed background, which project to [o] and [e], for the signal
    [s0]: object [r], neither data nor background, with the parameters [sp]. *)
Record fixed_ready (su : setup) (u : fitter) (r : nat) (sp : list string) (s0 : spectra) (o e : ndarray) : Prop := FixedReady {
  fr_checked : u_checked u = true;
  fr_fixed : floats (u_set u) = false;
  fr_heap : wf_heap (z_heap (u_set u));
  fr_signal : abs (z_heap (u_set u)) r = Some s0 /\ s_decays s0 <> 0%Qc;
  fr_pars : roi_pars (the_roi (u_set u)) (s_cfg s0) = Ok sp;
  fr_data : exists d dp s, z_data (u_set u) = Some (d, dp) /\ d <> r /\ abs (z_heap (u_set u)) d = Some s /\ nd_project dp s = Ok o;
  fr_background : exists f fp s, z_fixed (u_set u) = Some (f, fp) /\ f <> r /\ abs (z_heap (u_set u)) f = Some s /\ nd_project fp s = Ok e }.

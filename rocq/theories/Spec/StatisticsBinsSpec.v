(** Specification vocabulary for C86 with one statistic per bin. *)
From Verif Require Import Model.Base Model.PyStr Model.NDArray Model.Param Model.Config Model.Spectra
  Model.Smear Model.Shift Model.FitParam Model.Heap Model.Minimise Model.Fit Model.FitPrepare Model.Limit Model.FitLimit Model.Statistics.
From Verif Require Import Spec.AxisSpec Spec.ArraySpec Spec.SpectraSpec Spec.ShrinkSpec Spec.HeapSpec Spec.SearchSpec Spec.FitRunSpec Spec.LimitSpec
  Spec.LimitBinsSpec Spec.FitLimitSpec Spec.FitLimitBinsSpec Spec.StatisticsSpec.

(** Scalings with the sign of the decays of the signal (or near zero), and fits that give one
    statistic per bin, in an array of the shape [sh]. *)
Definition scales_give_bins (sh : list nat) (value : option spectra -> list Qc -> res (sres * Qc)) (s0 : spectra) (ls : list (list Qc)) (scales : list Qc) : Prop :=
  Forall (fun k => isclose k 0 = true \/ (0 < k / s_decays s0)%Qc) scales /\
  forall k v, In k scales -> In v (combinations ls) -> exists a q, value (at_scale s0 k) v = Ok (RArr a, q) /\ ashape a = sh.
(** The same of what was asked before; no limit with a given minimum. *)
Definition question_gives_bins (sh : list nat) (value : option spectra -> list Qc -> res (sres * Qc)) (s0 : spectra) (ls : list (list Qc)) (q : question) : Prop :=
  match q with
  | AskLimit (scales, lim, None) => call_gives_bins sh value s0 ls (scales, lim)
  | AskLimit (_, _, Some _) => False
  | AskStatistics scales => scales_give_bins sh value s0 ls scales
  end.
(** What the fits returned: for each scaling the statistics of the bins and the penalty of the
    best fit. *)
Definition pairs_of_best (sh : list nat) (value : option spectra -> list Qc -> res (sres * Qc)) (s0 : spectra) (points : list (list Qc)) (scales : list Qc) (xs : list returned) : Prop :=
  Forall2 (fun k x => exists stats penalty, x = Pair stats penalty /\ ashape stats = sh /\ ashape penalty = [] /\
    best_bins sh (value (at_scale s0 k)) points (aget stats) (aget penalty [])) scales xs.

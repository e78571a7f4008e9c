(** Specification vocabulary for scaling, adding and histories of operations. *)
From Verif Require Import Model.Base Model.PyStr Model.NDArray Model.Param Model.Config Model.Spectra.
From Verif Require Import Spec.AxisSpec Spec.ArraySpec Spec.SpectraSpec Spec.ShrinkSpec.
Local Open Scope string_scope.

(** Two numbers agree within the tolerance numpy.allclose documents, |a-b| <= 1e-8 + 1e-5|b|. *)
Definition within_tolerance (a b : Qc) : Prop :=
  (- (qq 1 100000000 + qq 1 100000 * qabs b) <= a - b)%Qc /\
  (a - b <= qq 1 100000000 + qq 1 100000 * qabs b)%Qc.

(** The two axes cover the same intervals: bounds within tolerance, same number of bins. *)
Definition same_intervals (p q : spar) : Prop :=
  within_tolerance (sp_low p) (sp_low q) /\ within_tolerance (sp_high p) (sp_high q) /\ sp_bins p = sp_bins q.

(** Axis by axis, in array position. *)
Definition same_regions (c c' : sconfig) : Prop :=
  length c = length c' /\
  forall k v p, nth_error c k = Some (v, p) ->
    exists v' p', nth_error c' k = Some (v', p') /\ get_dim v' = get_dim v /\ same_intervals p p'.

(** The operations of a history. *)
Inductive op :=
| OFill (w : Qc) (kw : dict Qc)
| OScale (n : Qc)
| OAdd (o : spectra)
| OShrink (kw : dict Qc)
| OCut (kw : dict Qc)
| ORebin (bins : list Z)
| ORoi (lo hi : Qc) (dim : string).
Definition do_op (a : op) (s : spectra) : spectra * out :=
  match a with
  | OFill w kw => fill w kw s
  | OScale n => scale n s
  | OAdd o => s_add o s
  | OShrink kw => shrink kw s
  | OCut kw => cut kw s
  | ORebin b => rebin b s
  | ORoi lo hi d => shrink_to_roi lo hi d s
  end.

(** The bounds of a shrinking operation are inside the axes and leave a bin on each. *)
Definition leaves_bins (s' : spectra) : Prop := forall v p, dget v (s_cfg s') = Some p -> (0 < sp_bins p)%Z.
Definition op_ok (a : op) (s : spectra) : Prop :=
  snd (do_op a s) = None /\
  match a with
  | OShrink kw | OCut kw => good_keywords (s_cfg s) kw /\ leaves_bins (fst (do_op a s))
  | ORoi lo hi d => good_keywords (s_cfg s) [(d ++ "_low", lo); (d ++ "_high", hi)] /\ leaves_bins (fst (do_op a s))
  | _ => True
  end.
(** A history in which every operation is accepted. *)
Fixpoint ops_ok (h : list op) (s : spectra) : Prop :=
  match h with
  | [] => True
  | a :: h' => op_ok a s /\ ops_ok h' (fst (do_op a s))
  end.
(** Weights, targets and added spectra are not negative. *)
Definition op_nonneg (a : op) : Prop :=
  match a with
  | OFill w _ => (0 <= w)%Qc
  | OScale n => (0 <= n)%Qc
  | OAdd o => nonneg o /\ (0 <= s_decays o)%Qc
  | _ => True
  end.

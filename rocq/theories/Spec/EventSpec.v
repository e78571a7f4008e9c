(** Specification vocabulary for event streams: which entries count, and in which bin. *)
From Verif Require Import Model.Base Model.PyStr Model.NDArray Model.Param Model.Config Model.Spectra.
From Verif Require Import Model.FillSpectrum.
From Verif Require Import Spec.AxisSpec Spec.ArraySpec Spec.SpectraSpec.

(** For every parameter of the configuration the factory gives an extractor of that name
    that never raises and tests [valid v] and reads [value v]. *)
Definition extracts {E} (c : sconfig) (factory : string -> res (extractor E))
  (valid : string -> E -> bool) (value : string -> E -> Qc) : Prop :=
  forall v, In v (map fst c) ->
    exists x, factory v = Ok x /\ ex_name x = v /\
      (forall e, ex_valid x e = Ok (valid v e) /\ ex_value x e = value v e).

(** An event is usable: every parameter of the configuration is valid and in range. *)
Definition usable {E} (c : sconfig) (valid : string -> E -> bool) (value : string -> E -> Qc) (e : E)
  : bool :=
  forallb (fun vp => valid (fst vp) e &&
                     qle (sp_low (snd vp)) (value (fst vp) e) && qlt (value (fst vp) e) (sp_high (snd vp))) c.

(** An event lies in a bin: on every axis its value lies between the bin's edges. *)
Fixpoint lies_in {E} (c : sconfig) (value : string -> E -> Qc) (e : E) (idx : list nat) : bool :=
  match c, idx with
  | [], [] => true
  | (v, p) :: c', i :: idx' =>
      qle (edge p (Z.of_nat i)) (value v e) && qlt (value v e) (edge p (Z.of_nat i + 1)) &&
      lies_in c' value e idx'
  | _, _ => false
  end.

Definition count {A} (P : A -> bool) (l : list A) : nat := length (filter P l).

(** [s'] is [s] with the events of [l] that are selected by [P] counted once each, in
    raw_events, in the sum and in the bin they lie in; name, axes, number of decays and
    regions of interest are those of [s]. *)
Definition counts {E} (P : E -> bool) (value : string -> E -> Qc) (l : list E) (s s' : spectra) : Prop :=
  s_name s' = s_name s /\ s_bg s' = s_bg s /\ s_cfg s' = s_cfg s /\ s_decays s' = s_decays s /\
  s_bipo s' = s_bipo s /\ s_rois s' = s_rois s /\ ashape (s_data s') = ashape (s_data s) /\
  s_raw s' = (s_raw s + Z.of_nat (count P l))%Z /\
  s_sum s' = (s_sum s + nq (count P l))%Qc /\
  forall idx, valid_idx (ashape (s_data s)) idx ->
    aget (s_data s') idx =
    (aget (s_data s) idx + nq (count (fun e => P e && lies_in (s_cfg s) value e idx) l))%Qc.

(** The consecutive pairs (entry, next entry) of a stream. *)
Definition pairs {E} (l : list E) : list (E * E) := combine l (tl l).
(** The triggers with the entry that follows them, if any. *)
Definition followed {E} (l : list E) : list (E * option E) :=
  combine l (map Some (tl l) ++ [None]).

(** ROOT files: the entries that pass the BiPo cut, the events of an entry. *)
Definition single_ev {D V} (evs : D -> list V) (bipo : bool) (ds : list D) : list D :=
  if bipo then filter (fun d => Nat.eqb (length (evs d)) 1) ds else ds.
Definition triggers {D V} (evs : D -> list V) (ds : list D) : list (D * V) :=
  flat_map (fun d => map (fun v => (d, v)) (evs d)) ds.
(** What a parameter reads for a trigger: a "reco" parameter the event, any other the MC
    branch of the entry. *)
Definition of_trigger {D V A} (f : string -> D * option V -> A) (v : string) (e : D * V) : A :=
  f v (if String.eqb (var_type v) "reco" then (fst e, Some (snd e)) else (fst e, None)).
Definition of_entry {D V A} (f : string -> D * option V -> A) (v : string) (d : D) : A := f v (d, None).
Definition is_mc (v : string) : bool := String.eqb (var_type v) "mc" || String.eqb (var_type v) "truth".
Definition is_reco (v : string) : bool := String.eqb (var_type v) "reco".

(** The spectrum with the entries' decays added, and flagged if the BiPo cut is used. *)
Definition decayed {D} (bipo : bool) (ds : list D) (s : spectra) : spectra :=
  let s' := with_decays s (s_decays s + nq (length ds))%Qc in if bipo then with_bipo s' 1 else s'.

(** Extractors whose tests may raise (as those of external ROOT events). *)
Definition extracts_r {E} (c : sconfig) (factory : string -> res (extractor E))
  (valid : string -> E -> res bool) (value : string -> E -> Qc) : Prop :=
  forall v, In v (map fst c) ->
    exists x, factory v = Ok x /\ ex_name x = v /\
      (forall e, ex_valid x e = valid v e /\ ex_value x e = value v e).
Definition passes {E} (valid : string -> E -> res bool) (v : string) (e : E) : bool :=
  match valid v e with Ok b => b | Err _ => false end.
(** The tests of the parameters in their order: false at the first that fails, or the
    exception of the first that raises. *)
Fixpoint tested {E} (vs : list string) (valid : string -> E -> res bool) (e : E) : res bool :=
  match vs with
  | [] => Ok true
  | v :: r => match valid v e with Err x => Err x | Ok false => Ok false | Ok true => tested r valid e end
  end.

(** A new spectrum in which the events of [l] selected by [P] are counted once each. *)
Definition new_result {E} (P : E -> bool) (value : string -> E -> Qc) (l : list E) (name : string) (n : Qc) (c : sconfig)
  (bipo : bool) (s : spectra) : Prop :=
  s_name s = name /\ s_cfg s = c /\ s_decays s = n /\ s_bipo s = (if bipo then 1 else 0)%Z /\
  s_raw s = Z.of_nat (count P l) /\ s_sum s = nq (count P l) /\ consistent s /\
  forall idx, valid_idx (cfg_shape c) idx -> aget (s_data s) idx = nq (count (fun e => P e && lies_in c value e idx) l).

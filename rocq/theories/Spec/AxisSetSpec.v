(** Specification vocabulary for C85: an axis after some of its attributes were given. *)
From Verif Require Import Model.Base Model.PyStr Model.Param Model.FitParam Model.FitConfig.
From Verif Require Import Spec.ReadSpec.
Local Open Scope string_scope.

(** Every keyword is an attribute of an axis and every value a number. *)
Definition good_keywords (kws : jdict) : Prop :=
  NoDup (map fst kws) /\ forall k v, In (k, v) kws -> In k ["low"; "high"; "bins"] /\ as_number v <> None.
(** The attributes given have the values given, the others those they had. *)
Definition axis_with (kws : jdict) (p p' : spar) : Prop :=
  match dget "low" kws with Some v => as_number v = Some (sp_low p') | None => sp_low p' = sp_low p end /\
  match dget "high" kws with Some v => as_number v = Some (sp_high p') | None => sp_high p' = sp_high p end /\
  match dget "bins" kws with Some v => as_count v = Some (sp_bins p') | None => sp_bins p' = sp_bins p end.
(** A keyword that cannot be set. *)
Definition bad_keyword (kv : string * jval) (e : exn) : Prop :=
  (~ In (fst kv) ["low"; "high"; "bins"] /\ e = ETypeError) \/ (In (fst kv) ["low"; "high"; "bins"] /\ not_number (snd kv) = Some e).

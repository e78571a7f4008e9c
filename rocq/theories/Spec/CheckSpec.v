(** What the checks of parameter values should tell. *)
From Coq Require Import Reals.
From Verif Require Import Model.Base Model.FitGrid Model.Check.
Local Open Scope R_scope.

(** A value inside the bounds of the parameter. *)
Definition allowed (c : checked) (v : R) : Prop :=
  (forall m, ck_min c = Some m -> m <= v) /\ (forall m, ck_max c = Some m -> v <= m).
(** [n] of the values of a list do not have the property. *)
Inductive fail (P : R -> Prop) : list R -> nat -> Prop :=
| fail_nil : fail P [] 0
| fail_good : forall v l n, P v -> fail P l n -> fail P (v :: l) n
| fail_bad : forall v l n, ~ P v -> fail P l n -> fail P (v :: l) (S n).
(** The value is the prior, up to a relative error of 5e-13. *)
Definition as_prior (prior v : R) : Prop :=
  prior <> 0 /\ Rabs (v - prior) <= Rabs prior * (5 / IZR (10 ^ 13)).
(** A parameter whose values can be built and about which nothing is warned. *)
Definition quiet (c : checked) : Prop := check_values false c = ([], None).

(** The name of a parameter of a spectrum in the configuration of the fit. *)
Definition full (s n : string) : string := (s ++ "_" ++ n)%string.
(** Nothing is warned about the parameters of the floating backgrounds; a name is none of
    theirs. *)
Definition floats_quiet (floats : list (string * option (list (string * checked)))) : Prop :=
  forall s ps n c, In (s, Some ps) floats -> In (n, c) ps -> quiet c.
Definition not_float (floats : list (string * option (list (string * checked)))) (m : string) : Prop :=
  forall s ps n c, In (s, Some ps) floats -> In (n, c) ps -> m <> full s n.

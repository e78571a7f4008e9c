(** Specification vocabulary for test statistics. *)
From Coq Require Import Reals.
From Verif Require Import Model.Base Model.TestStat.
Local Open Scope R_scope.

(** A one-dimensional array. *)
Definition vec1 (l : list R) : arr := Arr [length l] l.
(** The answer of compute_statistic on one-dimensional arrays, and the arrays afterwards. *)
Definition answer (t : tstat) (per_bin : bool) (o e : list R) : res sresult :=
  snd (compute_statistic t per_bin (vec1 o) (vec1 e)).
Definition afterwards (t : tstat) (per_bin : bool) (o e : list R) : arr * arr :=
  fst (compute_statistic t per_bin (vec1 o) (vec1 e)).

(** Sum over the bins of a function of observed and expected. *)
Fixpoint sum2 (f : R -> R -> R) (o e : list R) : R :=
  match o, e with
  | a :: o', b :: e' => f a b + sum2 f o' e'
  | _, _ => 0
  end.
(** All values are at least the smallest positive value the code distinguishes from 0. *)
Definition regular (l : list R) : Prop := Forall (fun x => / 10 ^ 34 <= x) l.
(** Zero or regular. *)
Definition zero_or_regular (l : list R) : Prop := Forall (fun x => x = 0 \/ / 10 ^ 34 <= x) l.

(** The Poisson deviance term, and the textbook chi-squared terms. *)
Definition deviance (o e : R) : R := e - o + o * ln (o / e).
Definition chi2_term (o e var : R) : R := (o - e) * (o - e) / var.

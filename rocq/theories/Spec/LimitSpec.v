(** Vocabulary for limit setting. *)
From Verif Require Import Model.Base Model.NDArray Model.Minimise Model.Limit Spec.ArraySpec.

(** The total of the i-th entry of an array (the entry itself if the array is 1-d). *)
Definition entry_total (a : ndarray) (i : nat) : Qc :=
  total (tl (ashape a)) (fun j => aget a (i :: j)).

(** [i] is the first position from [b] on, below [n], at which [f] exceeds the threshold. *)
Definition first_crossing (f : nat -> Qc) (b n : nat) (limit : Qc) (i : nat) : Prop :=
  b <= i < n /\ (limit < f i)%Qc /\ forall j, b <= j < i -> (f j <= limit)%Qc.
(** [b] is the first position below [n] of the smallest value of [f]. *)
Definition first_least (f : nat -> Qc) (n b : nat) : Prop :=
  b < n /\ (forall j, j < n -> (f b <= f j)%Qc) /\ (forall j, j < b -> (f b < f j)%Qc).

(** The fits made for a list of scalings, in order, from a state of the fitter; a scaling
    close to zero is fitted without signal. *)
Fixpoint fits_made {St} (fit : St -> option Qc -> St * res fitout) (s : St) (l : list Qc) (s' : St) (fs : list fitout) : Prop :=
  match l, fs with
  | [], [] => s' = s
  | x :: l', f :: fs' =>
      exists s1, fit s (if isclose x 0 then None else Some x) = (s1, Ok f) /\ fits_made fit s1 l' s' fs'
  | _, _ => False
  end.
Definition stat_of (f : fitout) : Qc := match fo_stat f with RNum x => x | RArr a => aget a [] end.
Definition penalty_of (f : fitout) : Qc := match fo_pens f with Some ps => fold_right Qcplus 0%Qc ps | None => 0%Qc end.
Definition number (f : fitout) : Prop := exists x, fo_stat f = RNum x.
Definition nofit : fitout := FitOut (RNum 0%Qc) None.

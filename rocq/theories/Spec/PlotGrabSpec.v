(** Errors of arrays, independent of how they are calculated. *)
From Coq Require Import Reals.
From Verif Require Import Model.Base Model.NDArray Model.PlotGrab.
Local Open Scope R_scope.

(** An array of numbers of the given shape, contents in C order. *)
Definition numbers (sh : list nat) (l : list R) : xarray := XA sh (map Fin l).
(** The error of a value: what is added to it, linearly or on a logarithmic scale. *)
Definition err_lin (e x : R) : R := e.
Definition err_log (e x : R) : R := x * exp e - x.
Definition err_log10 (e x : R) : R := x * Rpower 10 e - x.
(** No error is given: neither kind, or zero. *)
Definition no_err (o : option R) : Prop := o = None \/ o = Some 0.
Definition total (l : list R) : R := fold_right Rplus 0 l.

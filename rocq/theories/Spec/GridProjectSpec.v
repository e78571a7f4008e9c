(** Specification vocabulary for C88: which axes are asked for. *)
From Verif Require Import Model.Base Model.NDArray Model.FitParam Model.Minimise.
From Verif Require Import Spec.ArraySpec Spec.SearchSpec.

(** The positions of those of the [names] that are among the [parameters]. *)
Definition listed_axes (names parameters : list string) : list nat :=
  filter (fun i => if in_dec string_dec (nth i names ""%string) parameters then true else false) (seq 0 (length names)).
(** The statistic of a grid point: the total over the bins. *)
Definition point_total (g : gsearch) (i : list nat) : Qc :=
  total (answer_shape (gs_per_bin g) (gs_spec g)) (fun j => aget (gs_stats g) (i ++ j)).

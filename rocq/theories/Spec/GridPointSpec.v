(** Specification vocabulary for C87: reading and writing the arrays of a grid search. *)
From Verif Require Import Model.Base Model.NDArray Model.FitParam Model.Minimise.
From Verif Require Import Spec.ArraySpec Spec.SearchSpec.

(** The arrays of a search have the shape of its parameters, the statistics also that of the
    spectra if they are kept per bin. *)
Definition grid_shaped (g : gsearch) : Prop :=
  ashape (gs_stats g) = fit_shape (gs_pars g) ++ answer_shape (gs_per_bin g) (gs_spec g) /\
  ashape (gs_pen g) = fit_shape (gs_pars g).
(** Indices into the first axes of an array. *)
Definition inside (sh idx : list nat) : Prop := exists a b, sh = a ++ b /\ valid_idx a idx.
(** A search without parameters takes no index at all. *)
Definition allowed (g : gsearch) (sh idx : list nat) : Prop := inside sh idx /\ (gs_pars g = [] -> idx = []).

(** numpy's rule for assigning an array of the shape [v] to a part with the shape [sub]; both
    from the last axis to the first.  Sizes agree, or the value has size 1 and is repeated; axes
    the value lacks repeat it too; further axes of the value have size 1. *)
Inductive assignable : list nat -> list nat -> Prop :=
| as_all : forall sub, assignable [] sub
| as_extra : forall v, Forall (eq 1%nat) v -> assignable v []
| as_axis : forall n m v sub, n = m \/ n = 1%nat -> assignable v sub -> assignable (n :: v) (m :: sub).
(** Position [i] of the value is written to position [j] of the part; again from the last axis. *)
Inductive supplies : list nat -> list nat -> list nat -> Prop :=
| su_all : forall j, supplies [] j []
| su_extra : forall v, Forall (eq 1%nat) v -> supplies v [] (map (fun _ => 0%nat) v)
| su_one : forall v x j i, supplies v j i -> supplies (1%nat :: v) (x :: j) (0%nat :: i)
| su_same : forall n v x j i, n <> 1%nat -> supplies v j i -> supplies (n :: v) (x :: j) (x :: i).

(** Everything of a search but the statistics, or but the penalties. *)
Definition same_but_stats (g g' : gsearch) : Prop :=
  gs_name g' = gs_name g /\ gs_resets g' = gs_resets g /\ gs_per_bin g' = gs_per_bin g /\ gs_use_numpy g' = gs_use_numpy g /\
  gs_pars g' = gs_pars g /\ gs_spec g' = gs_spec g /\ gs_pen g' = gs_pen g.
Definition same_but_penalties (g g' : gsearch) : Prop :=
  gs_name g' = gs_name g /\ gs_resets g' = gs_resets g /\ gs_per_bin g' = gs_per_bin g /\ gs_use_numpy g' = gs_use_numpy g /\
  gs_pars g' = gs_pars g /\ gs_spec g' = gs_spec g /\ gs_stats g' = gs_stats g.
(** Everything but the values of the two arrays. *)
Definition unchanged_but_arrays (g g' : gsearch) : Prop :=
  grid_shaped g' /\ gs_pars g' = gs_pars g /\ gs_per_bin g' = gs_per_bin g /\ gs_spec g' = gs_spec g /\ gs_name g' = gs_name g /\ gs_resets g' = gs_resets g /\ gs_use_numpy g' = gs_use_numpy g.

(** ** Histories of writes *)
Inductive write := WStat (v : ndarray) (idx : list nat) | WPenalty (x : Qc) (idx : list nat) | WStats (a : ndarray) | WPenalties (a : ndarray).
(** A refused write leaves the search as it was. *)
Definition written (g : gsearch) (w : write) : gsearch :=
  match match w with WStat v idx => set_stat g v idx | WPenalty x idx => set_penalty g x idx | WStats a => set_stats g a | WPenalties a => set_penalty_terms g a end
  with Ok g' => g' | Err _ => g end.
Definition all_written (g : gsearch) (ws : list write) : gsearch := fold_left written ws g.
(** The write [w] is accepted and concerns the penalty at [p]; [F] is the shape of the grid. *)
Definition penalty_touched (F : list nat) (w : write) (p : list nat) : Prop :=
  match w with WPenalty _ idx => inside F idx /\ exists t, p = idx ++ t | WPenalties a => ashape a = F | _ => False end.
(** The penalty at [p] after the writes, the newest being last. *)
Inductive last_penalty (F p : list nat) : list write -> Qc -> Prop :=
| lp_none : last_penalty F p [] 0%Qc
| lp_point : forall ws x idx, penalty_touched F (WPenalty x idx) p -> last_penalty F p (ws ++ [WPenalty x idx]) x
| lp_all : forall ws a, penalty_touched F (WPenalties a) p -> last_penalty F p (ws ++ [WPenalties a]) (aget a p)
| lp_other : forall ws w x, ~ penalty_touched F w p -> last_penalty F p ws x -> last_penalty F p (ws ++ [w]) x.
(** The same for the statistics, whose array has the shape [T]; [free] says that the search has
    parameters. *)
Definition stat_touched (T : list nat) (free : Prop) (w : write) (p : list nat) : Prop :=
  match w with
  | WStat v idx => inside T idx /\ (~ free -> idx = []) /\ assignable (rev (ashape v)) (rev (skipn (length idx) T)) /\ exists t, p = idx ++ t
  | WStats a => ashape a = T
  | _ => False
  end.
Inductive last_stat (T p : list nat) (free : Prop) : list write -> Qc -> Prop :=
| ls_none : last_stat T p free [] 0%Qc
| ls_point : forall ws v idx t i, stat_touched T free (WStat v idx) p -> p = idx ++ t -> supplies (rev (ashape v)) (rev t) (rev i) ->
    last_stat T p free (ws ++ [WStat v idx]) (aget v i)
| ls_all : forall ws a, stat_touched T free (WStats a) p -> last_stat T p free (ws ++ [WStats a]) (aget a p)
| ls_other : forall ws w x, ~ stat_touched T free w p -> last_stat T p free ws x -> last_stat T p free (ws ++ [w]) x.

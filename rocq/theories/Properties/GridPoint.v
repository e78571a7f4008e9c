(** C87: values set in a grid search are the ones read back. *)
From Verif Require Import Model.Base Model.PyStr Model.NDArray Model.Param Model.Spectra Model.FitParam Model.Minimise.
From Verif Require Import Spec.ArraySpec Spec.SearchSpec Spec.GridPointSpec.
From Verif Require Import Proofs.QcLemmas Proofs.MinimiseLemmas Proofs.SearchLemmas Proofs.GridPointLemmas.
Open Scope string_scope.
Open Scope list_scope.

(** set_stat with indices of the first axes: the value, a number or an array, is repeated over the
    part as numpy does; every other position, the penalties and the settings stay. *)
Theorem C87_set_stat : forall g v idx, grid_shaped g -> allowed g (ashape (gs_stats g)) idx ->
  assignable (rev (ashape v)) (rev (skipn (length idx) (ashape (gs_stats g)))) ->
  exists g', set_stat g v idx = Ok g' /\ grid_shaped g' /\ same_but_stats g g' /\
    (forall t i, valid_idx (ashape (gs_stats g)) (idx ++ t) -> supplies (rev (ashape v)) (rev t) (rev i) -> aget (gs_stats g') (idx ++ t) = aget v i) /\
    (forall j, (forall t, j <> idx ++ t) -> aget (gs_stats g') j = aget (gs_stats g) j).
Proof. exact set_stat_ok_l. Qed.
(** Everything else is refused: indices outside with an IndexError, values that do not fit with a
    ValueError. *)
Theorem C87_set_stat_refused : forall g v idx,
  (~ allowed g (ashape (gs_stats g)) idx -> set_stat g v idx = Err EIndexError) /\
  (grid_shaped g -> allowed g (ashape (gs_stats g)) idx -> ~ assignable (rev (ashape v)) (rev (skipn (length idx) (ashape (gs_stats g)))) ->
   set_stat g v idx = Err EValueError).
Proof. intros g v idx. split; [apply set_stat_index_l|apply set_stat_value_l]. Qed.
(** set_penalty_term. *)
Theorem C87_set_penalty : forall g x idx, grid_shaped g ->
  (inside (ashape (gs_pen g)) idx -> exists g', set_penalty g x idx = Ok g' /\ grid_shaped g' /\ same_but_penalties g g' /\
     (forall t, valid_idx (ashape (gs_pen g)) (idx ++ t) -> aget (gs_pen g') (idx ++ t) = x) /\
     (forall j, (forall t, j <> idx ++ t) -> aget (gs_pen g') j = aget (gs_pen g) j)) /\
  (~ inside (ashape (gs_pen g)) idx -> set_penalty g x idx = Err EIndexError).
Proof. exact set_penalty_l. Qed.
(** set_stats and set_penalty_terms take arrays of exactly the shape of the search. *)
Theorem C87_set_arrays : forall g a, grid_shaped g ->
  (ashape a = ashape (gs_stats g) -> exists g', set_stats g a = Ok g' /\ grid_shaped g' /\ same_but_stats g g' /\ gs_stats g' = a) /\
  (ashape a <> ashape (gs_stats g) -> set_stats g a = Err EValueError) /\
  (ashape a = ashape (gs_pen g) -> exists g', set_penalty_terms g a = Ok g' /\ grid_shaped g' /\ same_but_penalties g g' /\ gs_pen g' = a) /\
  (ashape a <> ashape (gs_pen g) -> set_penalty_terms g a = Err EValueError).
Proof. intros g a G. destruct (set_stats_l g a G) as (A & B), (set_penalties_l g a G) as (C & D). auto. Qed.
(** get_raw_stat and get_penalty_term give the part of the array that the indices select. *)
Theorem C87_get : forall g idx, grid_shaped g ->
  (inside (ashape (gs_stats g)) idx -> exists b, get_raw_stat g idx = Ok b /\ ashape b = skipn (length idx) (ashape (gs_stats g)) /\ forall t, aget b t = aget (gs_stats g) (idx ++ t)) /\
  (~ inside (ashape (gs_stats g)) idx -> get_raw_stat g idx = Err EIndexError) /\
  (inside (ashape (gs_pen g)) idx -> exists b, get_penalty_term_at g idx = Ok b /\ ashape b = skipn (length idx) (ashape (gs_pen g)) /\ forall t, aget b t = aget (gs_pen g) (idx ++ t)) /\
  (~ inside (ashape (gs_pen g)) idx -> get_penalty_term_at g idx = Err EIndexError).
Proof. intros g idx G. destruct (raw_l g idx) as (A & B), (penalty_l g idx G) as (C & D). auto. Qed.
(** get_stat adds the penalty to the statistic summed over the bins. *)
Theorem C87_get_stat : forall g idx, grid_shaped g ->
  (inside (fit_shape (gs_pars g)) idx -> exists b, get_stat g idx = Ok b /\ ashape b = skipn (length idx) (fit_shape (gs_pars g)) /\
     forall t, valid_idx (ashape b) t -> aget b t = (total (answer_shape (gs_per_bin g) (gs_spec g)) (fun j => aget (gs_stats g) (idx ++ t ++ j)) + aget (gs_pen g) (idx ++ t))%Qc) /\
  (~ inside (fit_shape (gs_pars g)) idx -> exists e, get_stat g idx = Err e).
Proof. exact get_stat_l. Qed.
(** After any history of writes on a new search each position holds the last accepted value that
    was written to it, or 0. *)
Theorem C87_history : forall ps spec name per_bin use_numpy ws,
  let g := new_search ps spec name per_bin use_numpy in
  let g' := all_written g ws in
  unchanged_but_arrays g g' /\
  (forall p, valid_idx (ashape (gs_pen g)) p -> last_penalty (ashape (gs_pen g)) p ws (aget (gs_pen g') p)) /\
  (forall p, valid_idx (ashape (gs_stats g)) p -> last_stat (ashape (gs_stats g)) p (gs_pars g <> []) ws (aget (gs_stats g') p)).
Proof. exact all_written_l. Qed.

(** Three values of one parameter, two of the other, spectra of four bins. *)
Definition p87 : list fpar :=
  [FPar "a" 1 (Some 1%Qc) 0 (zq 2) 3 None None None None None None None None; FPar "b" (zq 5) None (zq 5) (zq 7) 2 None None None None None None None None].
Definition g87 : gsearch := new_search p87 [4] (Some "fit") true true.
Definition v87 : ndarray := ND [4] (fun i => nq (1 + nth 0 i 0)).
Definition w87 : list write := [WStat v87 [2; 1]; WPenalty (zq 5) [2]; WStat (ND [1; 1] (fun _ => zq 9)) [0]; WPenalty (zq 7) [2; 0]; WPenalty 1%Qc [3; 0]].
Example C87_sat : grid_shaped g87 /\ allowed g87 (ashape (gs_stats g87)) [2; 1] /\ assignable (rev (ashape v87)) (rev (skipn 2 (ashape (gs_stats g87)))) /\
  (let g := all_written g87 w87 in
   map (fun p => this (aget (gs_stats g) p)) [[2; 1; 0]; [2; 1; 3]; [0; 1; 2]; [1; 1; 2]] = map (fun n => this (zq n)) [1; 4; 9; 0]%Z /\
   map (fun p => this (aget (gs_pen g) p)) [[2; 0]; [2; 1]; [0; 0]] = map (fun n => this (zq n)) [7; 5; 0]%Z /\
   rmap (fun b => (ashape b, this (aget b [0]), this (aget b [1]))) (get_stat g [2]) = Ok ([2], this (zq 7), this (zq 15))) /\
  set_penalty g87 1%Qc [3; 0] = Err EIndexError /\ set_stat g87 (ND [3] (fun _ => 0%Qc)) [2; 1] = Err EValueError.
Proof.
  split; [apply new_shaped|]. split; [split; [exists [3; 2], [4]; split; [reflexivity|repeat constructor]|discriminate]|].
  split; [cbn; repeat constructor; auto|]. split; [vm_compute; repeat split; reflexivity|]. split; reflexivity.
Qed.

Print Assumptions C87_set_stat.
Print Assumptions C87_set_stat_refused.
Print Assumptions C87_set_penalty.
Print Assumptions C87_set_arrays.
Print Assumptions C87_get.
Print Assumptions C87_get_stat.
Print Assumptions C87_history.

(** C74: a picture of the results of a grid fit shows the statistics and penalties the fit recorded.
    Missing for the full statement: tables for fits that do not have exactly two parameters, graphs
    for fits with more than one, slices chosen by keyword and the per-bin picture with its dimensions
    in the order of the configuration; all are refuted below. *)
From Coq Require Import Lia.
From Verif Require Import Model.Base Model.PyStr Model.NDArray Model.Param Model.Config Model.Spectra Model.FitParam Model.Minimise.
From Verif Require Import Model.FitConfig Model.ConfigFile Model.Store Model.Plot Model.Results.
From Verif Require Import Spec.ArraySpec Spec.SearchSpec Spec.PlotSpec Spec.FitPictureSpec.
From Verif Require Import Proofs.FitPictureLemmas.
Local Open Scope string_scope.

(** Tables of the statistic over two parameters, in either order. *)
Theorem C74_raw_table_partial : forall lg f l1 l2 R P n1 n2 e1 e2,
  grid_results lg f [l1; l2] R P -> gc_pars (fr_fit f) = [(n1, e1); (n2, e2)] ->
  let a1 := axis_of (cp_par (ge_par e1)) in let a2 := axis_of (cp_par (ge_par e2)) in
  exists h h',
  plot_raw_stats_vs_pars f n1 n2 [] = Ok h /\ shows2 h a1 a2 (fun i j => stat_at f R [i; j]) /\
  plot_raw_stats_vs_pars f n2 n1 [] = Ok h' /\ shows2 h' a2 a1 (fun i j => stat_at f R [j; i]).
Proof. exact two_raw_l. Qed.
(** The same with the penalties added. *)
Theorem C74_table_partial : forall lg f l1 l2 R P n1 n2 e1 e2,
  grid_results lg f [l1; l2] R P -> gc_pars (fr_fit f) = [(n1, e1); (n2, e2)] -> Forall distinguishable [l1; l2] ->
  let a1 := axis_of (cp_par (ge_par e1)) in let a2 := axis_of (cp_par (ge_par e2)) in
  exists h h',
  plot_stats_vs_pars lg f n1 n2 [] = Ok h /\ shows2 h a1 a2 (fun i j => stat_at f R [i; j] + P [i; j])%Qc /\
  plot_stats_vs_pars lg f n2 n1 [] = Ok h' /\ shows2 h' a2 a1 (fun i j => stat_at f R [j; i] + P [j; i])%Qc.
Proof. exact two_stats_l. Qed.
(** Graphs of a fit with one parameter. *)
Theorem C74_graph_partial : forall lg f l R P n e, grid_results lg f [l] R P -> gc_pars (fr_fit f) = [(n, e)] ->
  plot_raw_stats_vs_par_scale lg f n [] = Ok (List.combine l (map (fun i => stat_at f R [i]) (seq 0 (length l)))) /\
  plot_stats_vs_par_scale lg f n = Ok (List.combine l (map (fun i => stat_at f R [i] + P [i])%Qc (seq 0 (length l)))) /\
  plot_penalty_term_vs_par_scale lg f n = Ok (List.combine l (map (fun i => P [i]) (seq 0 (length l)))).
Proof. exact one_l. Qed.
(** The statistic in each bin of a one-dimensional spectrum, at chosen values and at the best fit. *)
Theorem C74_per_bin : forall lg f ls R P idx d p,
  grid_results lg f ls R P -> valid_idx (map (@length Qc) ls) idx -> Forall distinguishable ls ->
  fr_spec f = [(d, p)] -> gs_per_bin (fr_search f) = true -> gs_spec (fr_search f) = [Z.to_nat (sp_bins p)] -> (1 < sp_bins p)%Z ->
  exists h, plot_per_bin lg f false d None (keywords (gs_pars (fr_search f)) ls idx) = Ok (Pic1 h) /\
    shows h p (fun k => content (R idx) [k]) /\
    (best_at f ls idx -> plot_per_bin lg f true d None [] = Ok (Pic1 h)).
Proof. exact per_bin_one_l. Qed.
(** ... and of a two-dimensional one, if the second dimension is drawn along x. *)
Theorem C74_per_bin_surface_partial : forall lg f ls R P idx d1 q1 d2 q2,
  grid_results lg f ls R P -> valid_idx (map (@length Qc) ls) idx -> Forall distinguishable ls ->
  fr_spec f = [(d1, q1); (d2, q2)] -> d1 <> d2 -> gs_per_bin (fr_search f) = true ->
  gs_spec (fr_search f) = [Z.to_nat (sp_bins q1); Z.to_nat (sp_bins q2)] -> (1 < sp_bins q1)%Z -> (1 < sp_bins q2)%Z ->
  exists h, plot_per_bin lg f false d2 (Some d1) (keywords (gs_pars (fr_search f)) ls idx) = Ok (Pic2 h) /\
    shows2 h q2 q1 (fun i j => content (R idx) [j; i]) /\
    (best_at f ls idx -> plot_per_bin lg f true d2 (Some d1) [] = Ok (Pic2 h)).
Proof. exact per_bin_two_l. Qed.

(** Fits without exactly two parameters: no table, whatever is asked for. *)
Theorem C74_table_refuted : forall lg f ls R P, grid_results lg f ls R P -> length ls <> 2 -> forall a b kw,
  is_ok (plot_raw_stats_vs_pars f a b kw) = false /\ is_ok (plot_stats_vs_pars lg f a b kw) = false.
Proof. exact not_two_l. Qed.
(** A keyword that fixes a parameter: no picture. *)
Theorem C74_keyword_refuted : forall lg f ls R P, grid_results lg f ls R P -> forall a b n v kw,
  In n (gc_get_pars (fr_fit f)) -> dget n kw = Some v ->
  is_ok (plot_raw_stats_vs_pars f a b kw) = false /\ is_ok (plot_stats_vs_pars lg f a b kw) = false /\
  is_ok (plot_raw_stats_vs_par_scale lg f a kw) = false.
Proof. exact named_kw_l. Qed.
(** Graphs of a fit with two parameters: the points are the first entries of the whole table, whichever
    parameter is asked for. *)
Theorem C74_graph_refuted : forall lg f l1 l2 R P n1 n2 e1 e2,
  grid_results lg f [l1; l2] R P -> gc_pars (fr_fit f) = [(n1, e1); (n2, e2)] ->
  let m := length l2 in
  forall par l, (par = n1 /\ l = l1) \/ (par = n2 /\ l = l2) ->
  plot_raw_stats_vs_par_scale lg f par [] = Ok (List.combine l (map (fun k => stat_at f R [k / m; k mod m]%nat) (seq 0 (length l)))) /\
  plot_stats_vs_par_scale lg f par =
    Ok (List.combine l (map (fun k => stat_at f R [k / m; k mod m]%nat + P [k / m; k mod m]%nat)%Qc (seq 0 (length l)))).
Proof. exact two_graphs_l. Qed.
(** Its penalties: those at the first value of the first parameter for the one, and at its second value
    for the other, or an error. *)
Theorem C74_penalty_refuted : forall lg f l1 l2 R P n1 n2 e1 e2,
  grid_results lg f [l1; l2] R P -> gc_pars (fr_fit f) = [(n1, e1); (n2, e2)] ->
  let m := length l2 in
  (length l1 <= m -> plot_penalty_term_vs_par_scale lg f n1 = Ok (List.combine l1 (map (fun k => P [0; k]) (seq 0 (length l1)))))%nat /\
  (m < length l1 -> is_ok (plot_penalty_term_vs_par_scale lg f n1) = false)%nat /\
  (1 < length l1 -> plot_penalty_term_vs_par_scale lg f n2 = Ok (List.combine l2 (map (fun k => P [1; k]) (seq 0 m))))%nat /\
  (length l1 = 1 -> is_ok (plot_penalty_term_vs_par_scale lg f n2) = false)%nat.
Proof. exact two_penalty_l. Qed.

(** Two parameters with two and three values, a spectrum of two by three bins. *)
Definition fpa : fpar := FPar "a" 0 (Some 1%Qc) 0 1 2 None (Some [0; 1]%Qc) None (Some 0%Qc) (Some 0%Qc) None None None.
Definition fpb : fpar := FPar "b" 0 None 0 (zq 2) 3 None (Some [0; 1; zq 2]%Qc) None (Some (zq 2)) (Some 0%Qc) None None None.
Definition fcfg : gconfig := GC "fit" [("a", GE (CPar PRate fpa) false); ("b", GE (CPar PRate fpb) false)].
Definition fspec : sconfig := [("energy_mc", SPar 0 1 2); ("radial_mc", SPar 0 1 3)].
Definition fdemo : fresults :=
  FR (GS (Some "g") 0 true true [fpa; fpb] [2; 3]
       (ND [2; 3; 2; 3] (fun idx => match idx with [i; j; k; l] => nq (1000 * i + 100 * j + 10 * k + l) | _ => 0%Qc end))
       (ND [2; 3] (fun idx => match idx with [i; j] => nq (7 * i + 2 * j) | _ => 0%Qc end))) fcfg fspec "c".
Definition nolog : fpar -> res (list Qc) := fun _ => Err EException.
Definition fls : list (list Qc) := [[0; 1]; [0; 1; zq 2]]%Qc.
Lemma fdemo_results : grid_results nolog fdemo fls (raw_of fdemo) (aget (gs_pen (fr_search fdemo))).
Proof.
  apply own_results; try reflexivity.
  - repeat constructor; cbn; intuition discriminate.
  - repeat constructor; cbn; intros H; repeat destruct H as [H|H]; try (apply (f_equal this) in H; vm_compute in H; discriminate H); exact H.
  - split; reflexivity.
  - repeat constructor; discriminate.
Qed.

Example C74_ex :
  (let h := plot_stats_vs_pars nolog fdemo "b" "a" [] in
   rmap (fun h => (this (h2_at h 3 2), this (h2_at h 4 2))) h = Ok (7247, 0)%Q) /\
  Forall distinguishable fls /\ best_at fdemo fls [0; 2] /\
  match plot_per_bin nolog fdemo true "radial_mc" (Some "energy_mc") [] with
  | Ok (Pic2 h) => map (fun i => this (h2_at h i 2)) [0; 1; 2; 3; 4]%Z = [0; 210; 211; 212; 0]%Q
  | _ => False
  end.
Proof.
  split; [vm_compute; reflexivity|]. split; [|split; [|vm_compute; reflexivity]].
  - repeat constructor; intros i j [H1 H2]; cbn in H2;
    repeat (destruct j as [|j]; [try (exfalso; lia)|]; try (exfalso; lia));
    repeat (destruct i as [|i]; [try (vm_compute; reflexivity)|]; try (exfalso; lia)).
  - repeat constructor; discriminate.
Qed.
(** The per-bin picture with the dimensions in the order of the configuration: transposed, and the entries
    of the third column fall into the overflow. *)
Theorem C74_per_bin_surface_refuted :
  match plot_per_bin nolog fdemo true "energy_mc" (Some "radial_mc") [] with
  | Ok (Pic2 h) =>
      map (fun y => map (fun x => this (h2_at h x y)) [1; 2; 3]%Z) [1; 2; 3]%Z
        = [[200; 201; 202]; [210; 211; 212]; [0; 0; 0]]%Q
  | _ => False
  end /\
  (forall k l, (k < 2)%nat -> (l < 3)%nat -> this (content (raw_of fdemo [0; 2]) [k; l]) = this (nq (200 + 10 * k + l))).
Proof.
  split; [vm_compute; reflexivity|]. intros k l K L.
  repeat (destruct k as [|k]; [|try (exfalso; lia)]); repeat (destruct l as [|l]; [|try (exfalso; lia)]); vm_compute; reflexivity.
Qed.
(** The graph for "a" of the results above: the values of "b" at the first value of "a". *)
Theorem C74_graph_witness_refuted :
  rmap (map (fun xy => (this (fst xy), this (snd xy)))) (plot_stats_vs_par_scale nolog fdemo "a") = Ok [(0, 36); (1, 638)]%Q /\
  map (fun i => this (stat_at fdemo (raw_of fdemo) [i; 0])) [0; 1]%nat = [36; 6036]%Q /\
  rmap (map (fun xy => this (snd xy))) (plot_penalty_term_vs_par_scale nolog fdemo "a") = Ok [0; 2]%Q /\
  map (fun i => this (aget (gs_pen (fr_search fdemo)) [i; 0])) [0; 1]%nat = [0; 7]%Q.
Proof. repeat split; vm_compute; reflexivity. Qed.

Print Assumptions C74_raw_table_partial.
Print Assumptions C74_table_partial.
Print Assumptions C74_graph_partial.
Print Assumptions C74_per_bin.
Print Assumptions C74_per_bin_surface_partial.
Print Assumptions C74_table_refuted.
Print Assumptions C74_keyword_refuted.
Print Assumptions C74_graph_refuted.
Print Assumptions C74_penalty_refuted.
Print Assumptions C74_per_bin_surface_refuted.
Print Assumptions C74_graph_witness_refuted.

(** C88: projections of the statistics of a grid search on named parameters. *)
From Verif Require Import Model.Base Model.PyStr Model.NDArray Model.Param Model.Spectra Model.FitParam Model.Minimise Model.GridProject.
From Verif Require Import Spec.ArraySpec Spec.SpectraSpec Spec.SearchSpec Spec.GridPointSpec Spec.GridProjectSpec.
From Verif Require Import Proofs.GridPointLemmas Proofs.GridProjectLemmas.
Local Open Scope string_scope.

(** C88 does not hold of the module as it is: it uses the name [itertools], which it does not import, so
    that no projection is ever returned (a NameError, EException in the model). *)
Theorem C88_refuted : forall (g : gsearch) (spectral parameters : list string) (indices : list nat),
  grid_shaped g -> ~ In "itertools" module_names /\
  nd_project_stats module_names g spectral parameters = Err EException /\
  (parameters <> [] \/ inside (ashape (gs_stats g)) indices -> nd_project_stat module_names g spectral indices parameters = Err EException) /\
  (parameters = [] -> ~ inside (ashape (gs_stats g)) indices -> nd_project_stat module_names g spectral indices parameters = Err EIndexError).
Proof.
  intros g sn ps idx G. destruct (project_none_l g sn ps idx G) as (A & B). split; [cbn; intuition discriminate|]. split; [exact A|]. rewrite B. split.
  - intros [N|I]; [destruct ps; [contradiction|reflexivity]|]. rewrite (proj2 (prefix_inside idx _) I). now destruct ps.
  - intros -> N. destruct (prefix_ok idx _) eqn:E; [apply prefix_inside in E; contradiction|reflexivity].
Qed.

(** The rest is about the module once the name is bound, by an import or by an assignment from outside.
    A name that is neither a fit parameter nor a spectral one is refused by both. *)
Theorem C88_unknown : forall (globals : list string) (g : gsearch) (spectral parameters : list string) (indices : list nat) (p : string),
  In "itertools" globals -> In p parameters -> ~ In p (map fp_name (gs_pars g)) -> ~ In p spectral ->
  nd_project_stats globals g spectral parameters = Err EIndexError /\ nd_project_stat globals g spectral indices parameters = Err EIndexError.
Proof.
  intros gl g sn ps idx p B I N1 N2. unfold nd_project_stats, nd_project_stat.
  rewrite (check_err gl g sn ps p B I) by (intro X; apply in_app_or in X as [X|X]; auto). now split.
Qed.

(** The part that holds then: when every spectral parameter is among the names, nd_project_stats is
    the projection of the statistics, summed over bins, onto the fit parameters named. *)
Theorem C88_stats_partial : forall (globals : list string) (g : gsearch) (spectral parameters : list string),
  In "itertools" globals -> grid_shaped g -> (forall p, In p parameters -> In p (map fp_name (gs_pars g) ++ spectral)%list) -> (forall n, In n spectral -> In n parameters) ->
  exists a, nd_project_stats globals g spectral parameters = Ok a /\
    is_marginal (fit_shape (gs_pars g)) (point_total g) (listed_axes (map fp_name (gs_pars g)) parameters) (ashape a) (aget a).
Proof. intros gl g sn ps B G K A. exact (proj1 (project_stats_l gl g sn ps B G K) A). Qed.

(** As soon as one spectral parameter is left out nothing is projected: numpy refuses the axis. *)
Theorem C88_stats_refuted : forall (globals : list string) (g : gsearch) (spectral parameters : list string) (n : string),
  In "itertools" globals -> grid_shaped g -> (forall p, In p parameters -> In p (map fp_name (gs_pars g) ++ spectral)%list) -> In n spectral -> ~ In n parameters ->
  nd_project_stats globals g spectral parameters = Err EAxisError.
Proof. intros gl g sn ps n B G K I N. exact (proj2 (project_stats_l gl g sn ps B G K) n I N). Qed.

(** What nd_project_stat computes: the k-th parameter left out, at place i among fit and spectral
    parameters together, makes it sum axis i + k of the array of the grid point. *)
Theorem C88_stat : forall (globals : list string) (g : gsearch) (spectral parameters : list string) (indices : list nat),
  In "itertools" globals -> (forall p, In p parameters -> In p (map fp_name (gs_pars g) ++ spectral)%list) ->
  let names := (map fp_name (gs_pars g) ++ spectral)%list in
  let rank := (length (ashape (gs_stats g)) - length indices)%nat in
  let summed := drift 0 (axes_except (length names) (listed_axes names parameters)) in
  (inside (ashape (gs_stats g)) indices ->
    (Forall (fun x => x < rank) summed -> exists a, nd_project_stat globals g spectral indices parameters = Ok a /\
       is_marginal (skipn (length indices) (ashape (gs_stats g))) (fun j => aget (gs_stats g) (indices ++ j)%list) (axes_except rank summed) (ashape a) (aget a)) /\
    (Exists (fun x => rank <= x) summed -> nd_project_stat globals g spectral indices parameters = Err EAxisError)) /\
  (~ inside (ashape (gs_stats g)) indices -> nd_project_stat globals g spectral indices parameters = Err EIndexError).
Proof. intros gl g sn ps idx B K. exact (project_stat_l gl g sn ps idx B K). Qed.

(** With every parameter named it is the array of the grid point itself. *)
Theorem C88_stat_all : forall (globals : list string) (g : gsearch) (spectral parameters : list string) (indices : list nat),
  In "itertools" globals -> (forall p, In p parameters <-> In p (map fp_name (gs_pars g) ++ spectral)%list) -> inside (ashape (gs_stats g)) indices ->
  exists a, nd_project_stat globals g spectral indices parameters = Ok a /\ ashape a = skipn (length indices) (ashape (gs_stats g)) /\
    forall j, aget a j = aget (gs_stats g) (indices ++ j)%list.
Proof. exact project_stat_all_l. Qed.

(** Two fit parameters of 3 and 2 values and three spectral ones of 2, 3 and 4 bins. *)
Definition p88 : list fpar :=
  [FPar "rate" 1 (Some 1%Qc) 0 (zq 2) 3 None None None None None None None None; FPar "scale" (zq 5) None (zq 5) (zq 7) 2 None None None None None None None None].
Definition s88 : list string := ["energy"; "radial"; "time"].
Definition g88 : gsearch :=
  GS (Some "fit") 0 true true p88 [2; 3; 4] (ND [3; 2; 2; 3; 4] (fun i => zq (Z.of_nat (nth 0 i 0)%nat * 10000 + Z.of_nat (nth 1 i 0)%nat * 1000 + Z.of_nat (nth 2 i 0)%nat * 100 + Z.of_nat (nth 3 i 0)%nat * 10 + Z.of_nat (nth 4 i 0)%nat)%Z)) (ND [3; 2] (fun _ => 0%Qc)).

(** The projection of a grid point on two spectral parameters is not what nd_project_stat returns: it
    sums the wrong axis; and every name left out before it moves the axis on by one more. *)
Theorem C88_stat_refuted :
  ~ (forall (globals : list string) (g : gsearch) (spectral parameters : list string) (indices : list nat) (a : ndarray),
      In "itertools" globals -> grid_shaped g -> gs_per_bin g = true -> length spectral = length (gs_spec g) -> length indices = length (gs_pars g) ->
      inside (ashape (gs_stats g)) indices -> (forall p, In p parameters -> In p (map fp_name (gs_pars g) ++ spectral)%list) ->
      nd_project_stat globals g spectral indices parameters = Ok a ->
      is_marginal (gs_spec g) (fun j => aget (gs_stats g) (indices ++ j)%list) (listed_axes spectral parameters) (ashape a) (aget a)).
Proof.
  intro H.
  assert (S : rmap ashape (nd_project_stat ["itertools"] g88 s88 [0; 1] ["rate"; "scale"; "radial"; "time"]) = Ok [2; 3]) by (vm_compute; reflexivity).
  destruct (nd_project_stat ["itertools"] g88 s88 [0; 1] ["rate"; "scale"; "radial"; "time"]) as [a|] eqn:E; [|discriminate].
  cbn [rmap] in S. apply (f_equal (fun r => match r with Ok s => s | Err _ => [] end)) in S. cbn beta iota in S.
  assert (G : grid_shaped g88) by (split; vm_compute; reflexivity).
  assert (N : inside [3; 2; 2; 3; 4] [0; 1]) by (exists [3; 2], [2; 3; 4]; split; [reflexivity|repeat constructor]).
  assert (K : forall p, In p ["rate"; "scale"; "radial"; "time"] -> In p (map fp_name (gs_pars g88) ++ s88)%list) by (intros p I; clear - I; cbn in I |- *; tauto).
  destruct (H ["itertools"] g88 s88 _ [0; 1] a (or_introl eq_refl) G eq_refl eq_refl eq_refl N K E) as (X & _).
  rewrite S in X. clear - X. vm_compute in X. discriminate.
Qed.

Example C88_sat : grid_shaped g88 /\ nd_project_stats module_names g88 s88 s88 = Err EException /\ nd_project_stat module_names g88 s88 [0; 1] [] = Err EException /\
  rmap (fun a => (ashape a, this (aget a [0]), this (aget a [2]))) (nd_project_stats ["itertools"] g88 s88 ("rate" :: s88)) = Ok ([3], this (zq 26952), this (zq 986952)) /\
  nd_project_stats ["itertools"] g88 s88 ["rate"] = Err EAxisError /\ nd_project_stats ["itertools"] g88 s88 ["mass"] = Err EIndexError /\
  rmap ashape (nd_project_stat ["itertools"] g88 s88 [0; 1] s88) = Ok [3] /\ nd_project_stat ["itertools"] g88 s88 [0; 1] ["rate"; "scale"] = Err EAxisError /\ nd_project_stat ["itertools"] g88 s88 [3; 1] s88 = Err EIndexError /\
  rmap (fun a => (ashape a, this (aget a [1; 2]))) (nd_project_stat ["itertools"] g88 s88 [0; 1] ["rate"; "scale"; "radial"; "time"]) = Ok ([2; 3], this (zq 4486)).
Proof. split; [split; reflexivity|]. vm_compute. repeat split; reflexivity. Qed.

Print Assumptions C88_refuted.
Print Assumptions C88_unknown.
Print Assumptions C88_stats_partial.
Print Assumptions C88_stats_refuted.
Print Assumptions C88_stat.
Print Assumptions C88_stat_all.
Print Assumptions C88_stat_refuted.

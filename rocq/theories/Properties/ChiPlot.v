(** C90: the pictures of chi squareds. *)
From Coq Require Import Lia Reals Lra.
From Verif Require Import Model.Base Model.PyStr Model.NDArray Model.Param Model.Config Model.Spectra Model.Plot Model.ChiPlot Model.Decay.
From Verif Require Import Spec.DecaySpec Spec.ChiPlotSpec Proofs.QcLemmas Proofs.DecayLemmas Proofs.PlotLemmas Proofs.ChiPlotLemmas.
Local Open Scope list_scope.

(** The graph over signal counts: one point for each count, and a second line with penalty. *)
Theorem C90_signal : forall A (conf : sigconf A) converter, length (sc_counts conf) = length (sc_chis conf) ->
  chi_squared_vs_signal conf converter None false false = Ok [List.combine (sc_counts conf) (sc_chis conf)] /\
  root_vs_signal conf = Ok (List.combine (sc_counts conf) (sc_chis conf)) /\
  forall p, length (sc_chis p) = length (sc_counts conf) ->
    chi_squared_vs_signal conf converter (Some p) false false = Ok [List.combine (sc_counts conf) (sc_chis conf); List.combine (sc_counts conf) (sc_chis p)].
Proof.
  intros A conf b L. unfold chi_squared_vs_signal, root_vs_signal, plot_line. rewrite andb_false_r. cbn [orb rbind]. rewrite L, Nat.eqb_refl, Nat.leb_refl. cbn [rbind].
  split; [reflexivity|]. split; [reflexivity|]. intros p P. rewrite P, Nat.eqb_refl. reflexivity.
Qed.
(** The two keywords for other units never give a graph: effective_mass is refused even with a
    converter, half_life fails on the first count. *)
Theorem C90_units_refuted : forall A (conf : sigconf A) converter penalty half,
  chi_squared_vs_signal conf converter penalty true half = Err ETypeError /\
  chi_squared_vs_signal conf false penalty false true = Err ETypeError /\
  (sc_counts conf <> [] -> chi_squared_vs_signal conf true penalty false true = Err EAttributeError).
Proof.
  intros A conf b p h. unfold chi_squared_vs_signal. rewrite orb_true_r. split; [reflexivity|]. split; [reflexivity|].
  cbn. destruct (sc_counts conf); [congruence|reflexivity].
Qed.
(** ROOT: inverse half-lives are proportional to the counts. *)
Theorem C90_root_half_life : forall (conf : sigconf R) i n N l, with_atoms i n N -> (N <> 0)%R -> (0 < l)%R ->
  length (sc_counts conf) = length (sc_chis conf) -> Forall (fun c => c <> 0)%R (sc_counts conf) ->
  root_vs_half_life conf (fun c => counts_to_half_life i c n l) =
    Ok (List.combine (map (fun c => c / (ln 2 * N * l))%R (sc_counts conf)) (sc_chis conf)).
Proof.
  intros conf i n N l W NN L E F. unfold root_vs_half_life. apply root_points_l; [exact E|]. clear E.
  induction F as [|c x C F IH]; [constructor|]. cbn [map]. constructor; [|exact IH].
  destruct (counts_half_life_l i c n N l W NN C L) as (t & -> & -> & _). cbn [rbind]. f_equal.
  assert (ln 2 <> 0)%R by (apply Rgt_not_eq; rewrite <- ln_1; apply ln_increasing; lra). field. repeat split; try assumption; lra.
Qed.
(** ROOT: masses that convert back to the counts. *)
Theorem C90_root_mass : forall (conf : sigconf R) i n N l, with_atoms i n N -> (0 < i_phase i)%R -> i_matrix i <> 0%R -> (0 < N)%R -> (0 < l)%R ->
  length (sc_counts conf) = length (sc_chis conf) -> Forall (fun c => 0 < c)%R (sc_counts conf) ->
  exists masses, root_vs_mass conf (fun c => counts_to_eff_mass i c n l) = Ok (List.combine masses (sc_chis conf)) /\
    Forall2 (fun m c => eff_mass_to_counts i m n l = Ok c) masses (sc_counts conf).
Proof.
  intros conf i n N l W P M NN L E F.
  assert (Q : exists masses, Forall2 (fun c m => counts_to_eff_mass i c n l = Ok m) (sc_counts conf) masses /\ Forall2 (fun m c => eff_mass_to_counts i m n l = Ok c) masses (sc_counts conf)).
  { clear E. induction F as [|c x C F (ms & A & B)]; [exists []; split; constructor|].
    destruct (counts_mass_l i c n N l W P M NN C L) as (m & E1 & _ & E2). exists (m :: ms). split; constructor; assumption. }
  destruct Q as (ms & A & B). exists ms. split; [|exact B]. unfold root_vs_mass. now apply root_points_l.
Qed.
(** The map of chi squareds: the mean over the fits at each count and value, with the preferred values
    and the minima drawn over it. *)
Theorem C90_map_partial : forall an n k m preferred minima, regular an n k m -> length (fst (an_minima an)) = length (snd (an_minima an)) ->
  exists ts, chi_squared_map an preferred minima = Ok (ts,
      (if preferred then [List.combine (an_counts an) (map (fun i => mean k (fun t => aget (an_preferred an) [i; t])) (seq 0 n))] else []) ++
      (if minima then [List.combine (fst (an_minima an)) (snd (an_minima an))] else [])) /\
    pictured (an_counts an) (an_values an) (mean_chi an k) ts.
Proof. exact map_l. Qed.
(** turn_on: minus the chi squared of the same count without systematic. *)
Theorem C90_turn_on_partial : forall an conf n k m, regular an n k m -> length (sc_chis conf) = n ->
  exists ts, turn_on an conf = Ok ts /\ pictured (an_counts an) (an_values an) (fun i j => mean_chi an k i j - nth i (sc_chis conf) 0)%Qc ts.
Proof. exact turn_on_l. Qed.
Theorem C90_turn_on_refused : forall an conf n k m, regular an n k m -> n < length (sc_chis conf) -> turn_on an conf = Err EIndexError.
Proof. exact turn_on_long. Qed.
(** push_pull: twice the penalty of the value minus the chi squared. *)
Theorem C90_push_pull_partial : forall an n k m, regular an n k m -> m <= length (snd (an_penalties an)) ->
  exists ts, push_pull an = Ok ts /\ pictured (an_counts an) (an_values an) (fun i j => nq 2 * nth j (snd (an_penalties an)) 0 - mean_chi an k i j)%Qc ts.
Proof. exact push_pull_l. Qed.
(** None of the three shows the last count or the last value: other chi squareds there, same picture. *)
Theorem C90_last_refuted : forall an bn conf n k m, same_but_last an bn n k m ->
  rmap fst (chi_squared_map an false false) = rmap fst (chi_squared_map bn false false) /\ turn_on an conf = turn_on bn conf /\ push_pull an = push_pull bn.
Proof. exact last_l. Qed.
(** Penalties over values; asking for a file raises (a name is misspelt). *)
Theorem C90_penalty : forall an, length (fst (an_penalties an)) = length (snd (an_penalties an)) ->
  penalty_vs_systematic an false = Ok (List.combine (fst (an_penalties an)) (snd (an_penalties an))).
Proof. intros an L. unfold penalty_vs_systematic, plot_line. rewrite L, Nat.eqb_refl. reflexivity. Qed.
Theorem C90_penalty_saved_refuted : forall an l, penalty_vs_systematic an true <> Ok l.
Proof. intros an l. unfold penalty_vs_systematic. destruct (plot_line _ _); discriminate. Qed.
(** Chi squareds per bin: bin number i + 1 of the histogram holds number i, the others nothing. *)
Theorem C90_per_bin : forall chis bins low high, (Z.of_nat (length chis) <= bins)%Z ->
  let h := plot_chi_squared_per_bin chis bins low high in
  h1_bins h = bins /\ h1_low h = low /\ h1_high h = high /\
  (forall i, i < length chis -> h1_at h (1 + Z.of_nat i) = nth i chis 0%Qc) /\
  (forall b, (b < 1 \/ 1 + Z.of_nat (length chis) <= b)%Z -> h1_at h b = 0%Qc).
Proof.
  intros chis bins low high L h. destruct (set_bins_shape chis 1 (new_h1 bins low high)) as (A & B & C). split; [exact A|]. split; [exact B|]. split; [exact C|].
  destruct (set_bins_at chis 1 (new_h1 bins low high)) as (D & E); [lia|cbn [new_h1 h1_bins]; lia|]. split; [exact D|]. intros b Hb. unfold h, plot_chi_squared_per_bin. rewrite (E b Hb). reflexivity.
Qed.
(** The spectral plot made with ROOT never returns. *)
Theorem C90_root_spectral_refuted : forall l dim r, root_spectral_plot l dim <> Ok r.
Proof.
  intros l dim r. unfold root_spectral_plot. destruct l as [|s l]; [discriminate|]. destruct (get_dim_type _ _); [|discriminate]. cbn [rbind].
  destruct (get_par _ _); discriminate.
Qed.

(** Three counts, two fits for each, two values. *)
Definition dchis : ndarray := ND [3; 2; 2] (fun idx => match idx with [i; t; j] => nq (100 * i + 10 * t + j) | _ => 0%Qc end).
Definition dan : analyser := Analyser [zq 1; zq 2; zq 4] [zq 5; zq 7] dchis (ND [3; 2] (fun idx => match idx with [i; t] => nq (i + t) | _ => 0%Qc end)) ([zq 1], [zq 5]) ([zq 5; zq 7], [zq 8; zq 9]).
Definition dan' : analyser := Analyser [zq 1; zq 2; zq 4] [zq 5; zq 7] (ND [3; 2; 2] (fun idx => match idx with [i; t; j] => if (Nat.eqb i 2 || Nat.eqb j 1) then nq 77 else nq (100 * i + 10 * t + j) | _ => 0%Qc end))
  (an_preferred dan) ([zq 1], [zq 5]) ([zq 5; zq 7], [zq 8; zq 9]).
Definition ends (t : tile) := (this (t_x0 t), this (t_x1 t), this (t_y0 t), this (t_y1 t), this (t_value t)).
Example C90_sat : regular dan 3 2 2 /\ same_but_last dan dan' 3 2 2 /\
  rmap (fun r => map ends (fst r)) (chi_squared_map dan true true) = Ok [(1, 2, 5, 7, 5); (2, 4, 5, 7, 105)]%Q /\
  rmap (fun r => map (map (fun p => (this (fst p), this (snd p)))) (snd r)) (chi_squared_map dan true true) = Ok [[(1, 1 # 2); (2, 3 # 2); (4, 5 # 2)]; [(1, 5)]]%Q /\
  rmap (map ends) (turn_on dan (SigConf [zq 3; zq 4; zq 5] [])) = Ok [(1, 2, 5, 7, 2); (2, 4, 5, 7, 101)]%Q /\
  rmap (map ends) (push_pull dan) = Ok [(1, 2, 5, 7, 11); (2, 4, 5, 7, -89 # 1)]%Q /\
  (with_atoms (Iso 130 127 (1/3) 1 4 (3/1000) 6000 1) (Some 5) 5)%R.
Proof.
  assert (R : regular dan 3 2 2) by (repeat split; cbn; lia). assert (R' : regular dan' 3 2 2) by (repeat split; cbn; lia).
  split; [exact R|]. split.
  { split; [exact R|]. split; [exact R'|]. split; [reflexivity|]. split; [reflexivity|]. split; [reflexivity|]. intros i t j I _ J. cbn.
    destruct (Nat.eqb_spec i 2), (Nat.eqb_spec j 1); try lia. reflexivity. }
  split; [vm_compute; reflexivity|]. split; [vm_compute; reflexivity|]. split; [vm_compute; reflexivity|]. split; [vm_compute; reflexivity|]. reflexivity.
Qed.

Print Assumptions C90_signal.
Print Assumptions C90_units_refuted.
Print Assumptions C90_root_half_life.
Print Assumptions C90_root_mass.
Print Assumptions C90_map_partial.
Print Assumptions C90_turn_on_partial.
Print Assumptions C90_turn_on_refused.
Print Assumptions C90_push_pull_partial.
Print Assumptions C90_last_refuted.
Print Assumptions C90_penalty.
Print Assumptions C90_penalty_saved_refuted.
Print Assumptions C90_per_bin.
Print Assumptions C90_root_spectral_refuted.

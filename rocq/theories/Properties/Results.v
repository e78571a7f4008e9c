(** C73: the results of a limit calculation give back what was last set in them, and the graphs show
    it.  Missing for the full statement: drawing the best fits in units of sigma changes the results,
    which is characterised and refuted below. *)
From Coq Require Import Lia.
From Verif Require Import Model.Base Model.PyStr Model.NDArray Model.Param Model.Config Model.Spectra Model.FitParam Model.Minimise.
From Verif Require Import Model.FitConfig Model.ConfigFile Model.Store Model.Plot Model.Results.
From Verif Require Import Spec.ResultsSpec Proofs.ResultsLemmas.
Local Open Scope string_scope.

(** New results are zero everywhere. *)
Theorem C73_new : forall g c cname lim name rate r, NoDup (gc_get_pars g) -> dlookup "rate" (sf_pars lim) = Ok rate ->
  new_limit_results g c cname lim name = Ok r ->
  let n := Z.to_nat (fp_bins (cp_par rate)) in
  lr_fit r = g /\ lr_limit r = lim /\ shaped r n /\ keeps r n (fun _ _ => 0%Qc) (fun _ _ => 0%Qc) (fun _ => 0%Qc).
Proof. exact new_holds. Qed.
(** After any history of calls every way of reading gives the value set last. *)
Theorem C73_history : forall r n B P S ops, shaped r n -> keeps r n B P S ->
  shaped (after ops r) n /\
  keeps (after ops r) n (fun i par => latest (best_set n i par) ops (B i par))
    (fun i par => latest (penalty_set n i par) ops (P i par)) (fun i => latest (stat_set n i) ops (S i)).
Proof. exact keeps_after. Qed.
(** A call is refused, with IndexError, exactly if there is no such scaling or parameter. *)
Theorem C73_refuses : forall r n o, shaped r n ->
  (snd (lr_set r o) = None <-> proper (gc_get_pars (lr_fit r)) n o) /\
  (snd (lr_set r o) <> None -> snd (lr_set r o) = Some EIndexError).
Proof. exact set_accepts. Qed.
(** get_limit_stat reads an attribute that no method sets, so the statistic at the limit is never given. *)
Theorem C73_limit_stat_refuted : forall r i, lr_get_limit_stat r i = Err EAttributeError.
Proof. reflexivity. Qed.
(** The graphs: one point for each scaling. *)
Theorem C73_graphs : forall lg r n B P S xs, keeps r n B P S -> lr_get_scales lg r = Ok xs -> length xs = n ->
  let pars := gc_get_pars (lr_fit r) in
  plot_stats_vs_scale lg r = Ok (List.combine xs (map (fun i => S i + qsum (map (P i) pars))%Qc (seq 0 n))) /\
  (forall par, In par pars ->
     plot_best_fit_vs_scale lg r par = Ok (List.combine xs (map (fun i => B i par) (seq 0 n))) /\
     plot_penalty_term_vs_scale lg r par = Ok (List.combine xs (map (fun i => P i par) (seq 0 n)))).
Proof. exact graphs_l. Qed.
(** The best fits in units of sigma: the graph is right, but the results now keep these numbers as the
    best fits of the parameter. *)
Theorem C73_sigma_partial : forall lg r n B P S par p sigma xs, shaped r n -> keeps r n B P S -> gc_get_par (lr_fit r) par = Ok p ->
  fp_sigma (cp_par p) = Some sigma -> lr_get_scales lg r = Ok xs -> length xs = n ->
  let pull b := ((b - fp_prior (cp_par p)) / sigma)%Qc in
  exists r', plot_sigma_best_fit_vs_scale lg r par = (r', Ok (List.combine xs (map (fun i => pull (B i par)) (seq 0 n)))) /\
    shaped r' n /\ lr_fit r' = lr_fit r /\ keeps r' n (fun i q => if (q =? par)%string then pull (B i q) else B i q) P S.
Proof. exact sigma_l. Qed.
(** A parameter without sigma: it raises TypeError, and the prior has been subtracted from the best fits. *)
Theorem C73_no_sigma_refuted : forall lg r n B P S par p, shaped r n -> keeps r n B P S -> gc_get_par (lr_fit r) par = Ok p ->
  fp_sigma (cp_par p) = None ->
  exists r', plot_sigma_best_fit_vs_scale lg r par = (r', Err ETypeError) /\
    keeps r' n (fun i q => if (q =? par)%string then B i q - fp_prior (cp_par p) else B i q)%Qc P S.
Proof. exact no_sigma_l. Qed.

(** Two parameters, three scalings. *)
Definition lpar (n : string) (prior : Z) (sigma : option Qc) (bins : Z) : fpar :=
  FPar n (zq prior) sigma 0 (zq 20) bins None None None None None None None None.
Definition lfit : gconfig :=
  GC "fit" [("a_rate", GE (CPar PRate (lpar "a_rate" 10 (Some (zq 2)) 5)) false); ("b_rate", GE (CPar PRate (lpar "b_rate" 3 None 5)) false)].
Definition llim : sfconfig := SFC "limit" "signal" [("rate", CPar PRate (lpar "rate" 0 None 3))].
Definition lnew : lresults :=
  LR "r" lfit [] "c" llim (azeros [3]) (azeros [3; 2]) (azeros [3; 2]) (repeat None 3).
Definition lops : list lop :=
  [SetBest 0 (zq 11) "a_rate"; SetStat 0 (zq 5); SetPenalty (-3) (zq 7) "b_rate"; SetBest 1 (zq 12) "a_rate";
   SetBest (-2) (zq 14) "a_rate"; SetPenalty 0 1 "a_rate"; SetBest 3 (zq 99) "a_rate"; SetBest 0 (zq 98) "c_rate"].
Definition no_logs : fpar -> res (list Qc) := fun _ => Err EException.
Example C73_ex :
  new_limit_results lfit [] "c" llim "r" = Ok lnew /\ NoDup (gc_get_pars lfit) /\ shaped lnew 3 /\
  let r := after lops lnew in
  rmap this (lr_get_best_fit r 1 "a_rate") = Ok 14%Q /\ rmap this (lr_get_full_stat r 0) = Ok 13%Q /\
  map (fun o => snd (lr_set r o)) [SetBest 3 0 "a_rate"; SetBest 0 0 "c_rate"; SetStat (-3) 0] = [Some EIndexError; Some EIndexError; None] /\
  rmap (map (fun xy => (this (fst xy), this (snd xy)))) (plot_best_fit_vs_scale no_logs r "a_rate")
    = Ok [(0, 11); (10, 14); (20, 0)]%Q.
Proof.
  split; [reflexivity|]. split; [repeat constructor; cbn; intuition discriminate|].
  split. { repeat split. repeat constructor; cbn; intuition discriminate. }
  cbv zeta. repeat split; vm_compute; reflexivity.
Qed.
(** Drawing twice gives two different graphs. *)
Theorem C73_drawing_refuted :
  let r := after lops lnew in
  let s1 := plot_sigma_best_fit_vs_scale no_logs r "a_rate" in
  let s2 := plot_sigma_best_fit_vs_scale no_logs (fst s1) "a_rate" in
  rmap (map (fun xy => this (snd xy))) (snd s1) = Ok [1 # 2; 2; -5 # 1]%Q /\
  rmap (map (fun xy => this (snd xy))) (snd s2) = Ok [-19 # 4; -4 # 1; -15 # 2]%Q /\
  rmap this (lr_get_best_fit r 1 "a_rate") = Ok 14%Q /\ rmap this (lr_get_best_fit (fst s1) 1 "a_rate") = Ok 2%Q.
Proof. cbv zeta. repeat split; vm_compute; reflexivity. Qed.

Print Assumptions C73_new.
Print Assumptions C73_history.
Print Assumptions C73_refuses.
Print Assumptions C73_graphs.
Print Assumptions C73_sigma_partial.
Print Assumptions C73_no_sigma_refuted.
Print Assumptions C73_drawing_refuted.
Print Assumptions C73_limit_stat_refuted.

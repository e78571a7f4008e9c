(** C95: what is loaded from any file matches its own configuration. *)
From Verif Require Import Model.Base Model.PyStr Model.NDArray Model.Param Model.Config Model.Spectra.
From Verif Require Import Model.FitParam Model.FitConfig Model.Minimise Model.Store.
From Verif Require Import Spec.StoreSpec Spec.LoadShapeSpec Proofs.LoadShape Properties.Store.
Local Open Scope string_scope.
Local Open Scope list_scope.

(** Whatever the file holds: fit results that load have arrays of the size of their
    configurations, and their arrays and name are those of the file. *)
Theorem C95_fit_results : forall e f fr, load_fit_results e f = Ok fr -> fits_its_configuration fr /\ exists r, f = Some r /\ holds_results r fr.
Proof. exact fit_results_l. Qed.
(** So arrays of other sizes are refused. *)
Theorem C95_fit_refused : forall e r a m stats fr, dget "fit_results" (r_members r) = Some (HGroup a m) -> dget "stats" m = Some (HData stats) ->
  ashape stats <> bins_of_fit (fr_fit fr) -> ashape stats <> bins_of_fit (fr_fit fr) ++ bins_of_spectrum (fr_spec fr) -> load_fit_results e (Some r) <> Ok fr.
Proof.
  intros e r a m stats fr G D N1 N2 H. apply fit_results_l in H as ((_ & _ & _ & S) & r' & E & a' & m' & G' & D' & _). injection E as <-.
  rewrite G in G'. injection G' as <- <-. rewrite D in D'. injection D' as D'. rewrite <- D' in S. destruct (gs_per_bin _) in S; [contradiction|]. rewrite app_nil_r in S. contradiction.
Qed.
(** Limit results have a place for a fit at each scaling of the signal; the fits belong to the
    spectrum and count as not per bin; statistics and name are those of the file. *)
Theorem C95_limit_results_partial : forall dec e f lr, load_limit_results dec e f = Ok lr -> exists rate, dget "rate" (sf_pars (lr_limit lr)) = Some rate /\
  length (lr_fits lr) = Z.to_nat (fp_bins (cp_par rate)) /\
  (forall i gs, nth_error (lr_fits lr) i = Some (Some gs) -> gs_per_bin gs = false /\ gs_spec gs = bins_of_spectrum (lr_spec lr)) /\
  exists r a m, f = Some r /\ dget "limit_results" (r_members r) = Some (HGroup a m) /\ dget "stats" m = Some (HData (lr_stats lr)) /\ dget "name" a = Some (AStr (lr_name lr)).
Proof. exact limit_results_l. Qed.
(** The size of their statistics is not compared with it. *)
Definition odd_lr : lresults :=
  LR "limit" (demo_gc [gscale "energy" 3]) demo_cfg "config" (SFC "lim" "Signal" [("rate", CPar PRate (demo_gpar "rate" None 2))])
     (azeros [7%nat]) (azeros [2%nat; 1%nat]) (azeros [2%nat; 1%nat]) [None; None].
Theorem C95_limit_size_refuted : forall e, exists f lr rate, load_limit_results dec_nat e f = Ok lr /\
  dget "rate" (sf_pars (lr_limit lr)) = Some rate /\ fp_bins (cp_par rate) = 2%Z /\ ashape (lr_stats lr) = [7%nat].
Proof. intro e. exists (fst (dump_limit_results dec_nat None odd_lr false)). do 2 eexists. split; [vm_compute; reflexivity|]. repeat split. Qed.
(** Nor is the data of a spectrum compared with its axes. *)
Definition odd_stored : stored := Stored (Spec "Te130_mc" None [("energy_mc", SPar 0 (zq 10) 4)] (azeros [7%nat]) 1 0 0 []) "config" None (JObj [("color", JStr "red")]).
Theorem C95_spectrum_size_refuted : forall pf e, exists f s, load pf e f = Ok s /\
  get_shape (s_cfg (st_spec s)) = [4%Z] /\ ashape (s_data (st_spec s)) = [7%nat].
Proof. intros pf e. exists (fst (fst (dump None odd_stored false false))). eexists. split; [vm_compute; reflexivity|]. split; reflexivity. Qed.
(** No file, or no such group. *)
Theorem C95_no_file : forall dec e o, load_fit_results e None = Err EIOError /\ load_limit_results dec e None = Err EIOError /\ load_ndarray None o = Err EIOError.
Proof. repeat split. Qed.
Theorem C95_no_group : forall dec e r, (dget "fit_results" (r_members r) = None -> load_fit_results e (Some r) = Err EKeyError) /\
  (dget "limit_results" (r_members r) = None -> load_limit_results dec e (Some r) = Err EKeyError).
Proof. intros. split; intro N; unfold load_fit_results, load_limit_results, get_group, dlookup; rewrite N; reflexivity. Qed.
Example C95_sat : forall e, exists fr, load_fit_results e (fst (dump_fit_results None (demo_results [gscale "energy" 3; gshift "energy" 2; grate "Te130_rate" 5] true) false)) = Ok fr /\
  ashape (gs_stats (fr_search fr)) = [3; 2; 5; 4]%nat.
Proof. intro e. eexists. split; [vm_compute; reflexivity|]. reflexivity. Qed.
Example C95_sat_limit : forall e, exists lr, load_limit_results dec_nat e (fst (dump_limit_results dec_nat None (demo_lr true) false)) = Ok lr.
Proof. intro e. eexists. vm_compute. reflexivity. Qed.

Print Assumptions C95_fit_results.
Print Assumptions C95_fit_refused.
Print Assumptions C95_limit_results_partial.
Print Assumptions C95_limit_size_refuted.
Print Assumptions C95_spectrum_size_refuted.
Print Assumptions C95_no_file.
Print Assumptions C95_no_group.

(** C70: a fit that loads convolved spectra from files (use_pre_made).  The expected spectrum
    depends on the files, the spectra the fit was given and the parameter values only, not
    on what was evaluated before. *)
From Verif Require Import Model.Base Model.PyStr Model.NDArray Model.Param Model.Config Model.Spectra
  Model.Smear Model.Shift Model.Heap Model.FitParam Model.Minimise Model.Fit Model.FitConfig Model.Store Model.Combine Model.PreConv Model.Scripts Model.PreMade.
From Verif Require Import Spec.AxisSpec Spec.ArraySpec Spec.SpectraSpec Spec.ShrinkSpec Spec.HeapSpec Spec.StoreSpec Spec.NameSpec Spec.SearchSpec Spec.FitRunSpec
  Spec.ScriptSpec Spec.PreMadeSpec Spec.FitLimitSpec Spec.PreMadeRunSpec.
From Verif Require Import Proofs.QcLemmas Proofs.HeapLemmas Proofs.FitLemmas Proofs.FitRun Proofs.FitKinds Proofs.ScriptLemmas Proofs.PreMadeRun.
From Verif Require Properties.Fit Properties.PreMade Properties.Scripts.
Local Open Scope string_scope.

(** After any history of evaluations: the fixed background, plus every floating background
    from the file for the values of the global parameters, with the number of decays of the
    spectrum it stands for, on the axes of the data and with its own parameters applied, plus
    the signal in the same way.  If a file is missing the error is the same too.  Partial: for
    files with other axes than the data and spectra with own parameters that are not rates it
    is false (C70_own_refuted). *)
Theorem C70_history_partial : forall pf e files base location orig class dimension (ft : fit) (h : heap) (V : Qc -> Prop) (history : list (list Qc)) (args : list Qc),
  prepared ft h -> distinct_printing ft V -> global_pars ft <> [] ->
  files_fit pf e files base location orig class dimension ft h V ->
  Forall (good_args ft V) history -> good_args ft V args ->
  same_res same_pair
    (snd (spectra_of_pm pf e files base location orig class dimension ft args (f_run_pm pf e files base location orig class dimension ft history (f_start ft h))))
    (pre_made_fitted pf e files base location orig class dimension ft h args).
Proof. intros. now apply (pm_history pf e files base location orig class dimension ft h V). Qed.
(** The spectra the fit was given stay as they are. *)
Theorem C70_originals : forall pf e files base location orig class dimension (ft : fit) (h : heap) (V : Qc -> Prop) (history : list (list Qc)) r s,
  prepared ft h -> distinct_printing ft V -> global_pars ft <> [] ->
  files_fit pf e files base location orig class dimension ft h V -> Forall (good_args ft V) history ->
  abs h r = Some s -> abs (fs_heap (f_run_pm pf e files base location orig class dimension ft history (f_start ft h))) r = Some s.
Proof.
  intros pf e files base location orig class dimension ft h V l r s P D GN FF Hl A. destruct (pr_data _ _ P) as (d & Ad & W & _).
  exact (given_kept pf e files base location orig class dimension ft h V d P D Ad W GN FF l r s Hl A).
Qed.
(** Without global parameters the option changes nothing. *)
Theorem C70_no_global : forall pf e files base location orig class dimension (ft : fit) args st,
  global_pars ft = [] -> spectra_of_pm pf e files base location orig class dimension ft args st = spectra_of ft args st.
Proof. exact pm_no_global. Qed.
(** With the files that the scripts write for a grid of values (C69), the spectrum that is
    used is the one in the original file with all global parameters applied. *)
Theorem C70_scripts : forall pf e spline isdir fo fs0 files base location class dimension (ft : fit) (h : heap) args p d parts c grid s0 xs t s,
  let str := ft_str ft in
  location (pt_ref p) = Some (path d (named parts) "hdf5") ->
  d <> "" -> ends_with "/" d = false -> (base = "" /\ d = folder c \/ base = (folder c ++ "/")%string) ->
  plain_folder c -> plain_name parts -> combined str grid ->
  (forall xs k, In xs grid -> (k < length xs)%nat -> isdir (folder (folders c (firstn (S k) xs))) = true) ->
  load pf e (fs0 (path d (named parts) "hdf5")) = Ok s0 -> sound s0 ->
  (forall xs, In xs grid -> xs <> [] /\ dims_apart xs c /\ marks_free xs parts /\ Forall (plain_setting str) xs /\ Forall (scriptable str (st_spec s0)) xs) ->
  In xs grid -> settings_applied str spline fo xs (st_spec s0) = Ok t ->
  at_values class dimension ft args = map (as_gpar str) xs ->
  (forall f, pre_made_path base (location (pt_ref p)) (at_values class dimension ft args) = Ok f ->
     files f = run_grid pf e str spline isdir fo fs0 grid (path d (named parts) "hdf5") c parts f) ->
  abs h (pt_ref p) = Some s ->
  pre_made_spectrum pf e files base location (fun _ => None) class dimension ft h args p = done (scale (s_decays s) t).
Proof.
  intros pf e spline isdir fo fs0 files base location class dimension ft h args p d parts c grid s0 xs t s str Lo D1 D2 B C N U I L Q G Hx T Av Fi As.
  destruct (Properties.PreMade.C69_grid pf e str spline isdir fo fs0 base d parts c grid s0 D1 D2 B C N U I L Q G xs t Hx T) as (f & q & Pf & Lf & Eq).
  unfold pre_made_spectrum, shown. rewrite As. cbn [rbind]. rewrite Lo, Av in Fi |- *. specialize (Fi f Pf). rewrite Pf. cbn [rbind]. rewrite Fi, Lf. cbn [rbind]. rewrite Eq.
  reflexivity.
Qed.

(** ** Example: the fit of C52, its spectra in files with twice as many bins *)
Notation ex_fit := Properties.Fit.ex_fit.
Notation ex_heap := Properties.Fit.ex_heap.
Notation ex_V := Properties.Fit.ex_V.
Notation ex_values := Properties.Fit.ex_values.
Notation shows := Properties.Fit.shows.
Notation ax := Properties.Fit.ax.
Definition long : sconfig := [("energy_mc", SPar 0%Qc (zq 8) 8)].
Definition file_on (axes : sconfig) (name : string) (decays : Z) (l : list Z) : hfile :=
  fst (fst (dump None (Stored (Spec name (Some name) axes (ND [8] (fun i => zq (nth (nth 0 i 0) l 0%Z))) (zq decays) 10 0 []) "config" None (JObj [("color", JStr "red")])) false false)).
Definition file_of := file_on long.
Definition ex_files : fsys := fun f =>
  if String.eqb f "data/energy_mc/shift/2n2b_0sh.hdf5" then file_of "2n2b" 40 [30; 10; 0; 0; 0; 0; 0; 0]%Z
  else if String.eqb f "data/energy_mc/shift/2n2b_1sh.hdf5" then file_of "2n2b" 40 [0; 30; 10; 0; 0; 0; 0; 0]%Z
  else if String.eqb f "data/energy_mc/shift/b8_0sh.hdf5" then file_of "b8" 20 [0; 20; 0; 0; 0; 0; 0; 0]%Z
  else if String.eqb f "data/energy_mc/shift/b8_1sh.hdf5" then file_of "b8" 20 [0; 0; 10; 5; 5; 0; 0; 0]%Z
  else if String.eqb f "data/energy_mc/shift/0n2b_0sh.hdf5" then file_of "0n2b" 50 [0; 0; 50; 0; 0; 0; 0; 0]%Z
  else if String.eqb f "data/energy_mc/shift/0n2b_1sh.hdf5" then file_of "0n2b" 50 [0; 0; 0; 30; 20; 0; 0; 0]%Z
  else None.
Definition ex_location (r : nat) : option string :=
  match r with 2 => Some "data/2n2b.hdf5" | 3 => Some "data/b8.hdf5" | 4 => Some "data/0n2b.hdf5" | _ => None end.
Definition ex_class (i : nat) : option syst := match i with 0 => Some ShiftSyst | _ => None end.
Definition ex_dim (i : nat) : option string := match i with 0 => Some "energy_mc" | _ => None end.
Definition ex_pf (_ : string) : res Qc := Err EValueError.
Definition pm_run fs ft := spectra_of_pm ex_pf 1%Qc fs "" ex_location (fun _ => None) ex_class ex_dim ft.
Definition pm_hist fs ft := f_run_pm ex_pf 1%Qc fs "" ex_location (fun _ => None) ex_class ex_dim ft.
Definition pm_file fs ft := pre_made_spectrum ex_pf 1%Qc fs "" ex_location (fun _ => None) ex_class ex_dim ft ex_heap.
Definition cfg_this (c : sconfig) : list (string * (Q * Q * Z)) := map (fun vp => (fst vp, (this (sp_low (snd vp)), this (sp_high (snd vp)), sp_bins (snd vp)))) c.
Lemma cfg_ax c : cfg_this c = cfg_this ax -> c = ax.
Proof.
  destruct c as [|[n [l u b]] [|x c]]; intro E; [discriminate| |discriminate]. cbn in E. injection E as -> El Eu ->. unfold Properties.Fit.ax.
  f_equal. f_equal. f_equal; apply Qc_is_canon; [rewrite El|rewrite Eu]; reflexivity.
Qed.
Lemma ax_ready m : s_cfg m = ax -> ashape (s_data m) = [4] -> fit_ready (shows ex_heap 0) m.
Proof.
  intros C S. pose proof (Properties.Fit.ex_fit_ready 1 0) as F. unfold fit_ready, wf_spectra, Spec.SpectraSpec.consistent, same_axes in *.
  rewrite !Properties.Fit.ex_cfg, Properties.Fit.ex_shape in F by (repeat constructor). rewrite Properties.Fit.ex_cfg, C, S by (repeat constructor). apply F; repeat constructor.
Qed.
Definition fits fs ft (v : Qc) (p : part) : bool :=
  match pm_file fs ft [v] p with
  | Ok t => match on_axes_of (shows ex_heap 0) t with
            | Ok m => match list_eq_dec Nat.eq_dec (ashape (s_data m)) [4] with left _ => true | _ => false end &&
                      match cfg_this (s_cfg m) with [("energy_mc", (0 # 1, 4 # 1, 4%Z))%Q] => true | _ => false end
            | Err _ => false
            end
  | Err _ => true
  end.
Lemma fits_ok fs ft v p t : fits fs ft v p = true -> pm_file fs ft [v] p = Ok t -> exists m, on_axes_of (shows ex_heap 0) t = Ok m /\ fit_ready (shows ex_heap 0) m.
Proof.
  unfold fits. intros F T. rewrite T in F. destruct (on_axes_of (shows ex_heap 0) t) as [m|]; [|discriminate]. exists m. split; [reflexivity|].
  apply andb_prop in F as [F1 F2]. destruct (list_eq_dec Nat.eq_dec (ashape (s_data m)) [4]) as [E|]; [|discriminate]. apply ax_ready; [|exact E]. apply cfg_ax.
  change (cfg_this ax) with [("energy_mc", (0 # 1, 4 # 1, 4%Z))%Q].
  destruct (cfg_this (s_cfg m)) as [|[n [[a b] k]] l]; [discriminate|].
  repeat (match type of F2 with context [match ?x with _ => _ end] => is_var x; destruct x; try discriminate F2 end). reflexivity.
Qed.
Lemma ex_files_fit : files_fit ex_pf 1%Qc ex_files "" ex_location (fun _ => None) ex_class ex_dim ex_fit ex_heap ex_V.
Proof.
  intros d p s args t Ad Ip As Ga T.
  assert (d = shows ex_heap 0) as -> by (change (abs ex_heap 0 = Some d) in Ad; rewrite (Properties.Fit.ex_abs 0) in Ad by (repeat constructor); congruence).
  assert (R : (pt_ref p < 5)%nat) by (cbn in Ip; repeat (destruct Ip as [<-|Ip]; [repeat constructor|]); destruct Ip).
  assert (s = shows ex_heap (pt_ref p)) as -> by (rewrite (Properties.Fit.ex_abs _ R) in As; congruence).
  split; [|split].
  - cbn in Ip. repeat (destruct Ip as [<-|Ip]; [intro E; apply (f_equal this) in E; vm_compute in E; discriminate|]). destruct Ip.
  - destruct Ga as (Le & Va & _). destruct args as [|v args]; [discriminate|]. inversion Va as [|? ? Hv _]; subst.
    apply (fits_ok ex_files ex_fit v p); [|exact T].
    assert (A : forallb (fun v => forallb (fits ex_files ex_fit v) (all_parts ex_fit)) ex_values = true) by (vm_compute; reflexivity).
    rewrite forallb_forall in A. specialize (A v Hv). rewrite forallb_forall in A. exact (A p Ip).
  - right. cbn in Ip. destruct Ip as [<-|[<-|[<-|[]]]]; [right|right|now left]; intros i [<-|[]]; eexists; (split; reflexivity).
Qed.
Example C70_ex :
  prepared ex_fit ex_heap /\ distinct_printing ex_fit ex_V /\ global_pars ex_fit <> [] /\
  files_fit ex_pf 1%Qc ex_files "" ex_location (fun _ => None) ex_class ex_dim ex_fit ex_heap ex_V /\
  Forall (good_args ex_fit ex_V) Properties.Fit.ex_history /\ good_args ex_fit ex_V Properties.Fit.ex_args /\
  Properties.Fit.numbers (pre_made_fitted ex_pf 1%Qc ex_files "" ex_location (fun _ => None) ex_class ex_dim ex_fit ex_heap Properties.Fit.ex_args) =
    Ok ([0; 4; 5; 0]%Q, [2; 3 # 2; 5 # 2; 4]%Q) /\
  Properties.Fit.numbers (snd (pm_run ex_files ex_fit Properties.Fit.ex_args (pm_hist ex_files ex_fit Properties.Fit.ex_history (f_start ex_fit ex_heap)))) =
    Ok ([0; 4; 5; 0]%Q, [2; 3 # 2; 5 # 2; 4]%Q) /\
  snd (pm_run ex_files ex_fit [zq 2; zq 2; zq 4] (f_start ex_fit ex_heap)) = Err EIOError.
Proof.
  split; [exact Properties.Fit.ex_prepared|]. split; [now apply Properties.Fit.ex_printing|]. split; [discriminate|]. split; [exact ex_files_fit|].
  split; [apply Properties.Fit.ex_good|]. split; [apply Properties.Fit.ex_good|].
  split; [vm_compute; reflexivity|]. split; vm_compute; reflexivity.
Qed.
(** The files of C69_ex in a fit with the two parameters. *)
Definition grid_kind (x : setting) : pkind := setting_kind Properties.PreMade.demo_str Properties.PreMade.demo_spline Properties.PreMade.demo_formulas x.
Definition grid_fit : fit := Fit Properties.PreMade.demo_str
  [FitPar "energy_resolution" true (grid_kind (Setting Resolution "energy_mc" (zq 200))) (zq 200) None; FitPar "energy_scale" true (grid_kind (Setting ScaleSyst "energy_mc" 1%Qc)) 1%Qc None]
  0 ["energy_mc"] None [Part 2 [] ["energy_mc"]] None.
Example C70_scripts_ex :
  let location r := match r with 2 => Some (path "data" (named ["te"]) "hdf5") | _ => None end in
  let class i := match i with 0 => Some Resolution | _ => Some ScaleSyst end in
  let dimension := fun _ : nat => Some "energy_mc" in
  at_values class dimension grid_fit [zq 200; qq 3 2] = map (as_gpar Properties.PreMade.demo_str) Properties.PreMade.demo_xs /\
  at_values class dimension grid_fit [zq 200; zq 2] = map (as_gpar Properties.PreMade.demo_str) Properties.PreMade.demo_ys /\
  location (pt_ref (Part 2 [] ["energy_mc"])) = Some (path "data" (named ["te"]) "hdf5") /\
  exists s, abs ex_heap 2 = Some s.
Proof.
  intros location class dimension. assert (G : global_pars grid_fit = [0; 1]) by reflexivity. unfold at_values. rewrite G. cbn [map nth_error option_map class].
  change (ft_str grid_fit) with Properties.PreMade.demo_str. split; [reflexivity|]. split; [reflexivity|]. split; [reflexivity|].
  exists (shows ex_heap 2). apply Properties.Fit.ex_abs. repeat constructor.
Qed.

(** ** What the hypotheses exclude *)
(** A file with more bins than the data for a spectrum with a parameter of its own that is
    not a rate: at its first use the parameter is applied to the whole axis, and the cut to
    the bounds of the data then changes the axes of the loaded spectrum too, because spectra
    made from one another share them.  So evaluating twice at the same values gives two
    different results. *)
Definition own_fit : fit := Fit Properties.Fit.ex_str [Properties.Fit.p_shift; Properties.Fit.p_rate "rate_2n2b"; FitPar "b8_shift" false (shift_kind Properties.Fit.ex_str Properties.Fit.zero_spline "energy_mc") 0%Qc None]
  0 ["energy_mc"] (Some (1, ["energy_mc"])) [Part 2 [1] ["energy_mc"]; Part 3 [2] ["energy_mc"]] None.
Definition own_files : fsys := fun f =>
  if String.eqb f "data/energy_mc/shift/b8_1sh.hdf5" then file_on [("energy_mc", SPar (- zq 4) (zq 4) 8)] "b8" 20 [0; 0; 0; 4; 6; 4; 6; 0]%Z else ex_files f.
Definition own_args : list Qc := [1%Qc; zq 4; 1%Qc].
Theorem C70_own_refuted : exists ft fs args,
  prepared ft ex_heap /\ distinct_printing ft ex_V /\ global_pars ft <> [] /\ good_args ft ex_V args /\
  (forall d p s args t, abs ex_heap (ft_data ft) = Some d -> In p (all_parts ft) -> abs ex_heap (pt_ref p) = Some s -> good_args ft ex_V args ->
     pm_file fs ft args p = Ok t -> s_decays s <> 0%Qc /\ exists m, on_axes_of d t = Ok m /\ fit_ready d m) /\
  Properties.Fit.numbers (snd (pm_run fs ft args (f_start ft ex_heap))) = Ok ([0; 4; 5; 0]%Q, [12 # 5; 18 # 5; 7 # 5; 3 # 5]%Q) /\
  Properties.Fit.numbers (snd (pm_run fs ft args (pm_hist fs ft [args] (f_start ft ex_heap)))) = Ok ([0; 4; 5; 0]%Q, [2; 3; 1; 0]%Q).
Proof.
  exists own_fit, own_files, own_args. split; [|split; [now apply Properties.Fit.ex_printing|split; [discriminate|split; [unfold own_args; Properties.Fit.ex_args|split; [|split; vm_compute; reflexivity]]]]].
  - constructor.
    + exact Properties.Fit.ex_wf.
    + discriminate.
    + destruct (pr_data _ _ Properties.Fit.ex_prepared) as (d & A & W & R). exists d. split; [exact A|]. split; [exact W|].
      intros p [Hp|[_ Hp]]; [|discriminate]. cbn in Hp. destruct Hp as [<-|[<-|[]]]; [apply (R (Part 2 [1] ["energy_mc"]))|apply (R (Part 3 [2] ["energy_mc"]))]; left; cbn; tauto.
    + intros r pars H. injection H as <- _. exists (shows ex_heap 1). apply Properties.Fit.ex_abs. repeat constructor.
    + discriminate.
    + exact (pr_floating_nodup _ _ Properties.Fit.ex_prepared).
    + exact (pr_data_apart _ _ Properties.Fit.ex_prepared).
    + exact (pr_fixed_apart _ _ Properties.Fit.ex_prepared).
    + discriminate.
    + intros i p Hi H. cbn in Hi. destruct Hi as [<-|[]]. injection H as <-. eexists. reflexivity.
    + intros p H. cbn in H. destruct H as [<-|[<-|[<-|[]]]]; [apply sees_shift|exact sees_rate|apply sees_shift].
    + intros _. assert (E : map (name_of ex_heap) (all_parts own_fit) = [Some "2n2b"; Some "b8"]) by reflexivity. rewrite E. split.
      * repeat constructor; cbn; intros H; repeat (destruct H as [H|H]; [discriminate|]); exact H.
      * cbn. intros H; repeat (destruct H as [H|H]; [discriminate|]); exact H.
  - intros d p s args t Ad Ip As Ga T.
    assert (d = shows ex_heap 0) as -> by (change (abs ex_heap 0 = Some d) in Ad; rewrite (Properties.Fit.ex_abs 0) in Ad by (repeat constructor); congruence).
    assert (R : (pt_ref p < 5)%nat) by (cbn in Ip; repeat (destruct Ip as [<-|Ip]; [repeat constructor|]); destruct Ip).
    assert (s = shows ex_heap (pt_ref p)) as -> by (rewrite (Properties.Fit.ex_abs _ R) in As; congruence). split.
    + cbn in Ip. repeat (destruct Ip as [<-|Ip]; [intro E; apply (f_equal this) in E; vm_compute in E; discriminate|]). destruct Ip.
    + destruct Ga as (Le & Va & _). destruct args as [|v args]; [discriminate|]. inversion Va as [|? ? Hv _]; subst.
      apply (fits_ok own_files own_fit v p); [|exact T].
      assert (A : forallb (fun v => forallb (fits own_files own_fit v) (all_parts own_fit)) ex_values = true) by (vm_compute; reflexivity).
      rewrite forallb_forall in A. specialize (A v Hv). rewrite forallb_forall in A. exact (A p Ip).
Qed.

Print Assumptions C70_history_partial.
Print Assumptions C70_originals.
Print Assumptions C70_no_global.
Print Assumptions C70_scripts.
Print Assumptions C70_own_refuted.

(** C69: convolved spectra in files.  The files that the scripts write are those that a fit
    with use_pre_made loads.  [pf] and [e] stand for float(text) and numpy.e (files of the
    old layout), [str] for the text of a float, [spline] for scipy's interpolation, [isdir]
    for os.path.isdir, [fo] for the floating point formulas of the smearers. *)
From Verif Require Import Model.Base Model.PyStr Model.NDArray Model.Param Model.Config Model.Spectra Model.Smear Model.Shift Model.Heap Model.Fit
  Model.FitConfig Model.Store Model.Combine Model.PreConv Model.Scripts Model.PreMade.
From Verif Require Import Spec.AxisSpec Spec.SpectraSpec Spec.StoreSpec Spec.NameSpec Spec.FitRunSpec Spec.ScriptSpec Spec.PreMadeSpec.
From Verif Require Import Proofs.QcLemmas Proofs.ScriptLemmas Proofs.PreMadeLemmas.
From Verif Require Properties.Scripts.
Local Open Scope string_scope.
Local Open Scope list_scope.

(** Where the fit looks: below the base directory (or that of the spectrum) a folder for each
    dimension and each kind of systematic; in the name, the values of the parameters in the
    order of the fit configuration. *)
Theorem C69_location : forall str base d parts c xs,
  d <> "" -> ends_with "/" d = false -> (base = "" /\ d = folder c \/ base = (folder c ++ "/")%string) ->
  plain_folder c -> dims_apart xs c -> plain_name parts -> marks_free xs parts -> Forall (plain_setting str) xs ->
  pre_made_path base (Some (path d (named parts) "hdf5")) (map (as_gpar str) xs) =
  Ok (path (folder (folders c xs)) (named (parts ++ map (tag str) xs)) "hdf5").
Proof. exact path_l. Qed.

(** One script after the other, in the order of the parameters: what the fit then loads is
    the spectrum with all parameters applied; the original file is as before.  If a
    parameter cannot be applied, a script fails with the same error. *)
Theorem C69_prepared : forall pf e str spline isdir fo fs base d parts c xs s,
  xs <> [] -> d <> "" -> ends_with "/" d = false -> (base = "" /\ d = folder c \/ base = (folder c ++ "/")%string) ->
  plain_folder c -> dims_apart xs c -> plain_name parts -> marks_free xs parts -> Forall (plain_setting str) xs ->
  (forall k, (k < length xs)%nat -> isdir (folder (folders c (firstn (S k) xs))) = true) ->
  load pf e (fs (path d (named parts) "hdf5")) = Ok s -> sound s -> Forall (scriptable str (st_spec s)) xs ->
  let run := run_scripts pf e str spline isdir fo fs xs (path d (named parts) "hdf5") c parts in
  fst run (path d (named parts) "hdf5") = fs (path d (named parts) "hdf5") /\
  match settings_applied str spline fo xs (st_spec s) with
  | Ok t => snd run = None /\
      exists p q, pre_made_path base (Some (path d (named parts) "hdf5")) (map (as_gpar str) xs) = Ok p /\ load pf e (fst run p) = Ok q /\ st_spec q = t
  | Err er => snd run = Some er
  end.
Proof.
  intros pf e str spline isdir fo fs base d parts c xs s NX D1 D2 B C A N M S I L Q K. cbn zeta.
  pose proof (location_plain d parts D1 D2 N) as P. destruct (scripts_l pf e str spline isdir fo xs fs d c parts s P N C I S K L Q) as (H1 & H2).
  split; [apply H1; now apply source_kept|]. destruct (settings_applied str spline fo xs (st_spec s)) as [t|er]; [|exact H2].
  destruct H2 as (H2 & H3). split; [exact H2|]. destruct (H3 NX) as (q & Lq & Eq). eexists. exists q.
  split; [exact (path_l str base d parts c xs D1 D2 B C A N M S)|]. now split.
Qed.

(** Files for different values have different names, in whatever directories. *)
Theorem C69_distinct : forall str c c' parts xs ys,
  plain_folder c -> plain_folder c' -> plain_name parts -> Forall (plain_setting str) xs -> Forall (plain_setting str) ys ->
  path (folder c) (named (parts ++ map (tag str) xs)) "hdf5" = path (folder c') (named (parts ++ map (tag str) ys)) "hdf5" ->
  texts str xs = texts str ys.
Proof. intros str c c' parts xs ys C C' N Sx Sy E. apply (tags_inj str xs ys Sx Sy). exact (paths_inj str c c' parts xs ys C C' N Sx Sy E). Qed.

(** So the files for a whole grid of values can be made, in any order: the fit finds each. *)
Theorem C69_grid : forall pf e str spline isdir fo fs base d parts c grid s,
  d <> "" -> ends_with "/" d = false -> (base = "" /\ d = folder c \/ base = (folder c ++ "/")%string) ->
  plain_folder c -> plain_name parts -> combined str grid ->
  (forall xs k, In xs grid -> (k < length xs)%nat -> isdir (folder (folders c (firstn (S k) xs))) = true) ->
  load pf e (fs (path d (named parts) "hdf5")) = Ok s -> sound s ->
  (forall xs, In xs grid -> xs <> [] /\ dims_apart xs c /\ marks_free xs parts /\ Forall (plain_setting str) xs /\ Forall (scriptable str (st_spec s)) xs) ->
  let files := run_grid pf e str spline isdir fo fs grid (path d (named parts) "hdf5") c parts in
  forall xs t, In xs grid -> settings_applied str spline fo xs (st_spec s) = Ok t ->
  exists p q, pre_made_path base (Some (path d (named parts) "hdf5")) (map (as_gpar str) xs) = Ok p /\ load pf e (files p) = Ok q /\ st_spec q = t.
Proof.
  intros pf e str spline isdir fo fs base d parts c grid s D1 D2 B C N U I L Q G. cbn zeta. intros xs t Hx T.
  pose proof (location_plain d parts D1 D2 N) as P.
  destruct (grid_l pf e str spline isdir fo fs d c parts s grid P N C I) as (_ & H); try assumption.
  { intros ys Hy. destruct (G ys Hy) as (G1 & _ & _ & G4 & G5). auto. }
  destruct (G xs Hx) as (_ & A & M & S & _). destruct (H xs t Hx T) as (q & Lq & Eq). eexists. exists q.
  split; [exact (path_l str base d parts c xs D1 D2 B C A N M S)|]. now split.
Qed.

(** ** Example: the light yield and the energy scale of one file *)
Definition demo_str (q : Qc) : string :=
  if qeq q (zq 2) then "2.0" else if qeq q (zq 5) then "5.0" else if qeq q (zq 200) then "200.0" else if qeq q (zq 8) then "8.0" else "1.5".
Definition demo_xs : list setting := [Setting Resolution "energy_mc" (zq 200); Setting ScaleSyst "energy_mc" (qq 3 2)].
Definition demo_ys : list setting := [Setting Resolution "energy_mc" (zq 200); Setting ScaleSyst "energy_mc" (zq 2)].
Notation demo_stored := Properties.Scripts.demo_stored.
Notation demo_fs := Properties.Scripts.demo_fs.
Notation demo_spline := Properties.Scripts.demo_spline.
Notation demo_formulas := Properties.Scripts.demo_formulas.
Lemma demo_plain x : In x (demo_xs ++ demo_ys) -> plain_setting demo_str x.
Proof.
  intro I. assert (D : se_dim x = "energy_mc" /\ (demo_str (se_value x) = "200.0" \/ demo_str (se_value x) = "1.5" \/ demo_str (se_value x) = "2.0")).
  { cbn [app demo_xs demo_ys In] in I. repeat destruct I as [<-|I]; try (split; [reflexivity|vm_compute; tauto]). destruct I. }
  destruct D as (D & V). unfold plain_setting. rewrite D. split; [discriminate|]. split; [reflexivity|]. split; [cbn; intuition discriminate|].
  destruct V as [->|[->| ->]]; (split; [|split; reflexivity]).
  - exists "200", "0". repeat split; try reflexivity; [discriminate|now left].
  - exists "1", "5". repeat split; try reflexivity; [discriminate|now right].
  - exists "2", "0". repeat split; try reflexivity; [discriminate|now left].
Qed.
Example C69_ex : forall pf e, let isdir d := str_in d ["data/energy_mc/smear"; "data/energy_mc/smear/scale"] in
  let c := ["data"] in let parts := ["te"] in
  plain_folder c /\ plain_name parts /\ combined demo_str [demo_xs; demo_ys] /\
  (forall xs k, In xs [demo_xs; demo_ys] -> (k < length xs)%nat -> isdir (folder (folders c (firstn (S k) xs))) = true) /\
  load pf e (demo_fs (path "data" (named parts) "hdf5")) = Ok demo_stored /\ sound demo_stored /\
  (forall xs, In xs [demo_xs; demo_ys] -> xs <> [] /\ dims_apart xs c /\ marks_free xs parts /\ Forall (plain_setting demo_str) xs /\
     Forall (scriptable demo_str (st_spec demo_stored)) xs) /\
  (exists t, settings_applied demo_str demo_spline demo_formulas demo_xs (st_spec demo_stored) = Ok t) /\
  pre_made_path "" (Some "data/te.hdf5") (map (as_gpar demo_str) demo_xs) = Ok "data/energy_mc/smear/scale/te_200ly_1.5sc.hdf5" /\
  pre_made_path "files/" (Some "data/te.hdf5") (map (as_gpar demo_str) demo_ys) = Ok "files/energy_mc/smear/scale/te_200ly_2sc.hdf5".
Proof.
  intros pf e isdir c parts. pose proof (Properties.Scripts.C68_demo pf e) as (_ & _ & _ & L & S & _).
  split; [split; [discriminate|]; split; [now repeat constructor|discriminate]|].
  split; [split; [repeat constructor|]; repeat split; discriminate|].
  split. { intros xs ys Hx Hy. cbn [In] in Hx, Hy. destruct Hx as [<-|[<-|[]]], Hy as [<-|[<-|[]]]; (split; [reflexivity|]); intro E; try reflexivity; vm_compute in E; discriminate. }
  split. { intros xs k Hx Hk. assert (Ex : folders c (firstn (Datatypes.S k) xs) = ["data"; "energy_mc"; "smear"] \/ folders c (firstn (Datatypes.S k) xs) = ["data"; "energy_mc"; "smear"; "scale"]).
    { cbn [In] in Hx. destruct Hx as [<-|[<-|[]]]; (destruct k as [|[|k]]; [left; reflexivity|right; reflexivity|exfalso; cbn in Hk; repeat apply le_S_n in Hk; inversion Hk]). }
    destruct Ex as [-> | ->]; reflexivity. }
  split; [exact L|]. split; [exact S|]. split.
  { intros xs Hx. split; [cbn [In] in Hx; destruct Hx as [<-|[<-|[]]]; discriminate|].
    assert (Dx : map se_dim xs = ["energy_mc"; "energy_mc"] /\ map mark xs = ["ly"; "sc"]) by (cbn [In] in Hx; destruct Hx as [<-|[<-|[]]]; split; vm_compute; reflexivity).
    destruct Dx as [Dx Mx]. split; [|split; [|split]].
    - intros x n Ix In_ C. apply (in_map se_dim) in Ix. rewrite Dx in Ix. assert (Ed : se_dim x = "energy_mc") by (cbn in Ix; intuition). rewrite Ed in *. rewrite Dx in In_.
      cbn [In app c] in In_. repeat destruct In_ as [<-|In_]; try reflexivity; try discriminate C. destruct In_.
    - split; [rewrite Mx; repeat constructor; cbn; intuition discriminate|]. intros x n Ix [<-|[]]. apply (in_map mark) in Ix. rewrite Mx in Ix. cbn in Ix. destruct Ix as [<-|[<-|[]]]; reflexivity.
    - apply Forall_forall. intros x Ix. apply demo_plain. apply in_or_app. cbn [In] in Hx. destruct Hx as [<-|[<-|[]]]; [now left|now right].
    - cbn [In] in Hx. destruct Hx as [<-|[<-|[]]]; (constructor; [split; [left; apply qlt_iff; vm_compute; reflexivity|reflexivity]|constructor; [apply qlt_iff; vm_compute; reflexivity|constructor]]). }
  split; [apply Properties.Scripts.ok_exists; vm_compute; reflexivity|]. split; vm_compute; reflexivity.
Qed.

(** ** What the hypotheses exclude *)
(** Shifted spectra: dump_shifted writes beside its input under another name. *)
Theorem C69_shift_refuted : ~ forall pf e str spline isdir fo fs d parts c x s t p,
  d = folder c -> plain_folder c -> dims_apart [x] c -> plain_name parts -> marks_free [x] parts -> plain_setting str x -> (forall f, isdir f = true) ->
  load pf e (fs (path d (named parts) "hdf5")) = Ok s -> sound s -> se_class x = ShiftSyst -> se_value x <> 0%Qc ->
  apply_value (setting_kind str spline fo x) (se_value x) (st_spec s) = Ok t ->
  pre_made_path "" (Some (path d (named parts) "hdf5")) [as_gpar str x] = Ok p ->
  exists q, load pf e (fst (run_scripts pf e str spline isdir fo fs [x] (path d (named parts) "hdf5") c parts) p) = Ok q /\ st_spec q = t.
Proof.
  intro H. set (pf := fun _ : string => @Err Qc EValueError). pose proof (Properties.Scripts.C68_demo pf 1%Qc) as (P & _ & _ & L & S & _ & (t & T) & _).
  set (x := Setting ShiftSyst "energy_mc" (zq 5)).
  assert (NV : zq 5 <> 0%Qc) by (intro Z; apply (f_equal this) in Z; vm_compute in Z; discriminate).
  assert (T' : exists t', apply_value (setting_kind demo_str demo_spline demo_formulas x) (se_value x) (st_spec demo_stored) = Ok t') by (apply Properties.Scripts.ok_exists; vm_compute; reflexivity).
  destruct T' as (t' & T').
  destruct (H pf 1%Qc demo_str demo_spline (fun _ => true) demo_formulas demo_fs "data" ["te"] ["data"] x demo_stored t' "data/energy_mc/shift/te_5sh.hdf5") as (q & Lq & _); try reflexivity; try assumption.
  - split; [discriminate|]. split; [now repeat constructor|discriminate].
  - intros y n [<-|[]] I C. cbn [se_dim x] in *. cbn [In app map se_dim] in I. repeat destruct I as [<-|I]; try reflexivity; try discriminate C. destruct I.
  - split; [repeat constructor|]. repeat split; discriminate.
  - split; [repeat constructor; intros []|]. intros y n [<-|[]] [<-|[]]. reflexivity.
  - split; [discriminate|]. split; [reflexivity|]. split; [cbn; intuition discriminate|]. split; [|split; reflexivity]. exists "5", "0". repeat split; try reflexivity; [discriminate|now left].
  - assert (ND : "energy_mc" <> "") by discriminate.
    pose proof (shifted_l pf 1%Qc demo_str demo_spline demo_fs "data" "te" "hdf5" (zq 5) "energy_mc" demo_stored P NV ND L S) as C.
    change (apply_value (shift_kind demo_str demo_spline "energy_mc") (zq 5) (st_spec demo_stored)) with (apply_value (setting_kind demo_str demo_spline demo_formulas x) (se_value x) (st_spec demo_stored)) in C.
    rewrite T' in C. destruct C as (C1 & _ & C3). revert Lq. cbn [run_scripts]. unfold run_script. cbn [se_class x se_value se_dim]. change (path "data" (named ["te"]) "hdf5") with (path "data" "te" "hdf5").
    destruct (dump_shifted pf 1%Qc demo_str demo_spline demo_fs (Some (path "data" "te" "hdf5")) (Some (zq 5)) (Some "energy_mc")) as [fs1 o1]. cbn [fst snd] in *. subst o1. cbn [fst].
    rewrite C3 by discriminate. intro K. vm_compute in K. discriminate.
Qed.
(** Two parameters of one kind for different dimensions share a place in the name: the
    same file for different values. *)
Theorem C69_same_kind_refuted : ~ forall str base location xs ys p,
  Forall (plain_setting str) xs -> Forall (plain_setting str) ys -> map se_dim xs = map se_dim ys -> NoDup (map se_dim xs) ->
  pre_made_path base location (map (as_gpar str) xs) = Ok p -> pre_made_path base location (map (as_gpar str) ys) = Ok p ->
  texts str xs = texts str ys.
Proof.
  intro H. set (z := Setting ScaleSyst "radial_mc" (zq 5)). assert (Pz : plain_setting demo_str z).
  { split; [discriminate|]. split; [reflexivity|]. split; [cbn; intuition discriminate|]. split; [|split; reflexivity]. exists "5", "0". repeat split; try reflexivity; [discriminate|now left]. }
  specialize (H demo_str "" (Some "data/te.hdf5") [Setting ScaleSyst "energy_mc" (qq 3 2); z] [Setting ScaleSyst "energy_mc" (zq 2); z]
    "data/energy_mc/scale/radial_mc/scale/te_5sc.hdf5").
  assert (C : texts demo_str [Setting ScaleSyst "energy_mc" (qq 3 2); z] = texts demo_str [Setting ScaleSyst "energy_mc" (zq 2); z]); [|vm_compute in C; discriminate].
  apply H; try (vm_compute; reflexivity).
  - constructor; [apply demo_plain; cbn; tauto|]. constructor; [exact Pz|constructor].
  - constructor; [apply demo_plain; cbn; tauto|]. constructor; [exact Pz|constructor].
  - repeat constructor; cbn; intuition discriminate.
Qed.
(** A file that was scaled before: the fit replaces the old value in the name where the
    script adds the new one. *)
Theorem C69_scaled_before_refuted : exists p o, pre_made_path "" (Some "data/te_2sc.hdf5") [as_gpar demo_str (Setting ScaleSyst "energy_mc" (qq 3 2))] = Ok p /\
  o = path "data/energy_mc/scale" (named (["te"; "2sc"] ++ [tag demo_str (Setting ScaleSyst "energy_mc" (qq 3 2))])) "hdf5" /\
  p = "data/energy_mc/scale/te_1.5sc.hdf5" /\ o = "data/energy_mc/scale/te_2sc_1.5sc.hdf5".
Proof. eexists. eexists. split; [|split; [reflexivity|]]; [vm_compute; reflexivity|]. split; vm_compute; reflexivity. Qed.
(** A spectrum that was not loaded from a file, a parameter without dimension and one without files (a
    rate) are refused, whatever the other parameters. *)
Theorem C69_refused : forall base pars l g pars' at_ dim,
  pre_made_path base None pars = Err EAttributeError /\
  (rbind (start_place base (Some l)) (place pars) = Ok at_ ->
   (gp_dim g = None -> pre_made_path base (Some l) (pars ++ g :: pars')%list = Err ETypeError) /\
   (gp_dim g = Some dim -> gp_class g = None -> pre_made_path base (Some l) (pars ++ g :: pars')%list = Err EAttributeError)).
Proof.
  intros base pars l g pars' at_ dim. split; [reflexivity|]. unfold pre_made_path, start_place. cbn [rbind]. intro P.
  assert (E : forall e, place_one g at_ = Err e -> forall a, place pars a = Ok at_ -> place (pars ++ g :: pars') a = Err e).
  { intros e H. clear P. induction pars as [|x pars IH]; intros a P; cbn [place app] in *.
    - injection P as ->. now rewrite H.
    - destruct (place_one x a) as [a'|]; [|discriminate]. cbn [rbind] in *. exact (IH a' P). }
  destruct at_ as [d f]. split; [intro D|intros D C]; rewrite (E _ ltac:(unfold place_one; rewrite D, ?C; reflexivity) _ P); reflexivity.
Qed.
(** A directory whose name contains that of the dimension: no file is looked for. *)
Theorem C69_directory_refuted :
  pre_made_path "" (Some "energy_mc_data/te.hdf5") [as_gpar demo_str (Setting ScaleSyst "energy_mc" (zq 2))] = Err EValueError.
Proof. vm_compute. reflexivity. Qed.
(** A base directory without slash at the end, and a file without directory. *)
Theorem C69_no_slash_refuted :
  pre_made_path "files" (Some "data/te.hdf5") [as_gpar demo_str (Setting ScaleSyst "energy_mc" (zq 2))] = Ok "filesenergy_mc/scale/te_2sc.hdf5" /\
  pre_made_path "" (Some "te.hdf5") [as_gpar demo_str (Setting ScaleSyst "energy_mc" (zq 2))] = Ok "/energy_mc/scale/te_2sc.hdf5".
Proof. split; vm_compute; reflexivity. Qed.
(** Light yields up to 10 are looked for as energy resolutions; the script writes 8ly. *)
Theorem C69_light_yield_refuted :
  pre_made_path "" (Some "data/te.hdf5") [as_gpar demo_str (Setting Resolution "energy_mc" (zq 8))] = Ok "data/energy_mc/smear/te_8rs.hdf5".
Proof. vm_compute. reflexivity. Qed.

Print Assumptions C69_location.
Print Assumptions C69_prepared.
Print Assumptions C69_distinct.
Print Assumptions C69_grid.
Print Assumptions C69_shift_refuted.
Print Assumptions C69_same_kind_refuted.
Print Assumptions C69_scaled_before_refuted.
Print Assumptions C69_directory_refuted.
Print Assumptions C69_no_slash_refuted.
Print Assumptions C69_light_yield_refuted.
Print Assumptions C69_refused.

(** C68: the conversion scripts (dump_scaled, dump_shifted, dump_smeared, dump_smeared_energy,
    dump_shrink, rebin).  [pf] and [e] stand for float(text) and numpy.e, which only files of
    the old layout use; [str] for the text of a float; [spline] for scipy's interpolation;
    [fo] for the floating point formulas of the smearers. *)
From Verif Require Import Model.Base Model.PyStr Model.NDArray Model.Param Model.Config Model.Spectra Model.Smear Model.Shift Model.Heap Model.Fit
  Model.FitConfig Model.Store Model.Combine Model.Scripts.
From Verif Require Import Spec.AxisSpec Spec.SpectraSpec Spec.ShrinkSpec Spec.OpsSpec Spec.StoreSpec Spec.NameSpec Spec.FitRunSpec Spec.ScriptSpec.
From Verif Require Import Proofs.QcLemmas Proofs.ScriptLemmas Proofs.ScriptMore.
Local Open Scope string_scope.

(** Scaling an axis: the file holds what the scale parameter of a fit would compute. *)
Theorem C68_scaled : forall pf e str spline isdir fs d n x v dim dest d' s,
  plain_path d n x -> occurs "/" (str v) = false -> (0 < v)%Qc -> dim <> "" -> written_to isdir dest d d' ->
  load pf e (fs (path d n x)) = Ok s -> sound s ->
  let run := dump_scaled pf e str spline isdir fs (Some (path d n x)) (Some v) (Some dim) dest in
  converts pf e fs run s (apply_value (scale_kind str spline dim) v (st_spec s)) (path d' (n ++ "_" ++ trimmed (str v) ++ "sc") "hdf5") /\
  fst run (path d n x) = fs (path d n x).
Proof.
  intros pf e str spline isdir fs d n x v dim dest d' s P T V D W L S. cbn zeta. apply and_input; [exact P| |now apply scaled_l].
  rewrite PreConvLemmas.occurs_app, (trimmed_occurs _ _ T). reflexivity.
Qed.
(** Shifting an axis. *)
Theorem C68_shifted : forall pf e str spline fs d n x v dim s,
  plain_path d n x -> v <> 0%Qc -> dim <> "" ->
  load pf e (fs (path d n x)) = Ok s -> sound s ->
  let run := dump_shifted pf e str spline fs (Some (path d n x)) (Some v) (Some dim) in
  converts pf e fs run s (apply_value (shift_kind str spline dim) v (st_spec s)) (path d (n ++ "_shifted") "hdf5") /\
  fst run (path d n x) = fs (path d n x).
Proof.
  intros pf e str spline fs d n x v dim s P V D L S. cbn zeta. apply (and_input _ _ _ _ _ _ d d n x "shifted"); [exact P|reflexivity|now apply shifted_l].
Qed.
(** Smearing all energy axes, with an energy resolution ... *)
Theorem C68_energy_resolution : forall pf e str isdir fo fs d n x method r ly gaus dest d' s,
  plain_path d n x -> occurs "/" (str r) = false -> (method = "weight" \/ method = "random") -> (0 < r)%Qc -> (r < 1)%Qc -> written_to isdir dest d d' ->
  load pf e (fs (path d n x)) = Ok s -> sound s ->
  let run := dump_smeared_energy pf e str isdir fo fs method (Some r) ly gaus dest (path d n x) in
  converts pf e fs run s
    (along (smeared method (fo_name_res fo r) (fo_sigma_res fo r) (fo_weight_res fo (negb gaus) r) (fo_draw fo))
           (filter (contains "energy") (map fst (s_cfg (st_spec s)))) (st_spec s))
    (path d' (n ++ "_" ++ str r ++ "rs") "hdf5") /\
  fst run (path d n x) = fs (path d n x).
Proof.
  intros pf e str isdir fo fs d n x method r ly gaus dest d' s P T M R0 R1 W L S. cbn zeta. apply and_input; [exact P| |now apply energy_res_l].
  rewrite PreConvLemmas.occurs_app, T. reflexivity.
Qed.
(** ... or with a light yield. *)
Theorem C68_energy_light_yield : forall pf e str isdir fo fs d n x method ly gaus dest d' s,
  plain_path d n x -> occurs "/" (str ly) = false -> (method = "weight" \/ method = "random") -> (0 < ly)%Qc -> written_to isdir dest d d' ->
  load pf e (fs (path d n x)) = Ok s -> sound s ->
  let run := dump_smeared_energy pf e str isdir fo fs method None ly gaus dest (path d n x) in
  converts pf e fs run s
    (along (smeared method (fo_name_ly fo ly) (fo_sigma_ly fo ly) (fo_weight_ly fo (negb gaus) ly) (fo_draw fo))
           (filter (contains "energy") (map fst (s_cfg (st_spec s)))) (st_spec s))
    (path d' (n ++ "_" ++ trimmed (str ly) ++ "ly") "hdf5") /\
  fst run (path d n x) = fs (path d n x).
Proof.
  intros pf e str isdir fo fs d n x method ly gaus dest d' s P T M R0 W L S. cbn zeta. apply and_input; [exact P| |now apply energy_ly_l].
  rewrite PreConvLemmas.occurs_app, (trimmed_occurs _ _ T). reflexivity.
Qed.
(** Smearing all energy and radial axes. *)
Theorem C68_smeared : forall pf e fo fs d n x method r default_ly name sigma weight s,
  plain_path d n x -> (method = "weight" \/ method = "random") ->
  (r = None /\ name = fo_name_ly fo default_ly /\ sigma = fo_sigma_ly fo default_ly /\ weight = fo_weight_ly fo true default_ly \/
   exists v, r = Some v /\ (0 < v)%Qc /\ (v < 1)%Qc /\ name = fo_name_res fo v /\ sigma = fo_sigma_res fo v /\ weight = fo_weight_res fo true v) ->
  load pf e (fs (path d n x)) = Ok s -> sound s ->
  let run := dump_smeared pf e fo fs default_ly method r (path d n x) in
  converts pf e fs run s
    (along (smeared_both method name sigma weight (fo_draw fo) (fo_name_radial fo) (fo_sigma_radial fo) (fo_weight_radial fo))
           (filter (fun a => contains "energy" a || contains "radial" a) (map fst (s_cfg (st_spec s)))) (st_spec s))
    (path d (n ++ "_smeared") "hdf5") /\
  fst run (path d n x) = fs (path d n x).
Proof.
  intros pf e fo fs d n x method r default_ly name sigma weight s P M C L S. cbn zeta.
  apply (and_input _ _ _ _ _ _ d d n x "smeared"); [exact P|reflexivity|exact (both_l pf e fo fs d n x method r default_ly sigma name weight s P M C L S)].
Qed.
(** Shrinking axes to bounds inside them. *)
Theorem C68_shrunk : forall pf e fs d n x pars low up output s,
  plain_path d n x -> pars <> [] -> NoDup pars -> (low <> None \/ up <> None) ->
  (forall l, low = Some l -> length l = length pars) -> (forall l, up = Some l -> length l = length pars) -> output <> Some "" ->
  load pf e (fs (path d n x)) = Ok s -> sound s ->
  let kw := bound_keywords pars low up in
  good_keywords (s_cfg (st_spec s)) kw -> (snd (shrink kw (st_spec s)) = None -> leaves_bins (fst (shrink kw (st_spec s)))) ->
  let run := dump_shrink pf e fs (Some (path d n x)) (Some pars) low up output in
  converts pf e fs run s (method_result (shrink kw (st_spec s))) (chosen output (path d (n ++ "_shrunk") "hdf5")) /\
  (output <> Some (path d n x) -> fst run (path d n x) = fs (path d n x)).
Proof.
  intros pf e fs d n x pars low up output s P NE ND G Ll Lu O L S kw GK LB. cbn zeta.
  pose proof (shrunk_l pf e fs d n x pars low up output s P NE ND G Ll Lu O L S GK LB) as C. split; [exact C|]. intro N.
  refine (converts_input _ _ _ _ _ _ _ _ C _). destruct output as [o|]; cbn [chosen]; [congruence|]. now apply (name_differs d d n x "shrunk").
Qed.
(** Rebinning. *)
Theorem C68_rebinned : forall pf e fs d n x bins output s,
  plain_path d n x -> output <> Some "" ->
  load pf e (fs (path d n x)) = Ok s -> sound s ->
  let run := rebin_script pf e fs (path d n x) output (Some bins) in
  converts pf e fs run s (method_result (rebin bins (st_spec s))) (chosen output (path d (n ++ "_rebin") "hdf5")) /\
  (output <> Some (path d n x) -> fst run (path d n x) = fs (path d n x)).
Proof.
  intros pf e fs d n x bins output s P O L S. cbn zeta.
  pose proof (rebinned_l pf e fs d n x bins output s P O L S) as C. split; [exact C|]. intro N.
  refine (converts_input _ _ _ _ _ _ _ _ C _). destruct output as [o|]; cbn [chosen]; [congruence|]. now apply (name_differs d d n x "rebin").
Qed.
(** Whatever the arguments and the files: a run touches at most one file. *)
Theorem C68_one_file : forall pf e str spline isdir fo fs run,
  conversion pf e str spline isdir fo fs run -> exists output, forall p, p <> output -> fst run p = fs p.
Proof. exact conversion_one. Qed.

Definition demo_stored : stored :=
  Stored (Spec "te_mc" (Some "Te130") [("energy_mc", SPar 0 (zq 10) 4); ("radial_mc", SPar 0 (zq 6) 2)]
               (ND [4%nat; 2%nat] (fun i => nq (1 + nth 0 i 0%nat + 2 * nth 1 i 0%nat))) (zq 5) 7 0 []) "config" None (JObj [("color", JStr "red")]).
Definition demo_fs : fsys := write_file (fun _ => None) "data/te.hdf5" (fst (fst (dump None demo_stored false false))).
Definition demo_str (q : Qc) : string := if qeq q (zq 2) then "2.0" else if qeq q (zq 5) then "5.0" else "0.05".
(** A linear interpolation stands for the spline. *)
Definition demo_spline (xs ys : list Qc) (x : Qc) : Qc := (hd 0 ys + x)%Qc.
Definition demo_formulas : formulas :=
  Formulas (fun _ => "_ly") (fun _ _ => 1%Qc) (fun _ _ d _ => (1 / (1 + d * d))%Qc) (fun _ => "_res") (fun _ _ => 1%Qc) (fun _ _ d _ => (1 / (1 + d * d))%Qc)
    "_rad" (fun _ => 1%Qc) (fun d _ => (1 / (1 + d * d))%Qc) (fun _ _ i => nq i).
Lemma ok_exists {A} (r : res A) : is_ok r = true -> exists t, r = Ok t.
Proof. destruct r as [t|]; [now exists t|discriminate]. Qed.
Example C68_demo : forall pf e, let isdir d := String.eqb d "out/" in
  plain_path "data" "te" "hdf5" /\ written_to isdir None "data" "data" /\ written_to isdir (Some "out/") "data" "out" /\
  load pf e (demo_fs (path "data" "te" "hdf5")) = Ok demo_stored /\ sound demo_stored /\
  (exists t, apply_value (scale_kind demo_str demo_spline "energy_mc") (zq 2) (st_spec demo_stored) = Ok t) /\
  (exists t, apply_value (shift_kind demo_str demo_spline "energy_mc") (zq 5) (st_spec demo_stored) = Ok t) /\
  (let kw := bound_keywords ["energy_mc"] (Some [qq 5 2]) None in
   good_keywords (s_cfg (st_spec demo_stored)) kw /\ snd (shrink kw (st_spec demo_stored)) = None /\ leaves_bins (fst (shrink kw (st_spec demo_stored)))) /\
  snd (rebin [2%Z; 1%Z] (st_spec demo_stored)) = None.
Proof.
  intros pf e isdir.
  assert (S : sound demo_stored).
  { split; [|split; [discriminate|split; [now exists "Te130"|split; [exact I|split; discriminate]]]]. split; [split|reflexivity].
    - repeat constructor; cbn; intuition discriminate.
    - repeat constructor; apply qlt_iff; vm_compute; reflexivity. }
  assert (K : kept demo_stored (st_spec demo_stored)).
  { destruct S as (W & N & _). split; [exact W|]. split; [exact N|reflexivity]. }
  destruct (written pf e (fun _ => None) demo_stored (st_spec demo_stored) "data/te.hdf5" S K) as (_ & H & _).
  repeat match goal with |- _ /\ _ => split end; try reflexivity; try discriminate; try exact S; try exact H.
  - repeat split; try reflexivity; discriminate.
  - repeat split; try reflexivity; try discriminate. now right.
  - apply ok_exists. vm_compute. reflexivity.
  - apply ok_exists. vm_compute. reflexivity.
  - cbn zeta. split; [|split].
    + intros k y [E|[]]. injection E as <- <-. exists "energy_mc", (SPar 0 (zq 10) 4). split; [reflexivity|]. left. split; [reflexivity|]. apply qle_iff. vm_compute. reflexivity.
    + vm_compute. reflexivity.
    + intros k q. assert (E : map (fun kp => (fst kp, sp_bins (snd kp))) (s_cfg (fst (shrink (bound_keywords ["energy_mc"] (Some [qq 5 2]) None) (st_spec demo_stored)))) =
        [("energy_mc", 3%Z); ("radial_mc", 2%Z)]) by (vm_compute; reflexivity).
      revert E. generalize (s_cfg (fst (shrink (bound_keywords ["energy_mc"] (Some [qq 5 2]) None) (st_spec demo_stored)))). intros c E G.
      apply (f_equal (option_map sp_bins)) in G. cbn [option_map] in G.
      assert (G2 : dget k [("energy_mc", 3%Z); ("radial_mc", 2%Z)] = Some (sp_bins q)).
      { rewrite <- E, <- G. clear. induction c as [|[a b] c IH]; cbn; [reflexivity|]. destruct (String.eqb k a); [reflexivity|exact IH]. }
      cbn in G2. destruct (String.eqb k "energy_mc"); [injection G2 as <-; reflexivity|]. destruct (String.eqb k "radial_mc"); [injection G2 as <-; reflexivity|discriminate].
Qed.

(** Findings.  Given a file without a directory, dump_scaled and dump_shrink do not write
    beside it but into the root directory "/". *)
Theorem C68_scaled_bare_name : forall pf e str spline isdir fs n x v dim s,
  n <> "" -> starts_with "." n = false -> occurs "/" n = false -> occurs "." x = false -> occurs "/" x = false ->
  (0 < v)%Qc -> dim <> "" -> load pf e (fs (n ++ "." ++ x)) = Ok s -> sound s ->
  converts pf e fs (dump_scaled pf e str spline isdir fs (Some (n ++ "." ++ x)) (Some v) (Some dim) None) s
    (apply_value (scale_kind str spline dim) v (st_spec s)) ("/" ++ n ++ "_" ++ trimmed (str v) ++ "sc.hdf5").
Proof. exact scaled_bare. Qed.
Theorem C68_shrunk_bare_name : forall pf e fs n x pars low s,
  n <> "" -> starts_with "." n = false -> occurs "/" n = false -> occurs "." x = false -> occurs "/" x = false ->
  pars <> [] -> NoDup pars -> length low = length pars ->
  load pf e (fs (n ++ "." ++ x)) = Ok s -> sound s ->
  let kw := bound_keywords pars (Some low) None in
  good_keywords (s_cfg (st_spec s)) kw -> (snd (shrink kw (st_spec s)) = None -> leaves_bins (fst (shrink kw (st_spec s)))) ->
  converts pf e fs (dump_shrink pf e fs (Some (n ++ "." ++ x)) (Some pars) (Some low) None None) s
    (method_result (shrink kw (st_spec s))) ("/" ++ n ++ "_shrunk.hdf5").
Proof. exact shrunk_bare. Qed.
(** rebin.py takes the part of the name before the last dot; without a dot the last letter is lost. *)
Theorem C68_rebinned_no_extension : forall pf e fs d n c bins s,
  occurs "." (d ++ "/" ++ n ++ String c "") = false -> occurs "/" (n ++ String c "") = false ->
  load pf e (fs (d ++ "/" ++ n ++ String c "")) = Ok s -> sound s ->
  converts pf e fs (rebin_script pf e fs (d ++ "/" ++ n ++ String c "") None (Some bins)) s
    (method_result (rebin bins (st_spec s))) (path d (n ++ "_rebin") "hdf5").
Proof. exact rebin_no_dot. Qed.
(** Without --bins nothing is written. *)
Theorem C68_rebinned_no_bins : forall pf e fs input output s,
  load pf e (fs input) = Ok s -> rebin_script pf e fs input output None = (fs, Some ETypeError).
Proof. exact rebin_no_bins. Qed.
(** So the expected file is not written. *)
Theorem C68_scaled_beside_refuted : ~ forall pf e str spline isdir fs n x v dim s t,
  n <> "" -> starts_with "." n = false -> occurs "/" n = false -> occurs "." x = false -> occurs "/" x = false ->
  (0 < v)%Qc -> dim <> "" -> load pf e (fs (n ++ "." ++ x)) = Ok s -> sound s -> apply_value (scale_kind str spline dim) v (st_spec s) = Ok t ->
  file_holds pf e (fst (dump_scaled pf e str spline isdir fs (Some (n ++ "." ++ x)) (Some v) (Some dim) None) (n ++ "_" ++ trimmed (str v) ++ "sc.hdf5")) t s.
Proof.
  intro H. pose proof (C68_demo (fun _ => Err EValueError) 1%Qc) as (_ & _ & _ & L & S & (t & T) & _).
  set (pf := fun _ : string => Err EValueError) in *. set (fs := write_file (fun _ => None) "te.hdf5" (demo_fs "data/te.hdf5")).
  assert (V : (0 < zq 2)%Qc) by (apply qlt_iff; vm_compute; reflexivity).
  assert (L' : load pf 1%Qc (fs ("te" ++ "." ++ "hdf5")) = Ok demo_stored) by exact L.
  assert (NE : "te" <> "") by discriminate. assert (ND : "energy_mc" <> "") by discriminate.
  specialize (H pf 1%Qc demo_str demo_spline (fun _ => true) fs "te" "hdf5" (zq 2) "energy_mc" demo_stored t NE eq_refl eq_refl eq_refl eq_refl V ND L' S T).
  pose proof (C68_scaled_bare_name pf 1%Qc demo_str demo_spline (fun _ => true) fs "te" "hdf5" (zq 2) "energy_mc" demo_stored NE eq_refl eq_refl eq_refl eq_refl V ND L' S) as C.
  rewrite T in C. destruct C as (_ & _ & F). rewrite F in H by discriminate. discriminate H.
Qed.
Theorem C68_shrunk_beside_refuted : ~ forall pf e fs n x pars low s,
  n <> "" -> starts_with "." n = false -> occurs "/" n = false -> occurs "." x = false -> occurs "/" x = false ->
  pars <> [] -> NoDup pars -> length low = length pars -> load pf e (fs (n ++ "." ++ x)) = Ok s -> sound s ->
  let kw := bound_keywords pars (Some low) None in
  good_keywords (s_cfg (st_spec s)) kw -> snd (shrink kw (st_spec s)) = None -> leaves_bins (fst (shrink kw (st_spec s))) ->
  file_holds pf e (fst (dump_shrink pf e fs (Some (n ++ "." ++ x)) (Some pars) (Some low) None None) (n ++ "_shrunk.hdf5")) (fst (shrink kw (st_spec s))) s.
Proof.
  intro H. pose proof (C68_demo (fun _ => Err EValueError) 1%Qc) as (_ & _ & _ & L & S & _ & _ & (G1 & G2 & G3) & _).
  set (pf := fun _ : string => Err EValueError) in *. set (fs := write_file (fun _ => None) "te.hdf5" (demo_fs "data/te.hdf5")).
  assert (L' : load pf 1%Qc (fs ("te" ++ "." ++ "hdf5")) = Ok demo_stored) by exact L.
  assert (NE : "te" <> "") by discriminate. assert (NP : ["energy_mc"] <> []) by discriminate.
  assert (ND : NoDup ["energy_mc"]) by (repeat constructor; cbn; tauto).
  specialize (H pf 1%Qc fs "te" "hdf5" ["energy_mc"] [qq 5 2] demo_stored NE eq_refl eq_refl eq_refl eq_refl NP ND eq_refl L' S G1 G2 G3).
  pose proof (C68_shrunk_bare_name pf 1%Qc fs "te" "hdf5" ["energy_mc"] [qq 5 2] demo_stored NE eq_refl eq_refl eq_refl eq_refl NP ND eq_refl L' S G1 (fun _ => G3)) as C.
  cbn zeta in C, H. unfold method_result in C. rewrite G2 in C. destruct C as (_ & _ & F). rewrite F in H by discriminate. discriminate H.
Qed.
(** The name dump_shifted writes to does not contain the shift: of two runs with different
    shifts only the result of the second is left. *)
Theorem C68_shifts_kept_refuted : ~ forall pf e str spline fs d n x v w dim s t u,
  plain_path d n x -> v <> 0%Qc -> w <> 0%Qc -> str v <> str w -> dim <> "" -> load pf e (fs (path d n x)) = Ok s -> sound s ->
  apply_value (shift_kind str spline dim) v (st_spec s) = Ok t -> apply_value (shift_kind str spline dim) w (st_spec s) = Ok u ->
  let once := fst (dump_shifted pf e str spline fs (Some (path d n x)) (Some v) (Some dim)) in
  let twice := fst (dump_shifted pf e str spline once (Some (path d n x)) (Some w) (Some dim)) in
  exists p, file_holds pf e (twice p) t s.
Proof.
  intro H. pose proof (C68_demo (fun _ => Err EValueError) 1%Qc) as (P & _ & _ & L & S & _ & (t & T) & _).
  set (pf := fun _ : string => Err EValueError) in *.
  assert (U : exists u, apply_value (shift_kind demo_str demo_spline "energy_mc") (qq 5 2) (st_spec demo_stored) = Ok u).
  { apply ok_exists. vm_compute. reflexivity. }
  destruct U as [u U].
  assert (N1 : zq 5 <> 0%Qc) by (intro Z; apply (f_equal this) in Z; vm_compute in Z; discriminate).
  assert (N2 : qq 5 2 <> 0%Qc) by (intro Z; apply (f_equal this) in Z; vm_compute in Z; discriminate).
  assert (N3 : demo_str (zq 5) <> demo_str (qq 5 2)) by (intro Z; vm_compute in Z; discriminate).
  assert (ND : "energy_mc" <> "") by discriminate.
  destruct (H pf 1%Qc demo_str demo_spline demo_fs "data" "te" "hdf5" (zq 5) (qq 5 2) "energy_mc" demo_stored t u P N1 N2 N3 ND L S T U) as [p Hp].
  destruct (C68_shifted pf 1%Qc demo_str demo_spline demo_fs "data" "te" "hdf5" (zq 5) "energy_mc" demo_stored P N1 ND L S) as [C1 I1].
  rewrite T in C1. destruct C1 as (_ & H1 & F1). cbn zeta in *.
  set (once := fst (dump_shifted pf 1%Qc demo_str demo_spline demo_fs (Some (path "data" "te" "hdf5")) (Some (zq 5)) (Some "energy_mc"))) in *.
  destruct (C68_shifted pf 1%Qc demo_str demo_spline once "data" "te" "hdf5" (qq 5 2) "energy_mc" demo_stored P N2 ND) as [C2 I2]; [rewrite I1; exact L|exact S|].
  rewrite U in C2. destruct C2 as (_ & H2 & F2). cbn zeta in *.
  set (twice := fst (dump_shifted pf 1%Qc demo_str demo_spline once (Some (path "data" "te" "hdf5")) (Some (qq 5 2)) (Some "energy_mc"))) in *.
  assert (Nt : s_name t <> s_name u /\ s_name t <> s_name (st_spec demo_stored)).
  { assert (E1 : rmap s_name (apply_value (shift_kind demo_str demo_spline "energy_mc") (zq 5) (st_spec demo_stored)) = Ok "te_mc_shift5.0") by (vm_compute; reflexivity).
    assert (E2 : rmap s_name (apply_value (shift_kind demo_str demo_spline "energy_mc") (qq 5 2) (st_spec demo_stored)) = Ok "te_mc_shift0.05") by (vm_compute; reflexivity).
    rewrite T in E1. rewrite U in E2. injection E1 as E1. injection E2 as E2. rewrite E1, E2. split; discriminate. }
  destruct Nt as [Nt1 Nt2].
  destruct (String.eqb_spec p (path "data" ("te" ++ "_shifted") "hdf5")) as [->|Np].
  - unfold file_holds in Hp, H2. rewrite H2 in Hp. injection Hp as Hp. congruence.
  - rewrite (F2 p Np), (F1 p Np) in Hp. destruct (String.eqb_spec p "data/te.hdf5") as [->|Nd].
    + unfold file_holds in Hp. change "data/te.hdf5" with (path "data" "te" "hdf5") in Hp. rewrite L in Hp. injection Hp as Hp. apply Nt2. rewrite <- Hp. reflexivity.
    + unfold demo_fs in Hp. rewrite write_other in Hp by exact Nd. discriminate Hp.
Qed.

Print Assumptions C68_scaled.
Print Assumptions C68_shifted.
Print Assumptions C68_energy_resolution.
Print Assumptions C68_energy_light_yield.
Print Assumptions C68_smeared.
Print Assumptions C68_shrunk.
Print Assumptions C68_rebinned.
Print Assumptions C68_one_file.
Print Assumptions C68_scaled_bare_name.
Print Assumptions C68_shrunk_bare_name.
Print Assumptions C68_scaled_beside_refuted.
Print Assumptions C68_shrunk_beside_refuted.
Print Assumptions C68_shifts_kept_refuted.
Print Assumptions C68_rebinned_no_extension.
Print Assumptions C68_rebinned_no_bins.

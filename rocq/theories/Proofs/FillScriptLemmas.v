(** Proofs about the scripts that make spectra from event files. *)
From Coq Require Import Lia Permutation.
From Verif Require Import Model.Base Model.PyStr Model.NDArray Model.Param Model.Config Model.Spectra Model.FillSpectrum
  Model.FitConfig Model.Store Model.Combine Model.Scripts Model.FillScripts.
From Verif Require Import Spec.AxisSpec Spec.ArraySpec Spec.SpectraSpec Spec.EventSpec Spec.NameSpec Spec.StoreSpec Spec.FillScriptSpec.
From Verif Require Import Proofs.QcLemmas Proofs.NDArrayLemmas Proofs.FillLemmas Proofs.EventLemmas Proofs.StrLemmas Proofs.DictLemmas Proofs.NameLemmas Proofs.PreConvLemmas Proofs.StoreLemmas Proofs.FileLemmas Proofs.ScriptLemmas.
Local Open Scope string_scope.

Section Events.
Context {E : Type}.
Variable ev : E -> Z.

Lemma count_true {A} (l : list A) : count (fun _ => true) l = length l.
Proof. unfold count. induction l as [|x l IH]; [reflexivity|]. cbn. now rewrite IH. Qed.
Lemma count_filter {A} (P Q : A -> bool) l : count Q (filter P l) = count (fun e => P e && Q e) l.
Proof. unfold count. induction l as [|x l IH]; [reflexivity|]. cbn. destruct (P x) eqn:H; cbn; [destruct (Q x); cbn|]; now rewrite IH. Qed.
Lemma count_map {A B} (f : A -> B) P l : count P (map f l) = count (fun e => P (f e)) l.
Proof. unfold count. induction l as [|x l IH]; [reflexivity|]. cbn. destruct (P (f x)); cbn; now rewrite IH. Qed.
Lemma count_app {A} (P : A -> bool) l m : count P (l ++ m)%list = count P l + count P m.
Proof. unfold count. now rewrite filter_app, app_length. Qed.
Lemma count_same {A} (P Q : A -> bool) l : (forall e, P e = Q e) -> count P l = count Q l.
Proof. intro H. unfold count. now rewrite (filter_ext _ _ H). Qed.
Lemma lies_fst {A} c (value : string -> E -> Qc) (p : E * A) idx :
  lies_in c (fun v (q : E * A) => value v (fst q)) p idx = lies_in c value (fst p) idx.
Proof. revert idx. induction c as [|[v q] c IH]; intros [|i idx]; cbn; try reflexivity. now rewrite IH. Qed.

Lemma into_selected factory valid value bipo es s : wf_spectra s -> s_cfg s <> [] -> extracts (s_cfg s) factory valid value ->
  exists s', ntuple_into ev factory bipo es s = (s', None) /\
    counts (fun _ => true) value (selected ev (s_cfg s) valid value bipo es) (if bipo then with_bipo s 1 else s) s'.
Proof.
  intros W N X. destruct bipo.
  - destruct (factory_reads _ factory valid value X) as (xs & E1 & R). unfold ntuple_into. unfold get_pars, dkeys. rewrite E1.
    destruct (bipo_loop_start ev valid value (s_cfg s) xs es (with_bipo s 1) R N) as (s' & Es & C); [exact W|reflexivity|].
    exists s'. split; [exact Es|]. revert C. apply counts_ext.
    + rewrite count_true. unfold selected. rewrite map_length. reflexivity.
    + intro idx. unfold selected. rewrite count_map, count_filter. apply count_same. intro p. cbn [s_cfg with_bipo]. rewrite lies_fst.
      unfold EventLemmas.kept. reflexivity.
  - destruct (ntuple_into_l ev (s_cfg s) factory valid value es s W eq_refl X) as (s' & Es & C). exists s'. split; [exact Es|].
    revert C. apply counts_ext.
    + rewrite count_true. reflexivity.
    + intro idx. unfold selected. rewrite count_filter. reflexivity.
Qed.

Lemma tallies_more name c bipo total n (value : string -> E -> Qc) l m s s' :
  tallies name c bipo total value l s -> counts (fun _ => true) value m (with_decays s (s_decays s + nq n)%Qc) s' ->
  tallies name c bipo (total + n) value (l ++ m) s'.
Proof.
  intros (T1 & T2 & T3 & T4 & T5 & T6 & T7 & T8 & T9) (A1 & A2 & A3 & A4 & A5 & A6 & A7 & A8 & A9 & A10).
  cbn [s_name s_cfg s_data s_decays s_raw s_bipo s_rois s_bg with_decays] in *. unfold s_sum in *. cbn [s_data with_decays] in *.
  rewrite count_true in *. unfold tallies, s_sum. rewrite app_length. unfold Spec.SpectraSpec.consistent in *.
  repeat split; try congruence.
  - rewrite A4, T4. symmetry. apply nq_add.
  - rewrite A8, T7. lia.
  - rewrite A9, T8. symmetry. apply nq_add.
  - intros idx V. rewrite A10 by (rewrite T3, T2; exact V). rewrite (T9 idx V), count_app, nq_add, T2. reflexivity.
Qed.

Lemma decays_same s : with_decays s (s_decays s + nq 0)%Qc = s.
Proof.
  destruct s as [x1 x2 x3 x4 x5 x6 x7 x8]. unfold with_decays. cbn [s_name s_bg s_cfg s_data s_decays s_raw s_bipo s_rois].
  replace (x5 + nq 0)%Qc with x5 by (rewrite nq_0; ring). reflexivity.
Qed.
(** The first file *)
Lemma first_file factory valid value bipo name c es : wf_cfg c -> c <> [] -> name <> "" -> extracts c factory valid value ->
  exists s, fill_from_ntuple ev factory name (Some c) bipo es = Ok s /\ wf_spectra s /\ s_bg s = None /\
    tallies name c bipo (length es) value (selected ev c valid value bipo es) s.
Proof.
  intros W Nc N X. destruct (new_spectra_ok name (nq (length es)) c None W) as (s0 & E0 & W0 & Ec & Ed & Er & Z & En & Eb).
  unfold fill_from_ntuple. destruct (String.eqb_spec name ""); [congruence|]. rewrite E0. cbn [rbind].
  destruct (into_selected factory valid value bipo es s0 W0) as (s & Es & C); [now rewrite Ec|now rewrite Ec|].
  rewrite Es. exists s. split; [reflexivity|].
  assert (W1 : wf_spectra (if bipo then with_bipo s0 1 else s0)) by (destruct bipo; exact W0).
  pose proof (counts_wf _ _ _ _ _ C W1) as Ws.
  assert (B0 : s_bipo s0 = 0%Z /\ s_rois s0 = []).
  { revert E0. unfold new_spectra. destruct (forallb _ _); [|discriminate]. intro H. injection H as <-. split; reflexivity. }
  assert (S0 : s_sum s0 = 0%Qc).
  { unfold s_sum, asum. rewrite (@sum_over_ext _ _ (fun _ => 0%Qc)) by (intros; apply Z). apply sum_over_zero. }
  split; [exact Ws|].
  assert (T0 : tallies name c bipo (length es) value ([] : list E) (if bipo then with_bipo s0 1 else s0)).
  { destruct W0 as [_ C0]. destruct B0 as [B1 B2].
    unfold tallies, Spec.SpectraSpec.consistent, s_sum in *. destruct bipo; cbn [s_name s_cfg s_data s_decays s_raw s_bipo s_rois with_bipo length];
    repeat split; try assumption; intros; apply Z. }
  assert (C' : counts (fun _ => true) value (selected ev c valid value bipo es)
     (with_decays (if bipo then with_bipo s0 1 else s0) (s_decays (if bipo then with_bipo s0 1 else s0) + nq 0)%Qc) s).
  { rewrite decays_same. rewrite Ec in C. exact C. }
  pose proof (tallies_more _ _ _ _ _ _ _ _ _ _ T0 C') as T. rewrite Nat.add_0_r in T. cbn [app] in T. split; [|exact T].
  destruct C as (_ & C2 & _). rewrite C2. destruct bipo; exact Eb.
Qed.
(** The others *)
Lemma next_file factory valid value bipo name c es total l s : extracts c factory valid value -> c <> [] ->
  wf_spectra s -> s_bg s = None -> tallies name c bipo total value l s ->
  exists s', append_from_ntuple ev factory bipo es s = (s', None) /\ wf_spectra s' /\ s_bg s' = None /\
    tallies name c bipo (total + length es) value (l ++ selected ev c valid value bipo es) s'.
Proof.
  intros X N W B T. unfold append_from_ntuple. set (s1 := with_decays s _).
  assert (Ec : s_cfg s1 = c) by apply T.
  destruct (into_selected factory valid value bipo es s1 W) as (s' & Es & C); [now rewrite Ec|now rewrite Ec|].
  exists s'. split; [exact Es|].
  assert (Hb : (if bipo then with_bipo s1 1 else s1) = s1).
  { destruct bipo; [|reflexivity]. destruct T as (_ & _ & _ & _ & T & _). subst s1. destruct s as [x1 x2 x3 x4 x5 x6 x7 x8]. cbn in *. now subst. }
  rewrite Hb in C. rewrite Ec in C. split; [eapply counts_wf; [exact C|exact W]|]. split.
  - destruct C as (_ & C2 & _). now rewrite C2.
  - eapply tallies_more; [exact T|exact C].
Qed.
Lemma all_files entries factory valid value bipo name c : extracts c factory valid value -> c <> [] ->
  forall files total l s, wf_spectra s -> s_bg s = None -> tallies name c bipo total value l s ->
  exists s', append_each E ev entries factory bipo files s = Ok s' /\ wf_spectra s' /\ s_bg s' = None /\
    tallies name c bipo (total + total_entries entries files) value
      (l ++ flat_map (fun f => selected ev c valid value bipo (entries f)) files) s'.
Proof.
  intros X N. induction files as [|f files IH]; intros total l s W B T.
  - exists s. cbn. rewrite app_nil_r, Nat.add_0_r. auto.
  - destruct (next_file factory valid value bipo name c (entries f) total l s X N W B T) as (s1 & E1 & W1 & B1 & T1).
    destruct (IH _ _ s1 W1 B1 T1) as (s' & E' & W' & B' & T'). exists s'. cbn [append_each flat_map]. rewrite E1.
    refine (conj E' (conj W' (conj B' _))). unfold total_entries in *. cbn [flat_map]. rewrite app_length, Nat.add_assoc, app_assoc. exact T'.
Qed.
End Events.

(** ** Writing *)
Section Writing.
Variable pf : string -> res Qc.
Variable e : Qc.

Lemma kind_named s : s_bg s = None -> says_kind (s_name s) -> exists b, snd (get_background_name s) = Ok b.
Proof.
  intros B K. unfold get_background_name. rewrite B.
  destruct (contains "mc" (s_name s)) eqn:E1; [eexists; reflexivity|].
  destruct (contains "mix" (s_name s)) eqn:E2; [eexists; reflexivity|].
  destruct (contains "reco" (s_name s)) eqn:E3; [eexists; reflexivity|].
  unfold says_kind in K. rewrite E1, E2, E3 in K. destruct K as [K|[K|K]]; discriminate.
Qed.
Lemma made_storable cn s : wf_spectra s -> s_cfg s <> [] -> spectrum_storable (just_made cn s).
Proof.
  intros [[N A] C] NE. refine (conj (nodup_sbuilt _ N) (conj NE (conj (wf_bins _ A) (conj I (conj _ _))))); discriminate.
Qed.
Lemma leaves_made {E} fs path cn name c bipo total (value : string -> E -> Qc) l s b :
  wf_spectra s -> s_bg s = None -> c <> [] -> tallies name c bipo total value l s -> snd (get_background_name s) = Ok b ->
  exists s', leaves pf e fs (write_spectrum fs path (just_made cn s)) path cn s' /\ tallies name c bipo total value l s' /\ s_bg s' = Some b /\
    s_data s' = s_data s.
Proof.
  intros W B NE T G. assert (Ec : s_cfg s = c) by apply T.
  assert (St : spectrum_storable (just_made cn s)) by (apply made_storable; [exact W|now rewrite Ec]).
  destruct (dump_ok_l (fs path) (just_made cn s) false false b) as (f' & s' & D).
  { now left. } { exact G. }
  { cbn. destruct W as [_ C]. unfold Spec.SpectraSpec.consistent in C. rewrite C. unfold cfg_shape. rewrite Ec. destruct c; [congruence|discriminate]. }
  destruct (load_dump_l pf e (fs path) (just_made cn s) false false f' s' D St) as (bg & G' & L).
  cbn [just_made st_spec st_cfg_name st_fit st_style] in *. rewrite G' in G. injection G as ->.
  unfold write_spectrum. rewrite D. eexists. split; [split; [reflexivity|split]|].
  - cbn [fst]. rewrite write_same. exact L.
  - intros q Q. cbn [fst]. now apply write_other.
  - split; [exact T|split; reflexivity].
Qed.
Lemma mc_says name : says_kind (name ++ "_mc").
Proof.
  left. induction name as [|a name IH]; [reflexivity|]. cbn [append contains]. rewrite IH. now rewrite orb_true_r.
Qed.
End Writing.

(** ** Names *)
Lemma snoc (n : string) : n <> "" -> exists m a, n = (m ++ String a "")%string.
Proof.
  induction n as [|a n IH]; [congruence|]. intros _. destruct n as [|b n].
  - exists "", a. reflexivity.
  - destruct IH as (m & x & E); [discriminate|]. exists (String a m), x. cbn. now rewrite <- E.
Qed.
Lemma drop_app (a b : string) : drop (String.length a) (a ++ b) = b.
Proof.
  unfold drop. rewrite substring_skip, sapp_length. replace (String.length a + String.length b - String.length a) with (String.length b) by lia. apply substring_all.
Qed.
Lemma event_name_l f n : leaf f n -> event_name f = n.
Proof.
  intros (O & N & F). destruct (snoc n N) as (m & a & ->). rewrite PreConvLemmas.occurs_app in O. apply orb_false_iff in O as [Om _].
  unfold event_name. destruct F as [->|(d & ->)].
  - rewrite (drop_last_app 1 m (String a "")) by reflexivity. rewrite (after_last_none _ _ Om). exact (drop_app "" _).
  - assert (L : drop_last 1 (d ++ "/" ++ m ++ String a "") = (d ++ "/" ++ m)%string).
    { replace (d ++ "/" ++ m ++ String a "")%string with ((d ++ "/" ++ m) ++ String a "")%string by (rewrite !ScriptLemmas.sapp_assoc; reflexivity).
      now apply drop_last_app. }
    rewrite L. cbn [append]. rewrite (after_last_app "/" d m Om).
    replace (S (String.length d)) with (String.length (d ++ "/")) by (rewrite sapp_length; cbn; lia).
    change (String "/" (m ++ String a "")) with ("/" ++ (m ++ String a ""))%string. rewrite <- ScriptLemmas.sapp_assoc. apply drop_app.
Qed.
Lemma folder_name_l d n x : occurs "/" n = false -> n <> "" -> folder_name (d ++ "/" ++ n ++ String x "") = n.
Proof.
  intros O N. destruct (snoc n N) as (m & a & ->). rewrite PreConvLemmas.occurs_app in O. apply orb_false_iff in O as [Om _].
  unfold folder_name.
  assert (L1 : drop_last 1 (d ++ "/" ++ (m ++ String a "") ++ String x "") = (d ++ "/" ++ m ++ String a "")%string).
  { replace (d ++ "/" ++ (m ++ String a "") ++ String x "")%string with ((d ++ "/" ++ m ++ String a "") ++ String x "")%string by (rewrite !ScriptLemmas.sapp_assoc; reflexivity).
    now apply drop_last_app. }
  assert (L2 : drop_last 2 (d ++ "/" ++ (m ++ String a "") ++ String x "") = (d ++ "/" ++ m)%string).
  { replace (d ++ "/" ++ (m ++ String a "") ++ String x "")%string with ((d ++ "/" ++ m) ++ String a (String x ""))%string by (rewrite !ScriptLemmas.sapp_assoc; reflexivity).
    now apply drop_last_app. }
  rewrite L1, L2. cbn [append]. rewrite (after_last_app "/" d m Om).
  replace (S (String.length d)) with (String.length (d ++ "/")) by (rewrite sapp_length; cbn; lia).
  change (String "/" (m ++ String a "")) with ("/" ++ (m ++ String a ""))%string. rewrite <- ScriptLemmas.sapp_assoc. apply drop_app.
Qed.

(** ** The scripts *)
Section Runs.
Variable pf : string -> res Qc.
Variable e : Qc.
Context {E : Type}.
Variable ev : E -> Z.
Variable entries : string -> list E.
Variable factory : option Qc -> option Qc -> string -> res (extractor E).
Variable read_config : string -> res (string * sconfig).
Variable plots : spectra -> out.
Variable listdir : string -> res (list string).

Lemma outer_ok config_path cn c fv outer valid value : can_fill read_config factory plots config_path cn c fv outer valid value ->
  exists o, outer_keyword c outer = Ok o /\ extracts c (factory fv o) valid value.
Proof.
  intros (_ & _ & _ & [[O X]|(r & -> & N & R & X)] & _).
  - exists None. split; [|exact X]. destruct O as [->| ->]; [reflexivity|]. unfold outer_keyword, given.
    destruct (qeqP 0 0); [reflexivity|congruence].
  - exists (Some r). split; [|exact X]. unfold outer_keyword, given. destruct (qeqP r 0); [congruence|].
    destruct (str_in "radial3" (get_dims c)) eqn:S; [reflexivity|]. apply str_in_false in S. contradiction.
Qed.
Lemma one_ntuple fs f config_path n save bipo fv outer cn c valid value :
  can_fill read_config factory plots config_path cn c fv outer valid value ->
  exists s, leaves pf e fs (read_and_dump_ntuple E ev entries factory read_config plots fs f config_path n save bipo fv outer)
              (save ++ "/" ++ n ++ ".hdf5") cn s /\
    tallies (n ++ "_mc") c bipo (length (entries f)) value (selected ev c valid value bipo (entries f)) s /\
    (contains "mc" n = false -> s_bg s = Some n).
Proof.
  intros H. destruct (outer_ok _ _ _ _ _ _ _ H) as (o & Eo & X). destruct H as (R & W & NE & _ & P).
  unfold read_and_dump_ntuple. rewrite R. cbn [rbind fst snd]. rewrite Eo. cbn [rbind].
  destruct (first_file ev (factory fv o) valid value bipo (n ++ "_mc") c (entries f) W NE) as (s & Es & Ws & B & T); [destruct n; discriminate|exact X|].
  rewrite Es. cbn [rbind]. rewrite P. cbn [outcome rbind script].
  assert (En : s_name s = n ++ "_mc") by apply T.
  destruct (kind_named s B) as (b & G); [rewrite En; apply mc_says|].
  destruct (leaves_made pf e fs (save ++ "/" ++ n ++ ".hdf5") cn _ _ _ _ _ _ s b Ws B NE T G) as (s' & L & T' & B' & _).
  exists s'. split; [exact L|]. split; [exact T'|]. intro C. rewrite B'. f_equal.
  rewrite (NameLemmas.name_mc_l s n "") in G; [congruence|now left|exact En|exact C].
Qed.
Lemma hdf5_inj save n m : (save ++ "/" ++ n ++ ".hdf5")%string = (save ++ "/" ++ m ++ ".hdf5")%string -> n = m.
Proof. intro H. apply sapp_inj_l, sapp_inj_l, sapp_inj_r in H. exact H. Qed.
Lemma each_ntuple config_path save bipo fv outer cn c valid value :
  can_fill read_config factory plots config_path cn c fv outer valid value ->
  forall files ns, Forall2 leaf files ns -> NoDup ns -> forall fs,
  let run := dump_each E ev entries factory read_config plots fs files config_path save bipo fv outer in
  snd run = None /\
  Forall2 (fun f n => exists s, load pf e (fst run (save ++ "/" ++ n ++ ".hdf5")) = Ok (Stored s cn None default_style) /\
    tallies (n ++ "_mc") c bipo (length (entries f)) value (selected ev c valid value bipo (entries f)) s) files ns /\
  forall p, (forall n, In n ns -> p <> (save ++ "/" ++ n ++ ".hdf5")) -> fst run p = fs p.
Proof.
  intro H. induction 1 as [|f n files ns L F IH]; intros ND fs; cbn zeta; cbn [dump_each].
  - repeat split; constructor.
  - inversion ND as [|? ? Nn ND']; subst. rewrite (event_name_l f n L).
    destruct (one_ntuple fs f config_path n save bipo fv outer cn c valid value H) as (s & (D & Lo & Fr) & T & _).
    destruct (read_and_dump_ntuple _ _ _ _ _ _ _ _ _ _ _ _ _ _) as [fs1 o]. cbn [fst snd] in *. subst o.
    destruct (IH ND' fs1) as (D' & L' & Fr'). split; [exact D'|]. split.
    + constructor; [|exact L']. exists s. split; [|exact T]. rewrite Fr'; [exact Lo|].
      intros m I Em. apply hdf5_inj in Em. now subst.
    + intros p Hp. rewrite Fr' by (intros m I; apply Hp; now right). apply Fr. apply Hp. now left.
Qed.
Lemma combined fs d config_path name save bipo fv outer cn c valid value files :
  can_fill read_config factory plots config_path cn c fv outer valid value -> listdir d = Ok files -> files <> [] -> name <> "" -> 
  exists s, wf_spectra s /\ s_bg s = None /\
    tallies name c bipo (total_entries entries (map (fun f => d ++ "/" ++ f) files)) value
      (flat_map (fun f => selected ev c valid value bipo (entries (d ++ "/" ++ f))) files) s /\
    create_combined E ev entries factory read_config plots listdir fs d config_path name save bipo fv outer =
    write_spectrum fs (save ++ name ++ ".hdf5") (just_made cn s).
Proof.
  intros H Ld NF N. destruct (outer_ok _ _ _ _ _ _ _ H) as (o & Eo & X). destruct H as (R & W & NE & _ & P).
  unfold create_combined. rewrite R. cbn [rbind fst snd]. rewrite Ld. cbn [rbind]. rewrite Eo. cbn [rbind].
  destruct files as [|f files]; [congruence|]. cbn [map].
  destruct (first_file ev (factory fv o) valid value bipo name c (entries (d ++ "/" ++ f)) W NE N X) as (s1 & E1 & W1 & B1 & T1).
  rewrite E1. cbn [rbind].
  destruct (all_files ev entries (factory fv o) valid value bipo name c X NE (map (fun f => d ++ "/" ++ f) files) _ _ s1 W1 B1 T1) as (s & Es & Ws & B & T).
  rewrite Es. cbn [rbind]. rewrite P. cbn [outcome rbind script]. exists s. refine (conj Ws (conj B (conj _ eq_refl))).
  replace (total_entries entries ((d ++ "/" ++ f) :: map (fun f => d ++ "/" ++ f) files)) with
    (length (entries (d ++ "/" ++ f)) + total_entries entries (map (fun f => d ++ "/" ++ f) files)) by (unfold total_entries; cbn [flat_map]; now rewrite app_length).
  cbn [flat_map]. rewrite flat_map_concat_map, map_map, <- flat_map_concat_map in T. exact T.
Qed.
Lemma combined_l fs d config_path name save bipo fv outer cn c valid value files :
  can_fill read_config factory plots config_path cn c fv outer valid value -> listdir d = Ok files -> files <> [] -> says_kind name ->
  exists s, leaves pf e fs (create_combined E ev entries factory read_config plots listdir fs d config_path name save bipo fv outer)
              (save ++ name ++ ".hdf5") cn s /\
    tallies name c bipo (total_entries entries (map (fun f => d ++ "/" ++ f) files)) value
      (flat_map (fun f => selected ev c valid value bipo (entries (d ++ "/" ++ f))) files) s /\
    exists s0, s_name s0 = name /\ s_bg s0 = None /\ snd (get_background_name s0) = Ok (match s_bg s with Some b => b | None => "" end) /\ s_bg s <> None.
Proof.
  intros H Ld NF K. destruct (combined fs d config_path name save bipo fv outer cn c valid value files H Ld NF) as (s & Ws & B & T & ->).
  { intros ->. destruct K as [K|[K|K]]; discriminate. }
  assert (En : s_name s = name) by apply T. destruct (kind_named s B) as (b & G); [now rewrite En|].
  destruct H as (_ & _ & NE & _).
  destruct (leaves_made pf e fs (save ++ name ++ ".hdf5") cn _ _ _ _ _ _ s b Ws B NE T G) as (s' & L & T' & B' & _).
  exists s'. split; [exact L|]. split; [exact T'|]. exists s. rewrite B'. repeat split; try assumption. discriminate.
Qed.
Lemma combined_no_kind fs d config_path name save bipo fv outer cn c valid value files :
  can_fill read_config factory plots config_path cn c fv outer valid value -> listdir d = Ok files -> files <> [] -> name <> "" -> ~ says_kind name ->
  let run := create_combined E ev entries factory read_config plots listdir fs d config_path name save bipo fv outer in
  snd run = Some EValueError /\ load pf e (fst run (save ++ name ++ ".hdf5")) = Err EKeyError.
Proof.
  intros H Ld NF N K. cbn zeta. destruct (combined fs d config_path name save bipo fv outer cn c valid value files H Ld NF N) as (s & Ws & B & T & ->).
  assert (En : s_name s = name) by apply T.
  assert (G : snd (get_background_name s) = Err EValueError).
  { unfold get_background_name. rewrite B, En. unfold says_kind in K.
    destruct (contains "mc" name); [exfalso; tauto|]. destruct (contains "mix" name); [exfalso; tauto|]. destruct (contains "reco" name); [exfalso; tauto|reflexivity]. }
  unfold write_spectrum. rewrite dump_unfold. cbn zeta. unfold just_made. cbn [st_spec]. rewrite G.
  assert (C0 : cleared false false (fs (save ++ name ++ ".hdf5")%string) = Root [] []) by (unfold cleared, opened; reflexivity).
  rewrite C0. cbn [r_members dkeys map str_in existsb]. cbn [fst snd]. split; [reflexivity|]. rewrite write_same. reflexivity.
Qed.
Lemma no_radial3 fs f d config_path n save bipo fv r cn c :
  read_config config_path = Ok (cn, c) -> r <> 0%Qc -> ~ In "radial3" (get_dims c) ->
  read_and_dump_ntuple E ev entries factory read_config plots fs f config_path n save bipo fv (Some r) = (fs, Some EValueError) /\
  (forall files, listdir d = Ok files ->
   create_combined E ev entries factory read_config plots listdir fs d config_path n save bipo fv (Some r) = (fs, Some EValueError)).
Proof.
  intros R N D. assert (O : outer_keyword c (Some r) = Err EValueError).
  { unfold outer_keyword, given. destruct (qeqP r 0); [congruence|]. destruct (str_in "radial3" (get_dims c)) eqn:S; [|reflexivity].
    exfalso. apply D. unfold str_in in S. apply existsb_exists in S as (x & I & Q). apply String.eqb_eq in Q. now subst. }
  split; [|intros files Ld]; unfold read_and_dump_ntuple, create_combined; rewrite R; cbn [rbind fst snd]; rewrite ?Ld; cbn [rbind]; rewrite O; reflexivity.
Qed.
End Runs.

Lemma count_perm {A} (P : A -> bool) l m : Permutation l m -> count P l = count P m.
Proof.
  unfold count. induction 1; cbn; [reflexivity| | |congruence].
  - destruct (P x); cbn; now rewrite IHPermutation.
  - destruct (P x), (P y); reflexivity.
Qed.
Lemma flat_map_perm {A B} (f : A -> list B) l m : Permutation l m -> Permutation (flat_map f l) (flat_map f m).
Proof.
  induction 1; cbn; [constructor| | |eapply Permutation_trans; eassumption].
  - now apply Permutation_app_head.
  - rewrite !app_assoc. apply Permutation_app_tail, Permutation_app_comm.
Qed.
Lemma tallies_same {E} name c bipo n m (value : string -> E -> Qc) l l' s s' :
  tallies name c bipo n value l s -> tallies name c bipo m value l' s' -> n = m -> Permutation l l' -> s_bg s = s_bg s' -> same_spectra s s'.
Proof.
  intros (T1 & T2 & T3 & T4 & T5 & T6 & T7 & T8 & T9) (U1 & U2 & U3 & U4 & U5 & U6 & U7 & U8 & U9) <- P B.
  unfold Spec.SpectraSpec.consistent in *.
  assert (Sh : ashape (s_data s) = ashape (s_data s')) by congruence.
  split.
  - unfold same_meta. rewrite (Permutation_length P) in T7. repeat split; congruence.
  - intros idx V. rewrite T3, T2 in V. rewrite T9, U9 by assumption. now rewrite (count_perm _ _ _ P).
Qed.

(** Where a fit looks for a convolved spectrum, and the files the scripts write. *)
From Coq Require Import Lia.
From Verif Require Import Model.Base Model.PyStr Model.NDArray Model.Param Model.Config Model.Spectra Model.Smear Model.Shift
  Model.Heap Model.Fit Model.FitConfig Model.Store Model.Combine Model.PreConv Model.Scripts Model.PreMade.
From Verif Require Import Spec.AxisSpec Spec.SpectraSpec Spec.NameSpec Spec.ConfigSpec Spec.StoreSpec Spec.FitRunSpec Spec.ScriptSpec Spec.PreMadeSpec.
From Verif Require Import Proofs.QcLemmas Proofs.StrLemmas Proofs.DictLemmas Proofs.NameLemmas Proofs.PreConvLemmas Proofs.DeriveExt Proofs.FitLemmas Proofs.ScriptLemmas.
Local Open Scope string_scope.
Local Open Scope list_scope.

(** ** Directories *)
Lemma fold_snoc c x : c <> [] -> folder (c ++ [x]) = (folder c ++ "/" ++ x)%string.
Proof.
  intro N. unfold folder. induction c as [|y c IH]; [contradiction|]. destruct c as [|z c].
  - reflexivity.
  - change ((y :: z :: c) ++ [x]) with (y :: (z :: c) ++ [x]). cbn [join]. rewrite IH by discriminate.
    destruct ((z :: c) ++ [x]) eqn:E; [destruct c; discriminate|]. rewrite !sapp_assoc. reflexivity.
Qed.
Lemma folder_cons x y c : folder (x :: y :: c) = (x ++ "/" ++ folder (y :: c))%string.
Proof. reflexivity. Qed.
Lemma starts_stop p x r : occurs "/" p = false -> starts_with p (x ++ String "/" r) = starts_with p x.
Proof.
  revert x. induction p as [|a p IH]; intros x H; [destruct x; reflexivity|]. cbn in H. apply orb_false_iff in H as [H1 H2].
  destruct x as [|b x]; cbn; [rewrite H1; reflexivity|]. rewrite IH by exact H2. reflexivity.
Qed.
Lemma contains_stop p x r : p <> "" -> occurs "/" p = false -> contains p (x ++ String "/" r) = contains p x || contains p r.
Proof.
  intros N H. induction x as [|b x IH].
  - cbn [append contains]. destruct p as [|a p]; [contradiction|]. cbn in H. apply orb_false_iff in H as [H1 _]. cbn [starts_with]. rewrite H1. reflexivity.
  - change (String b x ++ String "/" r)%string with (String b (x ++ String "/" r)). cbn [contains]. rewrite IH.
    change (String b (x ++ String "/" r)) with (String b x ++ String "/" r)%string. rewrite starts_stop by exact H. apply orb_assoc.
Qed.
Lemma contains_folder p c : p <> "" -> occurs "/" p = false -> c <> [] -> contains p (folder c ++ "/") = existsb (contains p) c.
Proof.
  intros N H. induction c as [|x c IH]; [contradiction|]. intros _. destruct c as [|y c].
  - change (folder [x] ++ "/")%string with (x ++ String "/" "")%string. rewrite contains_stop by assumption. cbn [existsb]. f_equal. destruct p; [contradiction|reflexivity].
  - rewrite folder_cons. rewrite !sapp_assoc. change ("/" ++ folder (y :: c) ++ "/")%string with (String "/" (folder (y :: c) ++ "/")).
    rewrite contains_stop by assumption. rewrite IH by discriminate. reflexivity.
Qed.
Lemma split_folder c : c <> [] -> Forall (fun n => occurs "/" n = false) c -> split_char "/" (folder c ++ "/") = c ++ [""].
Proof.
  intros N F. induction F as [|x c H F IH]; [contradiction|]. rewrite occurs_has in H. destruct c as [|y c].
  - change (folder [x] ++ "/")%string with (x ++ String "/" "")%string. rewrite split_app, split_none by exact H. reflexivity.
  - rewrite folder_cons, !sapp_assoc. change ("/" ++ folder (y :: c) ++ "/")%string with (String "/" (folder (y :: c) ++ "/")).
    rewrite split_app, split_none, IH by (exact H || discriminate). reflexivity.
Qed.
Lemma after_split x c : In x c -> exists pre, c = pre ++ x :: after x c /\ ~ In x (after x c).
Proof.
  induction c as [|y c IH]; [intros []|]. intro I. cbn [after]. destruct (str_in x c) eqn:E.
  - pose proof (proj1 (str_in_iff _ _) E) as E'. destruct (IH E') as (pre & Ec & N). exists (y :: pre). split; [cbn [app]; f_equal; exact Ec|exact N].
  - apply str_in_false in E. destruct I as [->|I]; [|contradiction]. rewrite String.eqb_refl. exists []. split; [reflexivity|exact E].
Qed.
Lemma index_app_none x l r : ~ In x l -> str_index x (l ++ x :: r) = Ok (length l).
Proof.
  induction l as [|y l IH]; intro N; cbn [app str_index]; [now rewrite String.eqb_refl|]. destruct (String.eqb_spec x y) as [->|_]; [exfalso; apply N; now left|].
  rewrite IH by (intro; apply N; now right). reflexivity.
Qed.
Lemma index_after x c : x <> "" -> In x c -> str_index x (rev (c ++ [""])) = Ok (S (length (after x c))) /\
  last_items (S (length (after x c))) (c ++ [""]) = after x c ++ [""].
Proof.
  intros X I. destruct (after_split x c I) as (pre & E & N). remember (after x c) as r eqn:Er. clear Er. subst c. split.
  - rewrite rev_app_distr. cbn [rev app]. rewrite rev_app_distr. cbn [rev]. rewrite <- app_assoc. cbn [app].
    change ("" :: rev r ++ x :: rev pre) with (("" :: rev r) ++ x :: rev pre). rewrite index_app_none; [cbn; now rewrite rev_length|].
    intros [E|K]; [congruence|]. now apply in_rev in K.
  - unfold last_items. rewrite !app_length. cbn [length]. replace (length pre + S (length r) + 1 - S (length r)) with (length (pre ++ [x])) by (rewrite app_length; cbn; lia).
    replace ((pre ++ x :: r) ++ [""]) with ((pre ++ [x]) ++ (r ++ [""])) by (rewrite <- !app_assoc; reflexivity).
    rewrite skipn_app, skipn_all, Nat.sub_diag. reflexivity.
Qed.
Lemma str_in_app x a b : str_in x (a ++ b) = str_in x a || str_in x b.
Proof. apply existsb_app. Qed.
Lemma kind_folder_eq k : kind_folder k = syst_dir k. Proof. destruct k; reflexivity. Qed.
Lemma kind_folder_in k : In (kind_folder k) ["smear"; "scale"; "shift"].
Proof. destruct k; cbn; tauto. Qed.
Lemma below_in n c x : In n (below c x) -> In n c \/ n = se_dim x \/ n = kind_folder (se_class x).
Proof.
  unfold below. destruct (str_in (se_dim x) c); [destruct (str_in _ _)|]; intro I; [now left| |]; apply in_app_or in I as [I|I]; cbn in I; intuition.
Qed.
Lemma last_snoc {A} (l : list A) x d : last (l ++ [x]) d = x.
Proof. induction l as [|y l IH]; [reflexivity|]. cbn [app]. destruct (l ++ [x]) eqn:E; [destruct l; discriminate|]. rewrite <- IH. reflexivity. Qed.
Lemma below_plain c x : plain_folder c -> occurs "/" (se_dim x) = false -> plain_folder (below c x).
Proof.
  intros (N & F & L) D. assert (K : kind_folder (se_class x) <> "" /\ occurs "/" (kind_folder (se_class x)) = false) by (destruct (se_class x); split; discriminate || reflexivity).
  destruct K as [K1 K2]. unfold below. destruct (str_in (se_dim x) c); [destruct (str_in _ _)|]; [now split| |].
  - split; [destruct c; discriminate|]. split; [apply Forall_app; split; [exact F|now constructor]|]. now rewrite last_snoc.
  - split; [destruct c; discriminate|]. split; [apply Forall_app; split; [exact F|now repeat constructor]|].
    change [se_dim x; kind_folder (se_class x)] with ([se_dim x] ++ [kind_folder (se_class x)]). rewrite app_assoc. now rewrite last_snoc.
Qed.
Lemma apart_step x xs c : dims_apart (x :: xs) c -> dims_apart xs (below c x).
Proof.
  intros H y n Iy In_ C. apply (H y n); [now right| |exact C]. apply in_app_or in In_ as [I|I].
  - apply below_in in I as [I|[->| ->]].
    + apply in_or_app. now left.
    + apply in_or_app. right. apply in_or_app. left. now left.
    + apply in_or_app. right. apply in_or_app. right. apply kind_folder_in.
  - apply in_or_app. right. apply in_app_or in I as [I|I]; apply in_or_app; [left; now right|now right].
Qed.
Lemma contains_self p : contains p p = true.
Proof. destruct p; [reflexivity|]. apply contains_starts. rewrite <- (sapp_nil (String a p)) at 2. apply starts_with_app. Qed.
Lemma apart_here xs x c : In x xs -> dims_apart xs c -> existsb (contains (se_dim x)) c = str_in (se_dim x) c.
Proof.
  intros I H. apply eq_true_iff_eq. rewrite existsb_exists, str_in_iff. split.
  - intros (n & In_ & C). assert (E : n = se_dim x) by (apply (H x n I); [apply in_or_app; now left|exact C]). now rewrite <- E.
  - intro K. exists (se_dim x). split; [exact K|apply contains_self].
Qed.

Lemma place_dir str xs x c f : In x xs -> plain_folder c -> dims_apart xs c -> plain_setting str x ->
  place_one (as_gpar str x) ((folder c ++ "/")%string, f) =
  Ok ((folder (below c x) ++ "/")%string, conv_name (mark x) (value_string (PVal (se_value x) (str (se_value x)))) f).
Proof.
  intros I (N & F & L) A (D1 & D2 & D3 & _). unfold place_one, as_gpar. cbn [gp_dim gp_class gp_cur].
  rewrite contains_folder, (apart_here xs x c I A) by assumption. unfold get_pre_convolved, pre_convolved.
  replace (syst_ext (se_class x) (PVal (se_value x) (str (se_value x)))) with (mark x) by (unfold mark; destruct (se_class x); reflexivity).
  rewrite <- kind_folder_eq. assert (K : kind_folder (se_class x) <> "") by (destruct (se_class x); discriminate).
  unfold below. destruct (str_in (se_dim x) c) eqn:E; cbn [negb].
  - rewrite conv_dir_slash, split_folder by assumption. apply str_in_iff in E. destruct (index_after (se_dim x) c D1 E) as (-> & E2).
    cbn [rbind]. rewrite E2, str_in_app. cbn [str_in existsb]. destruct (String.eqb_spec (kind_folder (se_class x)) "") as [|_]; [contradiction|]. rewrite !orb_false_r.
    destruct (str_in (kind_folder (se_class x)) (after (se_dim x) c)); cbn [rbind]; [reflexivity|]. rewrite fold_snoc by exact N. rewrite !sapp_assoc. reflexivity.
  - replace ((folder c ++ "/") ++ se_dim x ++ "/")%string with ((folder c ++ "/" ++ se_dim x) ++ "/")%string by (rewrite !sapp_assoc; reflexivity).
    rewrite conv_dir_slash. cbn [rbind]. change [se_dim x; kind_folder (se_class x)] with ([se_dim x] ++ [kind_folder (se_class x)]).
    rewrite app_assoc, fold_snoc, fold_snoc by (exact N || (destruct c; discriminate)). rewrite !sapp_assoc. reflexivity.
Qed.

(** ** Names *)
Lemma trimmed_decimal n s : decimal s -> value_string (PVal n s) = trimmed s.
Proof.
  intros (a & b & -> & A & B & N & H). rewrite (value_string_decimal n a b A B N H). unfold trimmed. rewrite (last_n_ends 2) by reflexivity.
  destruct (String.eqb_spec b "0") as [->|NZ].
  - change (a ++ "." ++ "0")%string with (a ++ ".0")%string. rewrite ends_self. unfold drop_last. rewrite sapp_length. cbn [String.length].
    replace (String.length a + 2 - 2) with (String.length a) by lia. symmetry. now apply substring_0.
  - destruct H as [|H]; [contradiction|]. destruct (ends_with ".0" (a ++ "." ++ b)) eqn:E; [|reflexivity]. exfalso.
    apply ends_with_iff in E as (z & E). change ".0" with ("." ++ "0")%string in E.
    assert (K : ends_with "0" (a ++ "." ++ b) = true). { rewrite E. apply ends_with_iff. exists (z ++ ".")%string. now rewrite sapp_assoc. }
    rewrite <- sapp_assoc in K. rewrite ends_char_app in K by exact N. congruence.
Qed.
Lemma mark_good x : good_ext (mark x).
Proof. unfold good_ext, mark. destruct (se_class x); [destruct (qlt _ _)|..]; cbn; auto 6. Qed.
Lemma snoc_inv {A} (l : list A) : l <> [] -> exists i b, l = i ++ [b].
Proof. intro N. destruct (exists_last N) as (i & b & ->). eauto. Qed.
Lemma named_file parts : parts <> [] -> exists i b, parts = i ++ [b] /\ (named parts ++ ".hdf5")%string = file_name i b.
Proof.
  intro N. destruct (snoc_inv parts N) as (i & b & ->). exists i, b. split; [reflexivity|]. destruct (file_name_drop i b) as (s & E1 & E2).
  unfold named. now rewrite E2, E1.
Qed.
Lemma place_name x vs parts : parts <> [] -> Forall token parts -> (forall n, In n parts -> ends_with (mark x) n = false) ->
  conv_name (mark x) vs (named parts ++ ".hdf5") = (named (parts ++ [(vs ++ mark x)%string]) ++ ".hdf5")%string.
Proof.
  intros N T F. destruct (named_file parts N) as (i & b & -> & ->). rewrite (conv_name_l _ vs i b (mark_good x) T). unfold renamed.
  assert (E : existsb (ends_with (mark x)) (i ++ [b]) = false).
  { apply not_true_iff_false. rewrite existsb_exists. intros (n & In_ & K). rewrite (F n In_) in K. discriminate. }
  rewrite E. cbn [fst snd]. destruct (file_name_drop (i ++ [b]) (vs ++ mark x)) as (s & E1 & E2). rewrite E1. unfold named. now rewrite E2.
Qed.
Lemma mark_len x : String.length (mark x) = 2. Proof. exact (ext_len _ (mark_good x)). Qed.
Lemma tag_ends str x y : mark x <> mark y -> ends_with (mark y) (tag str x) = false.
Proof.
  intro N. apply ends_with_false. intros a E. unfold tag in E. apply sapp_tail_eq in E as [E _]; [contradiction|now rewrite !mark_len].
Qed.
Lemma token_tag str x : plain_setting str x -> token (tag str x).
Proof.
  intros (_ & _ & _ & D & U & _). split.
  - unfold tag. rewrite occurs_app, (ext_no_underscore _ (mark_good x)), orb_false_r. rewrite <- (trimmed_decimal (se_value x)) by exact D.
    apply (value_no_underscore (PVal (se_value x) (str (se_value x)))). exact U.
  - unfold tag. apply ext_not_hdf5, mark_good.
Qed.
Lemma named_nonempty parts : named parts <> "" -> parts <> []. Proof. intros H ->. now apply H. Qed.
Lemma named_snoc parts t : parts <> [] -> named (parts ++ [t]) = (named parts ++ "_" ++ t)%string.
Proof. apply join_snoc. Qed.
Lemma trimmed_no_slash s (n : Qc) : decimal s -> occurs "/" s = false -> occurs "/" (trimmed s) = false.
Proof. intros D H. rewrite <- (trimmed_decimal n s D). unfold value_string. cbn [pv_str]. apply occurs_rstrip, occurs_rstrip, H. Qed.
Lemma mark_no_slash x : occurs "/" (mark x) = false.
Proof. unfold mark. destruct (se_class x); [destruct (qlt _ _)|..]; reflexivity. Qed.
Lemma name_step str x parts : plain_name parts -> plain_setting str x -> plain_name (parts ++ [tag str x]).
Proof.
  intros (T & N & S & O) P. pose proof (named_nonempty _ N) as NP. split; [|rewrite (named_snoc parts (tag str x) NP); split; [|split]].
  - apply Forall_app. split; [exact T|]. constructor; [now apply token_tag|constructor].
  - destruct (named parts); [contradiction|discriminate].
  - destruct (named parts) as [|a r]; [contradiction|exact S].
  - rewrite !occurs_app, O. unfold tag. rewrite occurs_app, mark_no_slash. destruct P as (_ & _ & _ & D & _ & Sl).
    rewrite (trimmed_no_slash (str (se_value x)) (se_value x) D Sl). reflexivity.
Qed.
Lemma marks_step str x xs parts : marks_free (x :: xs) parts -> marks_free xs (parts ++ [tag str x]).
Proof.
  intros [N F]. cbn [map] in N. apply NoDup_cons_iff in N as [N1 N2]. split; [exact N2|]. intros y n Iy I. apply in_app_or in I as [I|[<-|[]]].
  - apply F; [now right|exact I].
  - apply tag_ends. intro E. apply N1. rewrite E. now apply in_map.
Qed.
Lemma place_all str : forall xs c parts, plain_folder c -> dims_apart xs c -> plain_name parts -> marks_free xs parts -> Forall (plain_setting str) xs ->
  place (map (as_gpar str) xs) ((folder c ++ "/")%string, (named parts ++ ".hdf5")%string) =
  Ok ((folder (folders c xs) ++ "/")%string, (named (parts ++ map (tag str) xs) ++ ".hdf5")%string).
Proof.
  induction xs as [|x xs IH]; intros c parts C A N M S; cbn [map place folders fold_left]; [now rewrite app_nil_r|].
  inversion S as [|? ? Sx Sxs]; subst. pose proof Sx as (_ & D2 & _ & D4 & _).
  rewrite (place_dir str (x :: xs) x c _ (or_introl eq_refl) C A Sx). cbn [rbind].
  rewrite place_name; [|exact (named_nonempty _ (proj1 (proj2 N)))|exact (proj1 N)|intros n I; apply (proj2 M x n (or_introl eq_refl) I)].
  rewrite (trimmed_decimal _ _ D4). change (trimmed (str (se_value x)) ++ mark x)%string with (tag str x).
  rewrite IH; [|now apply below_plain|now apply apart_step|now apply name_step|now apply marks_step|exact Sxs].
  unfold folders. rewrite <- app_assoc. reflexivity.
Qed.
Lemma folder_path c : plain_folder c -> folder c <> "" /\ ends_with "/" (folder c) = false.
Proof.
  intros (N & F & L). destruct (snoc_inv c N) as (i & b & ->). rewrite last_snoc in L. apply Forall_app in F as [_ F]. inversion F as [|? ? Fb _]; subst.
  assert (E : ends_with "/" b = false). { destruct (ends_with "/" b) eqn:E; [|reflexivity]. apply ends_char_occurs in E. congruence. }
  destruct i as [|y i]; [split; assumption|]. rewrite fold_snoc by discriminate. split.
  - destruct (folder (y :: i)); discriminate.
  - rewrite <- sapp_assoc. rewrite ends_char_app by exact L. exact E.
Qed.
Lemma location_plain d parts : d <> "" -> ends_with "/" d = false -> plain_name parts -> plain_path d (named parts) "hdf5".
Proof. intros D1 D2 (_ & N1 & N2 & N3). repeat split; assumption || reflexivity. Qed.
(** The path a fit loads. *)
Lemma path_l str base d parts c xs : d <> "" -> ends_with "/" d = false ->
  (base = "" /\ d = folder c \/ base = (folder c ++ "/")%string) ->
  plain_folder c -> dims_apart xs c -> plain_name parts -> marks_free xs parts -> Forall (plain_setting str) xs ->
  pre_made_path base (Some (path d (named parts) "hdf5")) (map (as_gpar str) xs) =
  Ok (path (folder (folders c xs)) (named (parts ++ map (tag str) xs)) "hdf5").
Proof.
  intros D1 D2 B C A N M S. pose proof (location_plain d parts D1 D2 N) as P. unfold pre_made_path, start_place.
  rewrite (path_dir _ _ _ P). unfold path at 1. rewrite (basename_path d _ (path_parts _ _ _ P)). cbn [rbind].
  replace (if String.eqb base "" then (d ++ "/")%string else base) with (folder c ++ "/")%string.
  2:{ destruct B as [[-> ->]| ->]; [reflexivity|]. destruct (folder c); reflexivity. }
  change ("." ++ "hdf5")%string with ".hdf5". rewrite (place_all str xs c parts C A N M S). cbn [rbind fst snd].
  f_equal. unfold path. rewrite !sapp_assoc. reflexivity.
Qed.

(** ** The scripts *)
Lemma rate_again kc : rate_entry kc -> rate_entry (fst kc, again false (fst kc) (snd kc)).
Proof.
  intros (R & C & D & K). unfold rate_entry, again. cbn [fst snd cp_class cp_par]. split; [exact R|]. split; [exact C|]. split; [exact D|].
  unfold constructed, reread in *. exact K.
Qed.
Lemma storable_again name f : fit_storable f -> fit_storable (fit_again name f).
Proof.
  destruct f as [c|]; [|auto]. cbn. intros (N & D & F). split; [|split].
  - destruct (sf_pars c); [contradiction|discriminate].
  - unfold dkeys in *. rewrite map_map. exact D.
  - apply Forall_forall. intros kp I. apply in_map_iff in I as (kc & <- & I). apply rate_again. exact (proj1 (Forall_forall _ _) F kc I).
Qed.
Section Steps.
Variables (pf : string -> res Qc) (e : Qc) (str : Qc -> string) (spline : list Qc -> list Qc -> Qc -> Qc) (isdir : string -> bool) (fo : formulas).
Lemma kind_derives x : exists f, setting_kind str spline fo x = KDerive f.
Proof. unfold setting_kind, scale_kind, shift_kind, resolution_kind. destruct (se_class x); eexists; reflexivity. Qed.
Lemma kind_kept x v s t : wf_spectra s -> s_cfg s <> [] -> apply_value (setting_kind str spline fo x) v s = Ok t ->
  wf_spectra t /\ s_cfg t <> [] /\ s_bg t = s_bg s /\ s_cfg t = s_cfg s /\ s_decays t = s_decays s.
Proof.
  intros W N. destruct (kind_derives x) as (f & ->). cbn [apply_value]. destruct (f v s) as [d|]; [|discriminate]. cbn [rbind]. intro D.
  destruct (derive_wf d s t W N D) as (W' & N' & B). pose proof (derive_kept d s t D) as (_ & K & K2 & _). auto 6.
Qed.
Lemma sound_next x v s t : sound s -> apply_value (setting_kind str spline fo x) v (st_spec s) = Ok t ->
  sound (Stored t (st_cfg_name s) (fit_again (s_name t) (st_fit s)) (st_style s)).
Proof.
  intros (W & N & (b & B & NB) & F & S1 & S2) T. destruct (kind_kept x v (st_spec s) t W N T) as (W' & N' & B' & _).
  split; [exact W'|]. split; [exact N'|]. split; [exists b; split; [cbn [st_spec]; congruence|exact NB]|]. split; [now apply storable_again|]. now split.
Qed.
Lemma along_one f a s : along f [a] s = f a s.
Proof. cbn [along]. destruct (f a s); reflexivity. Qed.
Lemma script_step fs x d parts c s : plain_path d (named parts) "hdf5" -> plain_name parts -> plain_folder c -> isdir (folder c) = true ->
  load pf e (fs (path d (named parts) "hdf5")) = Ok s -> sound s -> plain_setting str x -> scriptable str (st_spec s) x ->
  converts pf e fs (run_script pf e str spline isdir fo fs x (path d (named parts) "hdf5") (folder c)) s
    (apply_value (setting_kind str spline fo x) (se_value x) (st_spec s)) (path (folder c) (named (parts ++ [tag str x])) "hdf5").
Proof.
  intros P N C I L S (D1 & _ & _ & _) K. destruct (folder_path c C) as [F1 F2]. rewrite named_snoc by exact (named_nonempty _ (proj1 (proj2 N))).
  assert (W : written_to isdir (Some (folder c)) d (folder c)) by (split; [exact I|]; split; [exact F1|]; split; [now left|exact F2]).
  unfold run_script, setting_kind, scriptable, tag, mark in *. destruct (se_class x).
  - destruct K as [K E]. destruct K as [K|(K0 & K1 & K2)].
    + assert (Z : (0 < se_value x)%Qc). { eapply Qclt_trans; [|exact K]. apply qlt_iff. vm_compute. reflexivity. }
      apply qlt_iff in K. rewrite K.
      pose proof (energy_ly_l pf e str isdir fo fs d (named parts) "hdf5" "weight" (se_value x) false (Some (folder c)) (folder c) s P (or_introl eq_refl) Z W L S) as R.
      rewrite E, along_one in R. cbn [negb] in R. unfold apply_value, resolution_kind. rewrite K. cbn [rbind derive]. unfold smeared in R. cbn [String.eqb Ascii.eqb Bool.eqb] in R. exact R.
    + assert (Z : qlt (zq 10) (se_value x) = false).
      { destruct (qltP (zq 10) (se_value x)) as [Q|]; [|reflexivity]. exfalso. pose proof (Qclt_trans _ _ _ Q K1) as H. apply qlt_iff in H. vm_compute in H. discriminate. }
      rewrite Z. pose proof (energy_res_l pf e str isdir fo fs d (named parts) "hdf5" "weight" (se_value x) (se_value x) false (Some (folder c)) (folder c) s P (or_introl eq_refl) K0 K1 W L S) as R.
      rewrite E, along_one in R. cbn [negb] in R. unfold apply_value, resolution_kind. rewrite Z. apply qlt_iff in K0, K1. rewrite K0, K1. cbn [andb rbind derive].
      unfold trimmed. rewrite (last_n_ends 2) by reflexivity. rewrite K2. unfold smeared in R. cbn [String.eqb Ascii.eqb Bool.eqb] in R. exact R.
  - exact (scaled_l pf e str spline isdir fs d (named parts) "hdf5" (se_value x) (se_dim x) (Some (folder c)) (folder c) s P K D1 W L S).
  - destruct K.
Qed.
Lemma scriptable_cfg s t x : s_cfg t = s_cfg s -> scriptable str s x -> scriptable str t x.
Proof. intros E. unfold scriptable. now rewrite E. Qed.
(** Runs of all scripts. *)
Definition outputs (c parts : list string) (xs : list setting) : list string :=
  map (fun k => path (folder (folders c (firstn (S k) xs))) (named (parts ++ map (tag str) (firstn (S k) xs))) "hdf5") (seq 0 (length xs)).
Lemma scripts_l : forall xs fs d c parts s, plain_path d (named parts) "hdf5" -> plain_name parts -> plain_folder c ->
  (forall k, k < length xs -> isdir (folder (folders c (firstn (S k) xs))) = true) -> Forall (plain_setting str) xs -> Forall (scriptable str (st_spec s)) xs ->
  load pf e (fs (path d (named parts) "hdf5")) = Ok s -> sound s ->
  let run := run_scripts pf e str spline isdir fo fs xs (path d (named parts) "hdf5") c parts in
  (forall p, ~ In p (outputs c parts xs) -> fst run p = fs p) /\
  match settings_applied str spline fo xs (st_spec s) with
  | Ok t => snd run = None /\ (xs <> [] -> exists q, load pf e (fst run (path (folder (folders c xs)) (named (parts ++ map (tag str) xs)) "hdf5")) = Ok q /\ st_spec q = t)
  | Err er => snd run = Some er
  end.
Proof.
  induction xs as [|x xs IH]; intros fs d c parts s P N C I S K L Q; cbn [run_scripts settings_applied].
  { split; [reflexivity|]. split; [reflexivity|contradiction]. }
  inversion S as [|? ? Sx Sxs]; inversion K as [|? ? Kx Kxs]; subst.
  assert (C' : plain_folder (below c x)) by (apply below_plain; [exact C|apply Sx]).
  pose proof (I 0 ltac:(cbn; lia)) as I0. cbn [firstn folders fold_left] in I0.
  pose proof (script_step fs x d parts (below c x) s P N C' I0 L Q Sx Kx) as R.
  destruct (run_script pf e str spline isdir fo fs x (path d (named parts) "hdf5") (folder (below c x))) as [fs1 o1].
  assert (O : outputs c parts (x :: xs) = path (folder (below c x)) (named (parts ++ [tag str x])) "hdf5" :: outputs (below c x) (parts ++ [tag str x]) xs).
  { unfold outputs. cbn [length seq map firstn folders fold_left]. f_equal. rewrite <- seq_shift, map_map. apply map_ext. intro k.
    cbn [firstn map folders fold_left]. unfold folders. rewrite <- app_assoc. reflexivity. }
  destruct (apply_value (setting_kind str spline fo x) (se_value x) (st_spec s)) as [t|er] eqn:T; cbn [converts rbind] in R |- *.
  2:{ injection R as -> ->. split; reflexivity. }
  destruct R as (R1 & R2 & R3). cbn [fst snd] in *. subst o1. unfold file_holds in R2.
  pose proof (sound_next x (se_value x) s t Q T) as Q'. destruct Q as (W & NE & _). destruct (kind_kept x (se_value x) (st_spec s) t W NE T) as (_ & _ & _ & Cf & _).
  destruct (folder_path _ C') as [F1 F2]. pose proof (name_step str x parts N Sx) as N'.
  pose proof (location_plain _ _ F1 F2 N') as P'.
  destruct (IH fs1 (folder (below c x)) (below c x) (parts ++ [tag str x]) (Stored t (st_cfg_name s) (fit_again (s_name t) (st_fit s)) (st_style s)) P' N' C') as (H1 & H2);
    [intros k Hk; exact (I (Datatypes.S k) ltac:(cbn; lia))|exact Sxs| |exact R2|exact Q'|].
  { cbn [st_spec]. eapply Forall_impl; [|exact Kxs]. intros y. now apply scriptable_cfg. }
  cbn [st_spec] in *. split.
  - intros p Np. rewrite O in Np. rewrite H1 by (intro; apply Np; now right). apply R3. intros ->. apply Np. now left.
  - destruct (settings_applied str spline fo xs t) as [u|er] eqn:U; [|exact H2]. destruct H2 as (H2 & H3). split; [exact H2|]. intros _.
    destruct xs as [|y xs].
    + cbn [run_scripts fst] in *. cbn [settings_applied] in U. injection U as <-. cbn [map folders fold_left]. eexists. split; [exact R2|reflexivity].
    + destruct (H3 ltac:(discriminate)) as (q & Lq & Eq). exists q. split; [|exact Eq]. cbn [map folders fold_left]. rewrite <- app_assoc in Lq. exact Lq.
Qed.
Lemma named_app parts more : parts <> [] -> more <> [] -> named (parts ++ more) = (named parts ++ "_" ++ named more)%string.
Proof.
  intro N. induction more as [|x more IH] using rev_ind; intro M; [contradiction|]. rewrite app_assoc, named_snoc by (destruct parts; [contradiction|discriminate]).
  destruct more as [|y more]; [rewrite app_nil_r; reflexivity|]. rewrite IH by discriminate. rewrite (named_snoc (y :: more)) by discriminate. rewrite !sapp_assoc. reflexivity.
Qed.
Lemma folders_plain : forall xs c, plain_folder c -> Forall (plain_setting str) xs -> plain_folder (folders c xs).
Proof.
  induction xs as [|x xs IH]; intros c C S; [exact C|]. inversion S as [|? ? Sx Sxs]; subst. cbn. apply IH; [|exact Sxs]. apply below_plain; [exact C|apply Sx].
Qed.
Lemma names_plain : forall xs parts, plain_name parts -> Forall (plain_setting str) xs -> plain_name (parts ++ map (tag str) xs).
Proof.
  induction xs as [|x xs IH]; intros parts N S; [now rewrite app_nil_r|]. inversion S as [|? ? Sx Sxs]; subst. cbn [map].
  change (tag str x :: map (tag str) xs) with ([tag str x] ++ map (tag str) xs). rewrite app_assoc. apply IH; [now apply name_step|exact Sxs].
Qed.
Lemma firstn_in {A} (x : A) k l : In x (firstn k l) -> In x l.
Proof. revert l. induction k as [|k IH]; intros [|y l]; cbn; [tauto..|]. intros [->|H]; auto. Qed.
Lemma source_kept d c parts xs : plain_path d (named parts) "hdf5" -> plain_name parts -> plain_folder c -> Forall (plain_setting str) xs ->
  ~ In (path d (named parts) "hdf5") (outputs c parts xs).
Proof.
  intros P N C S I. unfold outputs in I. apply in_map_iff in I as (k & E & Hk). apply in_seq in Hk.
  assert (S' : Forall (plain_setting str) (firstn (Datatypes.S k) xs)) by (apply Forall_forall; intros y Hy; exact (proj1 (Forall_forall _ _) S y (firstn_in y _ _ Hy))).
  destruct (folder_path _ (folders_plain (firstn (Datatypes.S k) xs) c C S')) as [F1 F2].
  pose proof (location_plain _ _ F1 F2 (names_plain _ _ N S')) as P'. apply (f_equal (fun z => split_root (basename z))) in E.
  rewrite (path_base _ _ _ P), (path_base _ _ _ P') in E. destruct xs as [|x xs]; [cbn in Hk; lia|]. cbn [firstn map] in E.
  rewrite named_app in E by (discriminate || exact (named_nonempty _ (proj1 (proj2 N)))). apply (f_equal String.length) in E. rewrite !sapp_length in E. cbn [String.length] in E. lia.
Qed.
Lemma tag_inj x y : plain_setting str x -> plain_setting str y -> tag str x = tag str y -> str (se_value x) = str (se_value y).
Proof.
  intros (_ & _ & _ & D & _) (_ & _ & _ & D' & _) E. unfold tag in E. apply sapp_tail_eq in E as [_ E]; [|now rewrite !mark_len].
  rewrite <- (trimmed_decimal (se_value x)), <- (trimmed_decimal (se_value y)) in E by assumption.
  exact (value_string_inj_l (PVal (se_value x) (str (se_value x))) (PVal (se_value y) (str (se_value y))) D D' E).
Qed.
Lemma tags_inj : forall xs ys, Forall (plain_setting str) xs -> Forall (plain_setting str) ys -> map (tag str) xs = map (tag str) ys -> texts str xs = texts str ys.
Proof.
  induction xs as [|x xs IH]; intros [|y ys] Sx Sy E; try discriminate; [reflexivity|]. cbn [map] in E. injection E as E1 E2.
  inversion Sx; inversion Sy; subst. unfold texts. cbn [map]. f_equal; [now apply tag_inj|]. now apply IH.
Qed.
Lemma named_inj l m : l <> [] -> m <> [] -> Forall token l -> Forall token m -> named l = named m -> l = m.
Proof.
  intros Nl Nm Tl Tm E. apply (f_equal (split_char "_")) in E. unfold named in E.
  rewrite (split_join l Nl), (split_join m Nm) in E; [exact E|eapply Forall_impl; [|exact Tm]; now intros a []|eapply Forall_impl; [|exact Tl]; now intros a []].
Qed.
Lemma paths_inj c c' parts xs ys : plain_folder c -> plain_folder c' -> plain_name parts -> Forall (plain_setting str) xs -> Forall (plain_setting str) ys ->
  path (folder c) (named (parts ++ map (tag str) xs)) "hdf5" = path (folder c') (named (parts ++ map (tag str) ys)) "hdf5" ->
  map (tag str) xs = map (tag str) ys.
Proof.
  intros C C' N Sx Sy E. destruct (folder_path _ C) as [F1 F2]. destruct (folder_path _ C') as [F1' F2'].
  pose proof (names_plain xs parts N Sx) as Nx. pose proof (names_plain ys parts N Sy) as Ny.
  pose proof (location_plain _ _ F1 F2 Nx) as P. pose proof (location_plain _ _ F1' F2' Ny) as P'.
  apply (f_equal (fun z => split_root (basename z))) in E. rewrite (path_base _ _ _ P), (path_base _ _ _ P') in E.
  apply named_inj in E; [|exact (named_nonempty _ (proj1 (proj2 Nx)))|exact (named_nonempty _ (proj1 (proj2 Ny)))|exact (proj1 Nx)|exact (proj1 Ny)].
  now apply app_inv_head in E.
Qed.
Lemma others_kept c parts xs ys : plain_folder c -> plain_name parts -> Forall (plain_setting str) xs -> Forall (plain_setting str) ys -> length xs = length ys ->
  texts str xs <> texts str ys -> ~ In (path (folder (folders c xs)) (named (parts ++ map (tag str) xs)) "hdf5") (outputs c parts ys).
Proof.
  intros C N Sx Sy L T I. unfold outputs in I. apply in_map_iff in I as (k & E & Hk). apply in_seq in Hk. apply T.
  assert (Sf : Forall (plain_setting str) (firstn (Datatypes.S k) ys)) by (apply Forall_forall; intros y Hy; exact (proj1 (Forall_forall _ _) Sy y (firstn_in y _ _ Hy))).
  symmetry in E. apply paths_inj in E; [|now apply folders_plain|now apply folders_plain|exact N|exact Sx|exact Sf].
  assert (Ek : firstn (Datatypes.S k) ys = ys). { apply (f_equal (@length string)) in E. rewrite !map_length, firstn_length in E. apply firstn_all2. lia. }
  rewrite Ek in E. now apply tags_inj.
Qed.
Lemma grid_l fs d c parts s : forall grid, plain_path d (named parts) "hdf5" -> plain_name parts -> plain_folder c ->
  (forall xs k, In xs grid -> k < length xs -> isdir (folder (folders c (firstn (Datatypes.S k) xs))) = true) ->
  (forall xs, In xs grid -> xs <> [] /\ Forall (plain_setting str) xs /\ Forall (scriptable str (st_spec s)) xs) -> combined str grid ->
  load pf e (fs (path d (named parts) "hdf5")) = Ok s -> sound s ->
  let fs' := run_grid pf e str spline isdir fo fs grid (path d (named parts) "hdf5") c parts in
  fs' (path d (named parts) "hdf5") = fs (path d (named parts) "hdf5") /\
  forall xs t, In xs grid -> settings_applied str spline fo xs (st_spec s) = Ok t ->
    exists q, load pf e (fs' (path (folder (folders c xs)) (named (parts ++ map (tag str) xs)) "hdf5")) = Ok q /\ st_spec q = t.
Proof.
  induction grid as [|ys grid IH] using rev_ind; intros P N C I G U L Q; [split; [reflexivity|intros xs t []]|].
  cbn zeta. unfold run_grid. rewrite fold_left_app. cbn [fold_left]. fold (run_grid pf e str spline isdir fo fs grid (path d (named parts) "hdf5") c parts).
  destruct IH as (IH1 & IH2); try assumption.
  { intros xs k Hx. apply I, in_or_app. now left. } { intros xs Hx. apply G, in_or_app. now left. }
  { intros xs zs Hx Hz. apply U; apply in_or_app; now left. }
  set (fs1 := run_grid pf e str spline isdir fo fs grid (path d (named parts) "hdf5") c parts) in *.
  assert (Iy : In ys (grid ++ [ys])) by (apply in_or_app; right; now left). destruct (G ys Iy) as (Ny & Sy & Ky).
  destruct (scripts_l ys fs1 d c parts s P N C (fun k => I ys k Iy) Sy Ky ltac:(now rewrite IH1) Q) as (H1 & H2).
  split; [rewrite H1; [exact IH1|now apply source_kept]|]. intros xs t Hx T. destruct (G xs Hx) as (_ & Sx & _). destruct (U xs ys Hx Iy) as [Len Tx].
  destruct (list_eq_dec String.string_dec (texts str xs) (texts str ys)) as [E|E].
  - apply Tx in E. subst ys. rewrite T in H2. destruct H2 as (_ & H2). exact (H2 Ny).
  - apply in_app_or in Hx as [Hx|[->|[]]]; [|contradiction]. rewrite H1 by (now apply others_kept). exact (IH2 xs t Hx T).
Qed.
End Steps.

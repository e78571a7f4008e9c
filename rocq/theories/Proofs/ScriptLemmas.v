(** The conversion scripts. *)
From Coq Require Import Lia.
From Verif Require Import Model.Base Model.PyStr Model.NDArray Model.Param Model.Config Model.Spectra
  Model.Smear Model.Shift Model.Heap Model.Fit Model.FitConfig Model.Store Model.Combine Model.Scripts.
From Verif Require Import Spec.AxisSpec Spec.ArraySpec Spec.SpectraSpec Spec.ShrinkSpec Spec.RebinSpec Spec.OpsSpec Spec.HeapSpec Spec.FitRunSpec Spec.ConfigSpec
  Spec.StoreSpec Spec.NameSpec Spec.ScriptSpec.
From Verif Require Import Proofs.QcLemmas Proofs.StrLemmas Proofs.DictLemmas Proofs.ConfigLemmas Proofs.OpsLemmas Proofs.RebinLemmas Proofs.FitLemmas Proofs.HeapLemmas
  Proofs.ShrinkProps Proofs.DeriveExt Proofs.PreConvLemmas Proofs.StoreLemmas Proofs.FileLemmas.
Local Open Scope string_scope.

(** ** Paths *)
Lemma sapp_assoc a b c : ((a ++ b) ++ c)%string = (a ++ (b ++ c))%string.
Proof. induction a as [|x a IH]; cbn; [reflexivity|now rewrite IH]. Qed.
Lemma sapp_nil a : (a ++ "")%string = a.
Proof. induction a as [|x a IH]; cbn; [reflexivity|now rewrite IH]. Qed.
Lemma after_last_none c s : occurs c s = false -> after_last c s = 0.
Proof.
  induction s as [|a s IH]; cbn; [reflexivity|]. intro H. apply orb_false_iff in H as [H1 H2]. rewrite (IH H2), H1. reflexivity.
Qed.
Lemma after_last_app c a b : occurs c b = false -> after_last c (a ++ String c b) = S (String.length a).
Proof.
  intro H. induction a as [|x a IH]; cbn; [|now rewrite IH]. rewrite (after_last_none c b H), Ascii.eqb_refl. reflexivity.
Qed.
Lemma head_dir_path d n : occurs "/" n = false -> head_dir (d ++ "/" ++ n) = (d ++ "/")%string.
Proof.
  intro H. unfold head_dir. cbn [append]. rewrite (after_last_app "/" d n H). change (String "/" n) with ("/" ++ n)%string. rewrite <- sapp_assoc.
  apply substring_0. rewrite sapp_length. cbn. lia.
Qed.
Lemma basename_path d n : occurs "/" n = false -> basename (d ++ "/" ++ n) = n.
Proof.
  intro H. unfold basename, drop. cbn [append]. rewrite (after_last_app "/" d n H). change (String "/" n) with ("/" ++ n)%string. rewrite <- sapp_assoc.
  replace (S (String.length d)) with (String.length (d ++ "/")) by (rewrite sapp_length; cbn; lia). rewrite substring_skip, sapp_length.
  replace (String.length (d ++ "/") + String.length n - String.length (d ++ "/")) with (String.length n) by lia. apply substring_all.
Qed.
Lemma dirname_path d n : d <> "" -> ends_with "/" d = false -> occurs "/" n = false -> dirname (d ++ "/" ++ n) = d.
Proof.
  intros N E H. unfold dirname. rewrite (head_dir_path d n H). cbn zeta. rewrite (rstrip_snoc "/" d), (rstrip_keep "/" d E).
  destruct (String.eqb_spec d ""); [congruence|reflexivity].
Qed.
Lemma rstrip_starts c s : s <> "" -> starts_with (String c "") s = false -> rstrip c s <> "".
Proof.
  destruct s as [|a s]; [congruence|]. intros _. cbn. rewrite andb_true_r. intro H. destruct (rstrip c s); [|discriminate].
  rewrite Ascii.eqb_sym in H. rewrite H. discriminate.
Qed.
Lemma split_root_path n x : n <> "" -> starts_with "." n = false -> occurs "." x = false -> split_root (n ++ "." ++ x) = n.
Proof.
  intros N S H. unfold split_root. cbn [append]. rewrite (after_last_app "." n x H). rewrite substring_0 by reflexivity.
  destruct (String.eqb_spec (rstrip "." n) "") as [E|_]; [|reflexivity]. now apply rstrip_starts in E.
Qed.
Lemma stem_path d n x : occurs "/" n = false -> occurs "/" x = false -> occurs "." x = false -> stem (d ++ "/" ++ n ++ "." ++ x) = n.
Proof.
  intros N X H. unfold stem.
  assert (E1 : after_last "/" (d ++ "/" ++ n ++ "." ++ x) = S (String.length d)).
  { apply (after_last_app "/" d (n ++ "." ++ x)). rewrite !occurs_app, N, X. reflexivity. }
  assert (E2 : after_last "." (d ++ "/" ++ n ++ "." ++ x) = S (String.length (d ++ "/" ++ n))).
  { rewrite <- (sapp_assoc d), <- sapp_assoc. rewrite (sapp_assoc d). exact (after_last_app "." (d ++ "/" ++ n) x H). }
  rewrite E1, E2. cbn zeta.
  replace (String.length (d ++ "/" ++ n) - S (String.length d)) with (String.length n) by (rewrite !sapp_length; cbn; lia).
  rewrite <- (sapp_assoc d). replace (S (String.length d)) with (String.length (d ++ "/")) by (rewrite sapp_length; cbn; lia).
  rewrite substring_skip. now apply substring_0.
Qed.
Lemma path_parts d n x : plain_path d n x -> occurs "/" (n ++ "." ++ x) = false.
Proof. intros (_ & _ & _ & _ & N & _ & X). rewrite !occurs_app, N, X. reflexivity. Qed.
Lemma path_base d n x : plain_path d n x -> split_root (basename (path d n x)) = n.
Proof.
  intro P. unfold path. rewrite (basename_path d (n ++ "." ++ x) (path_parts d n x P)). destruct P as (_ & _ & N1 & N2 & _ & X & _). now apply split_root_path.
Qed.
Lemma path_dir d n x : plain_path d n x -> dirname (path d n x) = d.
Proof. intro P. unfold path. pose proof (path_parts d n x P). destruct P as (D1 & D2 & _). now apply dirname_path. Qed.
Lemma path_head d n x : plain_path d n x -> head_dir (path d n x) = (d ++ "/")%string.
Proof. intro P. unfold path. apply head_dir_path. exact (path_parts d n x P). Qed.
Lemma path_stem d n x : plain_path d n x -> stem (path d n x) = n.
Proof. intros (_ & _ & _ & _ & N & X1 & X2). now apply stem_path. Qed.

(** ** Files *)
Lemma dset_new {A} (c : dict A) n p : ~ In n (dkeys c) -> dset n p c = (c ++ [(n, p)])%list.
Proof.
  induction c as [|[k v] c IH]; cbn; [reflexivity|]. intro H. destruct (String.eqb_spec n k) as [->|_]; [tauto|]. rewrite IH by tauto. reflexivity.
Qed.
Lemma nodup_sbuilt (c : sconfig) : NoDup (dkeys c) -> sbuilt c.
Proof.
  induction c as [|[n p] c IH] using rev_ind; intro N; [constructor|]. unfold dkeys in N. rewrite map_app in N. cbn in N.
  apply NoDup_remove in N as [N1 N2]. rewrite app_nil_r in *. rewrite <- (dset_new c n p N2). apply sbuilt_par, IH, N1.
Qed.
Lemma wf_bins c : Forall (fun kp : string * spar => wf_axis (snd kp)) c -> Forall (fun b => (0 <= b)%Z) (get_shape c).
Proof.
  unfold get_shape. induction 1 as [|[k p] c A _ IH]; cbn; constructor; [|exact IH]. destruct A. cbn in *. lia.
Qed.
Lemma derive_wf d s t : wf_spectra s -> s_cfg s <> [] -> derive d s = Ok t -> wf_spectra t /\ s_cfg t <> [] /\ s_bg t = s_bg s.
Proof.
  intros W NE D. pose proof (derive_kept d s t D) as (K1 & K2 & _). pose proof (derive_shape d s t D) as K3.
  destruct W as [W C]. unfold wf_spectra, Spec.SpectraSpec.consistent in *. rewrite K2, K3, K1. tauto.
Qed.
Definition worked (b : option string) (t : spectra) : Prop := wf_spectra t /\ s_cfg t <> [] /\ s_bg t = b.
Lemma derive_worked b d s t : worked b s -> derive d s = Ok t -> worked b t.
Proof. intros (W & N & B) D. destruct (derive_wf d s t W N D) as (W' & N' & B'). unfold worked. rewrite B'. tauto. Qed.
Lemma radial_random_worked b name par s t : worked b s -> radial_random_smear name par s = Ok t -> worked b t.
Proof.
  intros (W & N & B). unfold radial_random_smear, rbind. destruct (negb _); [discriminate|]. destruct (rmapM _ _); [|discriminate]. intro H.
  pose proof (random_bins_kept _ _ _ _ H) as K. pose proof (random_bins_shape _ _ _ _ H) as Sh.
  destruct K as (K1 & K2 & _). cbn in K1, K2, Sh. destruct W as [W C]. unfold worked, wf_spectra, Spec.SpectraSpec.consistent in *. rewrite K1, K2, Sh. tauto.
Qed.
Lemma smeared_worked b method name sigma weight draw a s t : worked b s -> smeared method name sigma weight draw a s = Ok t -> worked b t.
Proof.
  intro W. unfold smeared. destruct (String.eqb method "weight"); intro H.
  - exact (derive_worked b (DWeighted name (zq 5) sigma weight a) s t W H).
  - exact (derive_worked b (DRandom name (draw a) a) s t W H).
Qed.
Lemma sound_worked s : sound s -> worked (s_bg (st_spec s)) (st_spec s).
Proof. intros (W & N & _). repeat split; assumption || apply W. Qed.
Lemma both_worked b method name sigma weight draw rname rsigma rweight a s t :
  worked b s -> smeared_both method name sigma weight draw rname rsigma rweight a s = Ok t -> worked b t.
Proof.
  intro W. unfold smeared_both. destruct (contains "energy" a); [now apply smeared_worked|]. destruct (String.eqb method "weight"); intro H.
  - exact (derive_worked b (DWeighted rname (zq 5) rsigma rweight a) s t W H).
  - exact (radial_random_worked b rname a s t W H).
Qed.

Section Files.
Variable pf : string -> res Qc.
Variable e : Qc.

(** The spectrum after the transformation. *)
Definition kept (s : stored) (t : spectra) : Prop := wf_spectra t /\ s_cfg t <> [] /\ s_bg t = s_bg (st_spec s).
Lemma kept_storable s t : sound s -> kept s t -> spectrum_storable (with_spec s t).
Proof.
  intros (_ & _ & _ & F & S1 & S2) ([[N A] C] & NE & B). exact (conj (nodup_sbuilt _ N) (conj NE (conj (wf_bins _ A) (conj F (conj S1 S2))))).
Qed.
Lemma write_other fs p f q : q <> p -> write_file fs p f q = fs q.
Proof. unfold write_file. destruct (String.eqb_spec q p); [congruence|reflexivity]. Qed.
Lemma write_same fs p f : write_file fs p f p = f.
Proof. unfold write_file. now rewrite String.eqb_refl. Qed.
Lemma written fs s t o : sound s -> kept s t -> converts pf e fs (write_spectrum fs o (with_spec s t)) s (Ok t) o.
Proof.
  intros S K. pose proof (kept_storable s t S K) as St. destruct S as (_ & _ & (b & B & NB) & _). destruct K as ([[N A] C] & NE & K).
  assert (G : get_background_name t = (t, Ok b)).
  { unfold get_background_name. rewrite K, B. destruct b; [congruence|reflexivity]. }
  destruct (dump_ok_l (fs o) (with_spec s t) false false b) as (f' & s' & D).
  { now left. } { cbn [with_spec st_spec]. now rewrite G. }
  { cbn [with_spec st_spec]. unfold Spec.SpectraSpec.consistent in C. rewrite C. unfold cfg_shape. destruct (s_cfg t); [congruence|discriminate]. }
  destruct (load_dump_l pf e (fs o) (with_spec s t) false false f' s' D St) as (bg & G' & L). cbn [with_spec st_spec st_cfg_name st_fit st_style] in *.
  rewrite G in G'. injection G' as _ <-. unfold converts, write_spectrum. rewrite D. cbn [fst snd].
  refine (conj eq_refl (conj _ _)); [|intros q Q; now apply write_other].
  rewrite write_same. unfold file_holds. rewrite L, <- B, <- K. destruct t; reflexivity.
Qed.
Lemma one_file fs made : exists o, forall p, p <> o -> fst (script fs made) p = fs p.
Proof.
  unfold script. destruct made as [[o s]|x]; [|now exists ""]. exists o. intros p P. unfold write_spectrum.
  destruct (dump (fs o) s false false) as [[f s'] x]. now apply write_other.
Qed.
(** A script whose spectrum is made by [f]. *)
Lemma script_run fs s (f : stored -> res stored) r o : sound s ->
  (forall t, r = Ok t -> kept s t) -> f s = (do t <- r; Ok (with_spec s t)) ->
  converts pf e fs (script fs (do s' <- f s; Ok (o, s'))) s r o.
Proof.
  intros S K E. rewrite E. destruct r as [t|x]; cbn [rbind script].
  - apply written; [exact S|now apply K].
  - reflexivity.
Qed.
End Files.

(** ** The scripts *)
Section Runs.
Variable pf : string -> res Qc.
Variable e : Qc.
Variable str : Qc -> string.
Variable spline : list Qc -> list Qc -> Qc -> Qc.
Variable isdir : string -> bool.
Variable fo : formulas.

Lemma path_in d n x : (d ++ "/" ++ n ++ "." ++ x)%string = path d n x. Proof. reflexivity. Qed.
Lemma last_slash p : ends_with "/" p = false -> String.eqb (last_n 1 p) "/" = false.
Proof.
  intro H. destruct (String.eqb_spec (last_n 1 p) "/") as [E|]; [|reflexivity]. exfalso.
  apply (proj1 (ends_with_false "/" p) H (drop_last 1 p)). rewrite <- E. unfold drop_last, last_n.
  destruct (substring_0_sub (String.length p - 1) p) as [b B]. 
  assert (L : String.length (substring 0 (String.length p - 1) p) = String.length p - 1).
  { clear. assert (G : forall n s, n <= String.length s -> String.length (substring 0 n s) = n).
    { induction n as [|n IH]; intros s L; [destruct s; reflexivity|]. destruct s as [|a s]; cbn in *; [lia|]. rewrite IH; lia. }
    apply G. lia. }
  destruct p as [|a p]; [discriminate|]. set (q := String a p) in *.
  assert (Lb : String.length b = 1). { apply (f_equal String.length) in B. rewrite sapp_length, L in B. cbn in B |- *. subst q. cbn in *. lia. }
  rewrite B at 1. f_equal. rewrite B at 2. rewrite <- L at 1. rewrite substring_skip. rewrite <- Lb. symmetry. apply substring_all.
Qed.
Lemma dest_dir_ok p d : isdir p = true -> (p = d \/ p = (d ++ "/")%string) -> ends_with "/" d = false -> dest_dir isdir p = Ok (d ++ "/")%string.
Proof.
  intros I E D. unfold dest_dir. rewrite I. destruct E as [->| ->].
  - now rewrite (last_slash d D).
  - rewrite last_n_app by reflexivity. reflexivity.
Qed.
Lemma given_some v : v <> 0%Qc -> given (Some v) = Some v.
Proof. intro N. cbn. destruct (qeqP v 0); [contradiction|reflexivity]. Qed.
Lemma given_path d n x : given_text (Some (path d n x)) = Some (path d n x).
Proof. unfold path. destruct d; reflexivity. Qed.
Lemma given_par p : p <> "" -> given_text (Some p) = Some p.
Proof. destruct p; [congruence|reflexivity]. Qed.

Lemma scaled_gen fs file n v dim dest d' s :
  given_text (Some file) = Some file -> split_root (basename file) = n -> (0 < v)%Qc -> dim <> "" ->
  match given_text dest with Some p => dest_dir isdir p | None => Ok (dirname file ++ "/")%string end = Ok (d' ++ "/")%string ->
  load pf e (fs file) = Ok s -> sound s ->
  converts pf e fs (dump_scaled pf e str spline isdir fs (Some file) (Some v) (Some dim) dest) s
    (apply_value (scale_kind str spline dim) v (st_spec s)) (path d' (n ++ "_" ++ trimmed (str v) ++ "sc") "hdf5").
Proof.
  intros GF BN V D E L S. unfold dump_scaled. rewrite GF, given_some, (given_par dim D) by (intro Z; apply (Qclt_not_eq _ _ V); now symmetry).
  rewrite E. cbn [rbind]. rewrite BN. clear E.
  unfold apply_value, scale_kind. destruct (set_scale_factor v) as [sf|q] eqn:ES; cbn [rbind].
  2:{ unfold set_scale_factor in ES. destruct (qleP v 0); [|discriminate]. exfalso. now apply Qclt_not_le in V. }
  rewrite L. cbn [rbind]. destruct (interpolate1d spline dim (st_spec s)) as [f|q]; cbn [rbind]; [|reflexivity].
  replace ((d' ++ "/") ++ n ++ "_" ++ trimmed (str v) ++ "sc.hdf5")%string with (path d' (n ++ "_" ++ trimmed (str v) ++ "sc") "hdf5").
  2:{ unfold path. rewrite !sapp_assoc. reflexivity. }
  apply (script_run pf e fs s (derived (DScale ("_sf" ++ str v) sf f dim))); [exact S|intros t T|reflexivity].
  destruct S as (S1 & S2 & _). exact (derive_wf _ _ _ S1 S2 T).
Qed.
Lemma scaled_l fs d n x v dim dest d' s :
  plain_path d n x -> (0 < v)%Qc -> dim <> "" -> written_to isdir dest d d' ->
  load pf e (fs (path d n x)) = Ok s -> sound s ->
  converts pf e fs (dump_scaled pf e str spline isdir fs (Some (path d n x)) (Some v) (Some dim) dest) s
    (apply_value (scale_kind str spline dim) v (st_spec s)) (path d' (n ++ "_" ++ trimmed (str v) ++ "sc") "hdf5").
Proof.
  intros P V D W L S. apply scaled_gen; [apply given_path|exact (path_base d n x P)|exact V|exact D| |exact L|exact S].
  destruct dest as [p|]; cbn [written_to] in W.
  - destruct W as (I & NP & E & N). rewrite (given_par p NP). now apply dest_dir_ok.
  - subst d'. cbn. now rewrite (path_dir d n x P).
Qed.
(** A name without directory. *)
Lemma bare_parts n x : n <> "" -> starts_with "." n = false -> occurs "/" n = false -> occurs "." x = false -> occurs "/" x = false ->
  given_text (Some (n ++ "." ++ x)%string) = Some (n ++ "." ++ x)%string /\ split_root (basename (n ++ "." ++ x)) = n /\ dirname (n ++ "." ++ x) = "".
Proof.
  intros N1 N2 N3 X1 X2. split; [destruct n; reflexivity|].
  assert (O : occurs "/" (n ++ "." ++ x) = false) by (rewrite !occurs_app, N3, X2; reflexivity).
  unfold basename, dirname, head_dir, drop. rewrite (after_last_none _ _ O), Nat.sub_0_r, substring_all. split; [now apply split_root_path|].
  destruct (n ++ "." ++ x)%string; reflexivity.
Qed.
Lemma scaled_bare fs n x v dim s :
  n <> "" -> starts_with "." n = false -> occurs "/" n = false -> occurs "." x = false -> occurs "/" x = false -> (0 < v)%Qc -> dim <> "" ->
  load pf e (fs (n ++ "." ++ x)%string) = Ok s -> sound s ->
  converts pf e fs (dump_scaled pf e str spline isdir fs (Some (n ++ "." ++ x)%string) (Some v) (Some dim) None) s
    (apply_value (scale_kind str spline dim) v (st_spec s)) ("/" ++ n ++ "_" ++ trimmed (str v) ++ "sc.hdf5").
Proof.
  intros N1 N2 N3 X1 X2 V D L S. destruct (bare_parts n x N1 N2 N3 X1 X2) as (G & B & Di).
  replace ("/" ++ n ++ "_" ++ trimmed (str v) ++ "sc.hdf5")%string with (path "" (n ++ "_" ++ trimmed (str v) ++ "sc") "hdf5").
  2:{ unfold path. rewrite !sapp_assoc. reflexivity. }
  apply scaled_gen; try assumption. cbn [given_text]. rewrite Di. reflexivity.
Qed.
Lemma shifted_l fs d n x v dim s :
  plain_path d n x -> v <> 0%Qc -> dim <> "" ->
  load pf e (fs (path d n x)) = Ok s -> sound s ->
  converts pf e fs (dump_shifted pf e str spline fs (Some (path d n x)) (Some v) (Some dim)) s
    (apply_value (shift_kind str spline dim) v (st_spec s)) (path d (n ++ "_shifted") "hdf5").
Proof.
  intros P V D L S. unfold dump_shifted. rewrite given_path, given_some, (given_par dim D) by exact V.
  rewrite L. cbn [rbind]. unfold apply_value, shift_kind.
  destruct (get_par (s_cfg (st_spec s)) dim) as [p|q]; cbn [rbind]; [|reflexivity].
  destruct (get_width p) as [step|q]; cbn [rbind]; [|reflexivity].
  destruct (is_multiple v step) as [m|q]; cbn [rbind]; [|reflexivity].
  destruct (if m then Ok (fun _ => 0%Qc) else interpolate1d spline dim (st_spec s)) as [f|q]; cbn [rbind]; [|reflexivity].
  rewrite (path_head d n x P), (path_stem d n x P).
  replace ((d ++ "/") ++ n ++ "_shifted.hdf5")%string with (path d (n ++ "_shifted") "hdf5").
  2:{ unfold path. rewrite !sapp_assoc. reflexivity. }
  apply (script_run pf e fs s (derived (DShift ("_shift" ++ str v) v f dim))); [exact S|intros t T|reflexivity].
  destruct S as (S1 & S2 & _). exact (derive_wf _ _ _ S1 S2 T).
Qed.

(** *** Smearing *)
Lemma smear_pars_l (sm : string -> option (stored -> res stored)) (pick : string -> bool) (f : string -> spectra -> res spectra) :
  (forall par, sm par = if pick par then Some (fun s => do t <- f par (st_spec s); Ok (with_spec s t)) else None) ->
  forall pars s, smear_pars sm pars s = do t <- along f (filter pick pars) (st_spec s); Ok (with_spec s t).
Proof.
  intros E. induction pars as [|par pars IH]; intro s; cbn [smear_pars filter along rbind]; [destruct s; reflexivity|]. rewrite E.
  destruct (pick par); [|apply IH]. cbn [along]. destruct (f par (st_spec s)) as [t|x]; cbn [rbind]; [|reflexivity].
  rewrite IH. cbn [with_spec st_spec]. destruct (along f (filter pick pars) t); reflexivity.
Qed.
Lemma along_inv (P : spectra -> Prop) (f : string -> spectra -> res spectra) : (forall a s t, P s -> f a s = Ok t -> P t) -> forall l s t, P s -> along f l s = Ok t -> P t.
Proof.
  intros H. induction l as [|a l IH]; intros s t Ps; cbn [along rbind]; [intro E; injection E as <-; exact Ps|].
  destruct (f a s) as [s'|] eqn:E; cbn [rbind]; [|discriminate]. apply IH. now apply (H a s).
Qed.
Lemma smear_dir d n x dest d' : plain_path d n x -> written_to isdir dest d d' ->
  match given_text dest with
  | Some p => dest_dir isdir p
  | None => Ok (if String.eqb (dirname (path d n x)) "" then "./" else dirname (path d n x) ++ "/")
  end = Ok (d' ++ "/")%string.
Proof.
  intros P W. destruct dest as [p|]; cbn [written_to] in W.
  - destruct W as (I & NP & E & N). rewrite (given_par p NP). now apply dest_dir_ok.
  - subst d'. cbn [given_text]. rewrite (path_dir d n x P). destruct P as (N & _). destruct (String.eqb_spec d ""); [congruence|reflexivity].
Qed.
Lemma energy_res_l fs d n x method r ly gaus dest d' s :
  plain_path d n x -> (method = "weight" \/ method = "random") -> (0 < r)%Qc -> (r < 1)%Qc -> written_to isdir dest d d' ->
  load pf e (fs (path d n x)) = Ok s -> sound s ->
  converts pf e fs (dump_smeared_energy pf e str isdir fo fs method (Some r) ly gaus dest (path d n x)) s
    (along (smeared method (fo_name_res fo r) (fo_sigma_res fo r) (fo_weight_res fo (negb gaus) r) (fo_draw fo))
           (filter (contains "energy") (map fst (s_cfg (st_spec s)))) (st_spec s))
    (path d' (n ++ "_" ++ str r ++ "rs") "hdf5").
Proof.
  intros P M R0 R1 W L S. unfold dump_smeared_energy. rewrite (smear_dir d n x dest d' P W). cbn [rbind].
  rewrite given_some by (intro Z; apply (Qclt_not_eq _ _ R0); now symmetry).
  apply qlt_iff in R0, R1. rewrite R0, R1. cbn [andb rbind]. rewrite L. cbn [rbind]. rewrite (path_base d n x P).
  replace ((d' ++ "/") ++ n ++ "_" ++ str r ++ "rs.hdf5")%string with (path d' (n ++ "_" ++ str r ++ "rs") "hdf5").
  2:{ unfold path. rewrite !sapp_assoc. reflexivity. }
  destruct M as [-> | ->]; cbn [by_method String.eqb Ascii.eqb Bool.eqb rbind].
  - refine (script_run pf e fs s _ _ _ S _ (smear_pars_l _ _ _ (fun par => eq_refl) _ s)). intros t T.
    refine (along_inv _ _ _ _ _ _ (sound_worked s S) T). intros a u v Wk H. exact (smeared_worked _ "weight" _ _ _ (fo_draw fo) a u v Wk H).
  - refine (script_run pf e fs s _ _ _ S _ (smear_pars_l _ _ _ (fun par => eq_refl) _ s)). intros t T.
    refine (along_inv _ _ _ _ _ _ (sound_worked s S) T). intros a u v Wk H. exact (smeared_worked _ "random" _ (fun _ => 0%Qc) (fun _ _ => 0%Qc) _ a u v Wk H).
Qed.
Lemma energy_ly_l fs d n x method ly gaus dest d' s :
  plain_path d n x -> (method = "weight" \/ method = "random") -> (0 < ly)%Qc -> written_to isdir dest d d' ->
  load pf e (fs (path d n x)) = Ok s -> sound s ->
  converts pf e fs (dump_smeared_energy pf e str isdir fo fs method None ly gaus dest (path d n x)) s
    (along (smeared method (fo_name_ly fo ly) (fo_sigma_ly fo ly) (fo_weight_ly fo (negb gaus) ly) (fo_draw fo))
           (filter (contains "energy") (map fst (s_cfg (st_spec s)))) (st_spec s))
    (path d' (n ++ "_" ++ trimmed (str ly) ++ "ly") "hdf5").
Proof.
  intros P M R0 W L S. unfold dump_smeared_energy. rewrite (smear_dir d n x dest d' P W). cbn [rbind given].
  apply qlt_iff in R0. rewrite R0. cbn [andb rbind]. rewrite L. cbn [rbind]. rewrite (path_base d n x P).
  replace ((d' ++ "/") ++ n ++ "_" ++ trimmed (str ly) ++ "ly.hdf5")%string with (path d' (n ++ "_" ++ trimmed (str ly) ++ "ly") "hdf5").
  2:{ unfold path. rewrite !sapp_assoc. reflexivity. }
  destruct M as [-> | ->]; cbn [by_method String.eqb Ascii.eqb Bool.eqb rbind].
  - refine (script_run pf e fs s _ _ _ S _ (smear_pars_l _ _ _ (fun par => eq_refl) _ s)). intros t T.
    refine (along_inv _ _ _ _ _ _ (sound_worked s S) T). intros a u v Wk H. exact (smeared_worked _ "weight" _ _ _ (fo_draw fo) a u v Wk H).
  - refine (script_run pf e fs s _ _ _ S _ (smear_pars_l _ _ _ (fun par => eq_refl) _ s)). intros t T.
    refine (along_inv _ _ _ _ _ _ (sound_worked s S) T). intros a u v Wk H. exact (smeared_worked _ "random" _ (fun _ => 0%Qc) (fun _ _ => 0%Qc) _ a u v Wk H).
Qed.
Lemma both_l fs d n x method r default_ly sigma name weight s :
  plain_path d n x -> (method = "weight" \/ method = "random") ->
  (r = None /\ name = fo_name_ly fo default_ly /\ sigma = fo_sigma_ly fo default_ly /\ weight = fo_weight_ly fo true default_ly \/
   exists v, r = Some v /\ (0 < v)%Qc /\ (v < 1)%Qc /\ name = fo_name_res fo v /\ sigma = fo_sigma_res fo v /\ weight = fo_weight_res fo true v) ->
  load pf e (fs (path d n x)) = Ok s -> sound s ->
  converts pf e fs (dump_smeared pf e fo fs default_ly method r (path d n x)) s
    (along (smeared_both method name sigma weight (fo_draw fo) (fo_name_radial fo) (fo_sigma_radial fo) (fo_weight_radial fo))
           (filter (fun a => contains "energy" a || contains "radial" a) (map fst (s_cfg (st_spec s)))) (st_spec s))
    (path d (n ++ "_smeared") "hdf5").
Proof.
  intros P M C L S. unfold dump_smeared.
  assert (E : exists sm, match given r with
      | Some r => if qlt 0 r && qlt r 1 then Ok (smear_res fo true r) else Err EValueError
      | None => Ok (smear_ly fo true default_ly) end = Ok sm /\
      sm = Smearer (fun par => derived (DWeighted name (zq 5) sigma weight par)) (fun par => derived (DRandom name (fo_draw fo par) par))).
  { destruct C as [(-> & -> & -> & ->)|(v & -> & V0 & V1 & -> & -> & ->)]; [eexists; split; reflexivity|].
    rewrite given_some by (intro Z; apply (Qclt_not_eq _ _ V0); now symmetry).
    apply qlt_iff in V0, V1. rewrite V0, V1. eexists; split; reflexivity. }
  destruct E as (sm & -> & ->). clear C. cbn [rbind]. rewrite L. cbn [rbind]. rewrite (path_head d n x P), (path_stem d n x P).
  replace ((d ++ "/") ++ n ++ "_smeared.hdf5")%string with (path d (n ++ "_smeared") "hdf5").
  2:{ unfold path. rewrite !sapp_assoc. reflexivity. }
  assert (K : forall t, along (smeared_both method name sigma weight (fo_draw fo) (fo_name_radial fo) (fo_sigma_radial fo) (fo_weight_radial fo))
           (filter (fun a => contains "energy" a || contains "radial" a) (map fst (s_cfg (st_spec s)))) (st_spec s) = Ok t -> kept s t).
  { intros t T. refine (along_inv _ _ _ _ _ _ (sound_worked s S) T). intros a u v. apply both_worked. }
  destruct M as [-> | ->]; cbn [by_method String.eqb Ascii.eqb Bool.eqb rbind].
  - refine (script_run pf e fs s _ _ _ S K (smear_pars_l _ _ _ _ _ s)); intro par; unfold smeared_both; destruct (contains "energy" par); [reflexivity|].
    destruct (contains "radial" par); reflexivity.
  - refine (script_run pf e fs s _ _ _ S K (smear_pars_l _ _ _ _ _ s)); intro par; unfold smeared_both; destruct (contains "energy" par); [reflexivity|].
    destruct (contains "radial" par); reflexivity.
Qed.

(** *** Shrinking and rebinning *)
Lemma bounds_l suffix pars : forall xs kw, length xs = length pars -> NoDup pars ->
  (forall p, In p pars -> ~ In (p ++ suffix)%string (dkeys kw)) ->
  bounds suffix pars xs kw = (kw ++ map (fun px => ((fst px ++ suffix)%string, snd px)) (List.combine pars xs))%list.
Proof.
  induction pars as [|p pars IH]; intros [|x xs] kw L N F; cbn in L; try discriminate; [cbn; now rewrite app_nil_r|].
  cbn [bounds List.combine map fst snd]. inversion N as [|? ? N1 N2]; subst. rewrite (dset_new kw (p ++ suffix) x) by (apply F; now left). rewrite IH; [|lia|exact N2|].
  - rewrite <- app_assoc. reflexivity.
  - intros q Q. unfold dkeys. rewrite map_app, in_app_iff. cbn. intros [I|[I|[]]]; [exact (F q (or_intror Q) I)|].
    apply (f_equal (drop_last (String.length suffix))) in I. unfold drop_last in I. rewrite !sapp_length in I.
    rewrite !substring_0 in I by lia. congruence.
Qed.
Lemma low_high p q : (p ++ "_low")%string <> (q ++ "_high")%string.
Proof.
  intro E. apply (f_equal (last_n 3)) in E. change "_low" with ("_" ++ "low")%string in E. change "_high" with ("_h" ++ "igh")%string in E.
  rewrite <- !sapp_assoc in E. rewrite !last_n_app in E by reflexivity. discriminate.
Qed.
Lemma given_nonempty {A} (l : list A) : l <> [] -> given_list (Some l) = Some l.
Proof. destruct l; [congruence|reflexivity]. Qed.
Lemma shrunk_gen fs file d n pars low up output s :
  given_text (Some file) = Some file -> split_root (basename file) = n -> dirname file = d -> pars <> [] -> NoDup pars -> (low <> None \/ up <> None) ->
  (forall l, low = Some l -> length l = length pars) -> (forall l, up = Some l -> length l = length pars) -> output <> Some "" ->
  load pf e (fs file) = Ok s -> sound s ->
  good_keywords (s_cfg (st_spec s)) (bound_keywords pars low up) ->
  (snd (shrink (bound_keywords pars low up) (st_spec s)) = None -> leaves_bins (fst (shrink (bound_keywords pars low up) (st_spec s)))) ->
  converts pf e fs (dump_shrink pf e fs (Some file) (Some pars) low up output) s
    (method_result (shrink (bound_keywords pars low up) (st_spec s))) (chosen output (path d (n ++ "_shrunk") "hdf5")).
Proof.
  intros GF BN DN NE ND G Ll Lu O L S GK LB. unfold dump_shrink. rewrite GF, (given_nonempty pars NE).
  assert (Gl : forall l : option (list Qc), (forall l', l = Some l' -> length l' = length pars) -> given_list l = l).
  { intros [l|] H; [|reflexivity]. apply given_nonempty. intro Z. subst l. specialize (H [] eq_refl). destruct pars; [congruence|discriminate]. }
  rewrite (Gl low Ll), (Gl up Lu).
  assert (KW : (match up with Some l => bounds "_high" pars l (match low with Some l => bounds "_low" pars l [] | None => [] end)
                | None => match low with Some l => bounds "_low" pars l [] | None => [] end end) = bound_keywords pars low up).
  { unfold bound_keywords. destruct low as [l|].
    - rewrite (bounds_l "_low" pars l []) by (try apply Ll; auto). cbn [app]. destruct up as [u|]; [|now rewrite app_nil_r].
      rewrite bounds_l; [reflexivity|now apply Lu|exact ND|]. intros p _ I. unfold dkeys in I. rewrite map_map in I. apply in_map_iff in I as ([a b] & I & _).
      cbn in I. now apply low_high in I.
    - destruct up as [u|]; [|reflexivity]. rewrite (bounds_l "_high" pars u []) by (try apply Lu; auto). reflexivity. }
  set (kw := bound_keywords pars low up) in *.
  assert (E : (do s0 <- load pf e (fs file);
       if match low with Some l => (length l =? length pars)%nat | None => true end && match up with Some l => (length l =? length pars)%nat | None => true end then
         do s' <- with_method (shrink kw) s0;
         Ok (match given_text output with Some o => o | None => dirname file ++ "/" ++ split_root (basename file) ++ "_shrunk.hdf5" end, s')
       else Err EValueError) = do s' <- with_method (shrink kw) s; Ok (chosen output (path d (n ++ "_shrunk") "hdf5"), s')).
  { rewrite L. cbn [rbind]. replace (_ && _) with true.
    2:{ symmetry. apply andb_true_iff. split; [destruct low|destruct up]; trivial; apply Nat.eqb_eq; auto. }
    rewrite BN, DN.
    replace (match given_text output with Some o => o | None => (d ++ "/" ++ n ++ "_shrunk.hdf5")%string end) with (chosen output (path d (n ++ "_shrunk") "hdf5")); [reflexivity|].
    destruct output as [o|]; cbn [chosen]; [rewrite given_par by congruence; reflexivity|]. unfold path. rewrite !sapp_assoc. reflexivity. }
  assert (R : converts pf e fs (script fs (do s' <- with_method (shrink kw) s; Ok (chosen output (path d (n ++ "_shrunk") "hdf5"), s'))) s
               (method_result (shrink kw (st_spec s))) (chosen output (path d (n ++ "_shrunk") "hdf5"))).
  { apply script_run; [exact S| |].
    - intros t T. unfold method_result in T. destruct (snd (shrink kw (st_spec s))) eqn:E2; [discriminate|]. injection T as <-.
      destruct S as (W & NC & _). pose proof (shrink_wf _ _ W GK E2 (LB eq_refl)) as Wf. split; [exact Wf|].
      destruct (shrink kw (st_spec s)) as [t o] eqn:E3. cbn [fst snd] in *. subst o.
      pose proof (shrink_meta_l _ _ _ E3) as (_ & B & _). split; [|exact B]. intro Z.
      unfold shrink in E3. destruct (shrink_check _ _); [|discriminate]. destruct (shrink_pars kw (s_cfg (st_spec s))) as [c o] eqn:E4. destruct o as [[|sl sls]|]; try discriminate.
      destruct (aslice _ _) eqn:E5; [|discriminate]. injection E3 as <-. cbn in Z. subst c. destruct (s_cfg (st_spec s)) as [|[k p] c]; [now apply NC|].
      cbn [shrink_pars] in E4. destruct (shrink_axis _ _ _) as [[p' sl']|]; [|discriminate]. destruct (shrink_pars kw c) as [c' o']. discriminate.
    - unfold with_method, method_result. destruct (shrink kw (st_spec s)) as [t [q|]]; reflexivity. }
  rewrite <- E in R. clearbody kw. subst kw. destruct low as [l|]; [exact R|]. destruct up as [u|]; [exact R|]. destruct G; congruence.
Qed.
Lemma shrunk_l fs d n x pars low up output s :
  plain_path d n x -> pars <> [] -> NoDup pars -> (low <> None \/ up <> None) ->
  (forall l, low = Some l -> length l = length pars) -> (forall l, up = Some l -> length l = length pars) -> output <> Some "" ->
  load pf e (fs (path d n x)) = Ok s -> sound s ->
  good_keywords (s_cfg (st_spec s)) (bound_keywords pars low up) ->
  (snd (shrink (bound_keywords pars low up) (st_spec s)) = None -> leaves_bins (fst (shrink (bound_keywords pars low up) (st_spec s)))) ->
  converts pf e fs (dump_shrink pf e fs (Some (path d n x)) (Some pars) low up output) s
    (method_result (shrink (bound_keywords pars low up) (st_spec s))) (chosen output (path d (n ++ "_shrunk") "hdf5")).
Proof.
  intros P NE ND G Ll Lu O L S GK LB. apply shrunk_gen; try assumption; [apply given_path|exact (path_base d n x P)|exact (path_dir d n x P)].
Qed.
Lemma shrunk_bare fs n x pars low s :
  n <> "" -> starts_with "." n = false -> occurs "/" n = false -> occurs "." x = false -> occurs "/" x = false ->
  pars <> [] -> NoDup pars -> length low = length pars ->
  load pf e (fs (n ++ "." ++ x)%string) = Ok s -> sound s ->
  good_keywords (s_cfg (st_spec s)) (bound_keywords pars (Some low) None) ->
  (snd (shrink (bound_keywords pars (Some low) None) (st_spec s)) = None -> leaves_bins (fst (shrink (bound_keywords pars (Some low) None) (st_spec s)))) ->
  converts pf e fs (dump_shrink pf e fs (Some (n ++ "." ++ x)%string) (Some pars) (Some low) None None) s
    (method_result (shrink (bound_keywords pars (Some low) None) (st_spec s))) ("/" ++ n ++ "_shrunk.hdf5").
Proof.
  intros N1 N2 N3 X1 X2 NE ND Ll L S GK LB. destruct (bare_parts n x N1 N2 N3 X1 X2) as (G & B & Di).
  replace ("/" ++ n ++ "_shrunk.hdf5")%string with (chosen None (path "" (n ++ "_shrunk") "hdf5")).
  2:{ cbn [chosen]. unfold path. rewrite !sapp_assoc. reflexivity. }
  apply shrunk_gen; try assumption; try congruence. left. discriminate.
Qed.
Lemma rebinned_l fs d n x bins output s :
  plain_path d n x -> output <> Some "" ->
  load pf e (fs (path d n x)) = Ok s -> sound s ->
  converts pf e fs (rebin_script pf e fs (path d n x) output (Some bins)) s
    (method_result (rebin bins (st_spec s))) (chosen output (path d (n ++ "_rebin") "hdf5")).
Proof.
  intros P O L S. unfold rebin_script. rewrite L. cbn [rbind]. rewrite (path_head d n x P), (path_stem d n x P).
  replace (match given_text output with Some o => o | None => ((d ++ "/") ++ n ++ "_rebin.hdf5")%string end) with (chosen output (path d (n ++ "_rebin") "hdf5")).
  2:{ destruct output as [o|]; cbn [chosen]; [rewrite given_par by congruence; reflexivity|]. unfold path. cbn [given_text]. rewrite !sapp_assoc. reflexivity. }
  apply script_run; [exact S| |].
  - intros t T. unfold method_result in T. destruct (snd (rebin bins (st_spec s))) eqn:E2; [discriminate|]. injection T as <-.
    destruct S as (W & NC & _). pose proof (rebin_accepted _ _ W E2) as D. destruct (rebin_l _ _ W D) as (t & E & Wt & Ct & _). rewrite E. cbn [fst].
    split; [exact Wt|]. split.
    + rewrite Ct. clear - D NC. destruct (s_cfg (st_spec s)) as [|[k p] c]; [congruence|]. destruct bins as [|b bs]; [inversion D|]. discriminate.
    + unfold rebin in E. destruct (negb _); [discriminate|]. destruct (rebin_pars _ _) as [c [q|]]; [discriminate|]. destruct (rebin_data _ _) as [dd|]; [|discriminate].
      injection E as <-. reflexivity.
  - unfold with_method, method_result. destruct (rebin bins (st_spec s)) as [t [q|]]; reflexivity.
Qed.
End Runs.

(** *** Every run *)
Lemma conversion_one pf e str spline isdir fo fs run : conversion pf e str spline isdir fo fs run -> exists o, forall p, p <> o -> fst run p = fs p.
Proof. destruct 1; apply one_file. Qed.
Lemma name_differs d d' n x m : plain_path d n x -> occurs "/" m = false -> path d' (n ++ "_" ++ m) "hdf5" <> path d n x.
Proof.
  intros P M E. apply (f_equal basename) in E. unfold path in E. rewrite (basename_path d _ (path_parts d n x P)) in E.
  rewrite basename_path in E.
  - rewrite sapp_assoc in E. apply sapp_inj_l in E. discriminate.
  - destruct P as (_ & _ & _ & _ & N & _). rewrite !occurs_app, N, M. reflexivity.
Qed.
Lemma substring_occurs c n s : occurs c s = false -> occurs c (substring 0 n s) = false.
Proof.
  revert n. induction s as [|a s IH]; intros [|n] H; cbn in *; try reflexivity. apply orb_false_iff in H as [H1 H2]. now rewrite H1, IH.
Qed.
Lemma trimmed_occurs c s : occurs c s = false -> occurs c (trimmed s) = false.
Proof. unfold trimmed, drop_last. destruct (String.eqb _ _); [now apply substring_occurs|trivial]. Qed.
Lemma converts_input pf e fs run s r o i : converts pf e fs run s r o -> o <> i -> fst run i = fs i.
Proof. unfold converts. destruct r; [intros (_ & _ & F) N; apply F; congruence|intros -> _; reflexivity]. Qed.

Lemma and_input pf e fs run s r d d' n x m : plain_path d n x -> occurs "/" m = false ->
  converts pf e fs run s r (path d' (n ++ "_" ++ m) "hdf5") ->
  converts pf e fs run s r (path d' (n ++ "_" ++ m) "hdf5") /\ fst run (path d n x) = fs (path d n x).
Proof. intros P M C. split; [exact C|]. exact (converts_input _ _ _ _ _ _ _ _ C (name_differs d d' n x m P M)). Qed.

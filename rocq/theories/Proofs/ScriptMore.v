(** rebin.py without --bins, and for a file without an extension. *)
From Coq Require Import Lia.
From Verif Require Import Model.Base Model.PyStr Model.NDArray Model.Param Model.Config Model.Spectra
  Model.Smear Model.Shift Model.Heap Model.Fit Model.FitConfig Model.Store Model.Combine Model.Scripts.
From Verif Require Import Spec.AxisSpec Spec.ArraySpec Spec.SpectraSpec Spec.ShrinkSpec Spec.RebinSpec Spec.OpsSpec Spec.HeapSpec Spec.FitRunSpec Spec.ConfigSpec
  Spec.StoreSpec Spec.NameSpec Spec.ScriptSpec.
From Verif Require Import Proofs.QcLemmas Proofs.StrLemmas Proofs.DictLemmas Proofs.ConfigLemmas Proofs.OpsLemmas Proofs.RebinLemmas Proofs.FitLemmas Proofs.HeapLemmas
  Proofs.ShrinkProps Proofs.DeriveExt Proofs.PreConvLemmas Proofs.StoreLemmas Proofs.FileLemmas Proofs.ScriptLemmas.
Local Open Scope string_scope.

Lemma stem_no_dot d n c : occurs "." (d ++ "/" ++ n ++ String c "") = false -> occurs "/" (n ++ String c "") = false ->
  stem (d ++ "/" ++ n ++ String c "") = n.
Proof.
  intros D N. unfold stem. rewrite (after_last_none "." _ D). rewrite (after_last_app "/" d _ N : after_last "/" (d ++ "/" ++ n ++ String c "") = _).
  cbn zeta. replace (String.length (d ++ "/" ++ n ++ String c "") - 1 - S (String.length d)) with (String.length n) by (rewrite !sapp_length; cbn; lia).
  rewrite <- (sapp_assoc d). replace (S (String.length d)) with (String.length (d ++ "/")) by (rewrite sapp_length; cbn; lia).
  rewrite substring_skip. now apply substring_0.
Qed.
Lemma rebin_no_bins pf e fs input output s : load pf e (fs input) = Ok s -> rebin_script pf e fs input output None = (fs, Some ETypeError).
Proof. intro L. unfold rebin_script. rewrite L. reflexivity. Qed.
Lemma rebin_no_dot pf e fs d n c bins s :
  occurs "." (d ++ "/" ++ n ++ String c "") = false -> occurs "/" (n ++ String c "") = false ->
  load pf e (fs (d ++ "/" ++ n ++ String c "")) = Ok s -> sound s ->
  converts pf e fs (rebin_script pf e fs (d ++ "/" ++ n ++ String c "") None (Some bins)) s
    (method_result (rebin bins (st_spec s))) (path d (n ++ "_rebin") "hdf5").
Proof.
  intros D N L S. unfold rebin_script. rewrite L. cbn [rbind given_text]. rewrite (head_dir_path d _ N), (stem_no_dot d n c D N).
  replace ((d ++ "/") ++ n ++ "_rebin.hdf5")%string with (path d (n ++ "_rebin") "hdf5").
  2:{ unfold path. rewrite !sapp_assoc. reflexivity. }
  apply script_run; [exact S| |].
  - intros t T. unfold method_result in T. destruct (snd (rebin bins (st_spec s))) eqn:E2; [discriminate|]. injection T as <-.
    destruct S as (W & NC & _). pose proof (rebin_accepted _ _ W E2) as A. destruct (rebin_l _ _ W A) as (t & E & Wt & Ct & _). rewrite E. cbn [fst].
    split; [exact Wt|]. split.
    + rewrite Ct. clear - A NC. destruct (s_cfg (st_spec s)) as [|[k p] q]; [congruence|]. destruct bins as [|b bs]; [inversion A|]. discriminate.
    + unfold rebin in E. destruct (negb _); [discriminate|]. destruct (rebin_pars _ _) as [g [q|]]; [discriminate|]. destruct (rebin_data _ _) as [dd|]; [|discriminate].
      injection E as <-. reflexivity.
  - unfold with_method, method_result. destruct (rebin bins (st_spec s)) as [t [q|]]; reflexivity.
Qed.

(** Configuration files. *)
From Verif Require Import Model.Base Model.PyStr Model.Param Model.Config Model.FitParam Model.FitConfig Model.ConfigFile.
From Verif Require Import Proofs.DictLemmas Proofs.StrLemmas.
Local Open Scope string_scope.
Local Open Scope list_scope.

Lemma global_file_l e fs g path gname sname b nm dg ds :
  yml_name "global_fit_config" (gc_name g) gname <> yml_name "spectral_fit_config" (gc_name g) sname ->
  gc_dump b g = Ok (dg, ds) ->
  exists fs', gc_dump_to_file fs g path gname sname b = Ok fs' /\
    gc_load_from_file e fs' (path ++ yml_name "global_fit_config" (gc_name g) gname)
      (Some (path ++ yml_name "spectral_fit_config" (gc_name g) sname))%string nm =
    gc_load e dg (Some ds) (given_name "global_fit_config" nm).
Proof.
  intros N D. unfold gc_dump_to_file. rewrite D. cbn [rbind fst snd]. eexists. split; [reflexivity|].
  unfold gc_load_from_file, read_file. rewrite dget_dset_other, dget_dset_same.
  - cbn [rbind]. destruct (String.eqb_spec (path ++ yml_name "spectral_fit_config" (gc_name g) sname) "") as [E|_].
    + exfalso. apply (f_equal String.length) in E. rewrite sapp_length in E. unfold yml_name in E.
      destruct (contains ".yml" _) eqn:C.
      * destruct (match sname with Some _ => _ | None => _ end); [discriminate C|]. cbn in E. rewrite Nat.add_succ_r in E. discriminate.
      * rewrite sapp_length in E. cbn in E. rewrite !Nat.add_succ_r in E. discriminate.
    + rewrite dget_dset_same. reflexivity.
  - intro H. apply sapp_inj_l in H. auto.
Qed.
Lemma other_files_l fs g path gname sname b fs' f : gc_dump_to_file fs g path gname sname b = Ok fs' ->
  f <> (path ++ yml_name "global_fit_config" (gc_name g) gname)%string ->
  f <> (path ++ yml_name "spectral_fit_config" (gc_name g) sname)%string -> dget f fs' = dget f fs.
Proof.
  unfold gc_dump_to_file. destruct (gc_dump b g); [|discriminate]. cbn [rbind]. intros H A B. injection H as <-.
  rewrite !dget_dset_other; auto.
Qed.
Lemma blank_l e fs g path b fs' nm :
  gc_dump_to_file fs g path (Some "") (Some "") b = Ok fs' ->
  let f := (path ++ yml_name "global_fit_config" (gc_name g) (Some ""))%string in
  gc_load_from_file e fs' f (Some f) nm = Err EKeyError.
Proof.
  intros H f. unfold gc_dump_to_file in H. unfold gc_dump in H. destruct (dump_globals b [] _); [|discriminate].
  cbn [rbind fst snd] in H. injection H as <-.
  unfold gc_load_from_file, read_file. unfold f at 1. cbn [yml_name String.eqb].
  replace (path ++ yml_name "global_fit_config" (gc_name g) (Some ""))%string with (path ++ yml_name "spectral_fit_config" (gc_name g) (Some ""))%string by reflexivity.
  rewrite dget_dset_same. cbn [rbind]. destruct (_ =? "")%string; cbn [rbind].
  - unfold gc_load. reflexivity.
  - unfold f. replace (path ++ yml_name "global_fit_config" (gc_name g) (Some ""))%string with (path ++ yml_name "spectral_fit_config" (gc_name g) (Some ""))%string by reflexivity.
    rewrite dget_dset_same. reflexivity.
Qed.

(** C91: interrupted saves. *)
From Verif Require Import Model.Base Model.PyStr Model.NDArray Model.Param Model.Config Model.Spectra.
From Verif Require Import Model.FitParam Model.FitConfig Model.Minimise Model.ConfigFile Model.Store Model.Crash.
From Verif Require Import Spec.StoreSpec Spec.CrashSpec Proofs.StoreLemmas Proofs.FileLemmas Proofs.CrashLemmas Properties.Store.
Local Open Scope string_scope.

(** The steps are those of the functions: after the last of them the file is the one that the call leaves. *)
Theorem C91_complete : forall n f dec c ws, storable_call dec c -> written c ws -> snd (perform f c) = None -> steps ws <= n ->
  stopped n f c ws = fst (perform f c).
Proof. exact complete_l. Qed.

(** Before the last step a reader gets what the file held before or an error, never part of what was being
    written: after any number of saves of any kinds, each stopped anywhere.
    Spectra (for a file without a spectrum of the old format at its root), fit results, limit results. *)
Theorem C91_spectrum_partial : forall dec pf e f f', interruptions dec f f' -> no_old_spectrum f -> as_before (load pf e) f f'.
Proof. exact history_load. Qed.
Theorem C91_fit : forall dec e f f', interruptions dec f f' -> as_before (load_fit_results e) f f'.
Proof. exact history_fit. Qed.
Theorem C91_limit : forall dec e f f', interruptions dec f f' -> as_before (load_limit_results dec e) f f'.
Proof. exact history_limit. Qed.

(** A save that raises leaves the file of a save that was stopped, so the same holds of it. *)
Theorem C91_raised : forall f s a o ws, written (Dump s a o) ws -> snd (perform f (Dump s a o)) <> None ->
  exists n, n < steps ws /\ fst (perform f (Dump s a o)) = stopped n f (Dump s a o) ws.
Proof. exact raised_spectrum. Qed.
Theorem C91_raised_fit : forall f fr a ws, written (DumpFit fr a) ws -> snd (perform f (DumpFit fr a)) <> None ->
  exists n, n < steps ws /\ fst (perform f (DumpFit fr a)) = stopped n f (DumpFit fr a) ws.
Proof. exact raised_fit. Qed.

(** When the call appends, nothing else in the file changes; *)
Theorem C91_others : forall n f c ws, appends c -> written c ws ->
  root_attrs (stopped n f c ws) = root_attrs f /\ forall k, k <> target c -> member k (stopped n f c ws) = member k f.
Proof. exact others_stopped. Qed.
(** when it does not, everything else is lost from the first step on. *)
Theorem C91_lost : forall n f c ws k, ~ appends c -> written c ws -> k <> target c ->
  member k (stopped (S n) f c ws) = None /\ root_attrs (stopped (S n) f c ws) = [].
Proof. exact lost_stopped. Qed.

(** The call again, with overwrite or not appending, ends as if it had not been stopped; *)
Theorem C91_retry : forall n f s o ws, written (Dump s true o) ws ->
  perform (stopped n f (Dump s true o) ws) (Dump s true true) = perform f (Dump s true true).
Proof. exact retry_l. Qed.
Theorem C91_retry_anew : forall n f c ws, ~ appends c -> perform (stopped n f c ws) c = perform f c.
Proof. intros. now apply retry_anew_l. Qed.
(** appending without overwrite (which fit and limit results do not have) it is refused, for ever. *)
Theorem C91_retry_refuted : forall n f c ws, appends c -> ~ overwrites c -> written c ws ->
  perform (stopped (3 + n) f c ws) c = (stopped (3 + n) f c ws, Some EValueError).
Proof. exact stuck_l. Qed.

(** A spectrum of the old format at the root comes back when an overwriting save is stopped. *)
Definition old_root : root :=
  Root [("name", AStr "old"); ("num_decays", ANum 1); ("raw_events", AInt 1); ("style", AStr ""); ("rois", AStr "");
        ("pars:energy_mc:low", ANum 0); ("pars:energy_mc:high", ANum 1); ("pars:energy_mc:bins", AInt 2)]
       [("data", HData (azeros [2%nat]))].
Theorem C91_old_refuted : forall pf e, let s := demo_stored None default_style in
  let f := fst (perform (Some old_root) (Dump s true false)) in
  exists ws, written (Dump s true true) ws /\ rmap (fun s => s_name (st_spec s)) (load pf e f) = Ok "Te130_mc" /\
    rmap (fun s => s_name (st_spec s)) (load pf e (stopped 2 f (Dump s true true) ws)) = Ok "old".
Proof. intros pf e. eexists. split; [eexists; split; reflexivity|]. split; reflexivity. Qed.

(** Objects (dump_ndarray) have no such protection: whatever had not been written yet keeps, without any
    error, the value it had in the object that is loaded into. *)
Theorem C91_object_refuted : forall n f o t k v, In (k, v) t -> ~ In k (dkeys (firstn n o)) ->
  exists t', load_ndarray (interrupted_object (S n) f o) t = Ok t' /\ In (k, v) t' /\ dkeys t' = dkeys t.
Proof. exact object_cut_l. Qed.
Example C91_object_sat : let o := [("_min", OValue (ANum 1) 8); ("_max", OValue (ANum (zq 2)) 8)] in
  In ("_max", OValue (ANum 0) 8) [("_min", OValue (ANum 0) 8); ("_max", OValue (ANum 0) 8)] /\ ~ In "_max" (dkeys (firstn 1 o)) /\
  interrupted_object 3 None o = fst (dump_ndarray o).
Proof. cbn. intuition discriminate. Qed.

(** The hypotheses are met: one interrupted save of each kind on a file that holds a spectrum. *)
Example C91_sat : let fr := demo_results [gscale "energy" 3; grate "Te130_rate" 5] true in let s := demo_stored (Some demo_fit) default_style in
  exists w1 w2 w3, written (Dump s true true) w1 /\ written (DumpFit fr true) w2 /\ written (DumpLimit dec_nat (demo_lr true) true) w3 /\
    steps w1 = 15 /\ steps w2 = 11 /\ steps w3 = 21 /\ no_old_spectrum demo_file /\
    storable_call dec_nat (DumpLimit dec_nat (demo_lr true) true) /\
    snd (perform demo_file (DumpLimit dec_nat (demo_lr true) true)) = None /\
    names (stopped 8 (stopped 7 (stopped 14 demo_file (Dump s true true) w1) (DumpFit fr true) w2) (DumpLimit dec_nat (demo_lr true) true) w3) =
      ["spectrum"; "fit_results"; "limit_results"].
Proof.
  cbn zeta. eexists _, _, _. split; [eexists; split; reflexivity|]. split; [eexists _, _, _; split; [reflexivity|split; reflexivity]|].
  split; [eexists _, _; split; reflexivity|]. split; [reflexivity|]. split; [reflexivity|]. split; [vm_compute; reflexivity|]. split; [reflexivity|].
  split; [split; [reflexivity|split; [exact C62_dec|now exists [4%nat]]]|]. split; [vm_compute; reflexivity|]. reflexivity.
Qed.
Example C91_raised_sat : let s := demo_stored None default_style in
  snd (perform demo_file (Dump s true false)) = Some EValueError /\ exists ws, written (Dump s true false) ws.
Proof. split; [reflexivity|]. eexists. eexists. split; reflexivity. Qed.
Print Assumptions C91_complete.
Print Assumptions C91_spectrum_partial.
Print Assumptions C91_limit.
Print Assumptions C91_retry.

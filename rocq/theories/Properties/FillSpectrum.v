(** C27, C28, C57: filling spectra from event streams. *)
From Verif Require Import Model.Base Model.PyStr Model.NDArray Model.Param Model.Config Model.Spectra Model.FillSpectrum.
From Verif Require Import Spec.AxisSpec Spec.ArraySpec Spec.SpectraSpec Spec.EventSpec Proofs.FillLemmas Proofs.EventLemmas Proofs.RootLemmas Proofs.RaiseLemmas.
Local Open Scope string_scope.

(** C27: a new spectrum made from an ntuple has one decay per entry; each usable entry is
    counted once in raw_events, in the sum and in the bin it lies in. *)
Theorem C27_ntuple_new : forall E (ev : E -> Z) c factory valid value name es,
  wf_cfg c -> name <> "" -> extracts c factory valid value ->
  exists s, fill_from_ntuple ev factory name (Some c) false es = Ok s /\
    s_name s = name /\ s_cfg s = c /\ s_decays s = nq (length es) /\
    s_raw s = Z.of_nat (count (usable c valid value) es) /\
    s_sum s = nq (count (usable c valid value) es) /\ consistent s /\
    forall idx, valid_idx (cfg_shape c) idx ->
      aget (s_data s) idx = nq (count (fun e => usable c valid value e && lies_in c value e idx) es).
Proof. exact @ntuple_new_l. Qed.
(** C27: the same when appending to a spectrum. *)
Theorem C27_ntuple_append : forall E (ev : E -> Z) factory valid value es s,
  wf_spectra s -> extracts (s_cfg s) factory valid value ->
  exists s', append_from_ntuple ev factory false es s = (s', None) /\
    counts (usable (s_cfg s) valid value) value es (with_decays s (s_decays s + nq (length es))%Qc) s'.
Proof. exact @append_l. Qed.

(** C27: without a configuration or a name for a new spectrum the call is refused. *)
Theorem C27_refused : forall E (ev : E -> Z) factory bipo c es,
  fill_from_ntuple ev factory "" (Some c) bipo es = Err EValueError /\
  forall name, fill_from_ntuple ev factory name None bipo es = Err EValueError.
Proof. intros. split; reflexivity. Qed.
(** C27: if the test of a parameter raises for an entry, the fill stops there with that exception;
    the entries before it have been counted once each. *)
Theorem C27_raises : forall E (ev : E -> Z) factory valid value pre e x post s,
  wf_spectra s -> extracts_r (s_cfg s) factory valid value ->
  (forall d, In d pre -> exists b, tested (map fst (s_cfg s)) valid d = Ok b) -> tested (map fst (s_cfg s)) valid e = Err x ->
  exists s', append_from_ntuple ev factory false (pre ++ e :: post)%list s = (s', Some x) /\
    counts (usable (s_cfg s) (passes valid) value) value pre (with_decays s (s_decays s + nq (length (pre ++ e :: post)%list))%Qc) s'.
Proof. exact @ntuple_raises_l. Qed.

(** C28: with the BiPo cut an entry is counted if and only if it is a first trigger, is
    usable, and a further entry follows which is not a retrigger.  Missing: the last
    entry of the stream, see C28_last_entry_refuted. *)
Theorem C28_bipo_partial : forall E (ev : E -> Z) c factory valid value name es,
  wf_cfg c -> c <> [] -> name <> "" -> extracts c factory valid value ->
  exists s, fill_from_ntuple ev factory name (Some c) true es = Ok s /\
    let kept := fun p => (ev (fst p) =? 0)%Z && usable c valid value (fst p) && (ev (snd p) <? 1)%Z in
    s_bipo s = 1%Z /\ s_decays s = nq (length es) /\
    s_raw s = Z.of_nat (count kept (pairs es)) /\ s_sum s = nq (count kept (pairs es)) /\
    forall idx, valid_idx (cfg_shape c) idx ->
      aget (s_data s) idx = nq (count (fun p => kept p && lies_in c value (fst p) idx) (pairs es)).
Proof. exact @bipo_new_l. Qed.
Theorem C28_bipo_append_partial : forall E (ev : E -> Z) factory valid value es s,
  wf_spectra s -> s_cfg s <> [] -> extracts (s_cfg s) factory valid value ->
  exists s', append_from_ntuple ev factory true es s = (s', None) /\
    counts (fun p => (ev (fst p) =? 0)%Z && usable (s_cfg s) valid value (fst p) && (ev (snd p) <? 1)%Z)
      (fun v p => value v (fst p)) (pairs es)
      (with_bipo (with_decays s (s_decays s + nq (length es))%Qc) 1) s'.
Proof. exact @bipo_into_l. Qed.

(** An ntuple with entries (evIndex, energy); negative energies are not valid. *)
Definition ex_c : sconfig := [("energy_mc", SPar (zq 0) (zq 10) 5)].
Definition ex_valid (v : string) (e : Z * Qc) : bool := qle 0 (snd e).
Definition ex_val (v : string) (e : Z * Qc) : Qc := snd e.
Definition ex_factory (v : string) : res (extractor (Z * Qc)) :=
  Ok (Ext v (fun e => Ok (ex_valid v e)) (ex_val v)).
Definition ex_es : list (Z * Qc) :=
  [(0%Z, zq 3); (1%Z, zq 4); (0%Z, zq 5); (0%Z, zq (-1)); (0%Z, zq 20); (0%Z, zq 9)].

(** The last entry of the stream is lost even though no retrigger follows it. *)
Theorem C28_last_entry_refuted :
  ~ (forall E (ev : E -> Z) c factory valid value name es,
       wf_cfg c -> c <> [] -> name <> "" -> extracts c factory valid value ->
       exists s, fill_from_ntuple ev factory name (Some c) true es = Ok s /\
         s_raw s = Z.of_nat (count (fun p => (ev (fst p) =? 0)%Z && usable c valid value (fst p) &&
                                    match snd p with None => true | Some n => (ev n <? 1)%Z end) (followed es))).
Proof.
  intro H.
  destruct (H (Z * Qc)%type fst ex_c ex_factory ex_valid ex_val "b_mc" [(0%Z, zq 3)]) as (s & E & R).
  - split; [repeat constructor; cbn; tauto|]. repeat constructor; vm_compute; reflexivity.
  - discriminate.
  - discriminate.
  - intros v _. eexists. split; [reflexivity|]. split; [reflexivity|]. intro e. split; reflexivity.
  - vm_compute in E. injection E as <-. vm_compute in R. discriminate.
Qed.

(** C57: filling from a ROOT file.  With MC and truth parameters only, each entry is
    counted at most once; with a reco parameter each trigger is; the BiPo cut keeps the
    entries with exactly one trigger. *)
Theorem C57_root_mc : forall D V (evs : D -> list V) factory valid value bipo ds s,
  wf_spectra s -> s_cfg s <> [] -> extracts (s_cfg s) factory valid value ->
  (forall v, In v (map fst (s_cfg s)) -> is_mc v = true) ->
  exists s', append_from_root evs factory bipo ds s = (s', None) /\
    counts (usable (s_cfg s) (of_entry valid) (of_entry value)) (of_entry value)
      (single_ev evs bipo ds) (decayed bipo ds s) s'.
Proof. exact append_root_mc. Qed.
Theorem C57_root_reco : forall D V (evs : D -> list V) factory valid value bipo ds s,
  wf_spectra s -> extracts (s_cfg s) factory valid value ->
  (forall v, In v (map fst (s_cfg s)) -> is_mc v = true \/ is_reco v = true) ->
  (exists v, In v (map fst (s_cfg s)) /\ is_reco v = true) ->
  exists s', append_from_root evs factory bipo ds s = (s', None) /\
    counts (usable (s_cfg s) (of_trigger valid) (of_trigger value)) (of_trigger value)
      (triggers evs (single_ev evs bipo ds)) (decayed bipo ds s) s'.
Proof. exact append_root_ev. Qed.
Theorem C57_root_unknown_type : forall D V (evs : D -> list V) factory bipo ds s v,
  In v (map fst (s_cfg s)) -> is_mc v = false -> is_reco v = false ->
  (forall w, In w (map fst (s_cfg s)) -> exists x, factory w = Ok x) ->
  snd (append_from_root evs factory bipo ds s) = Some EIndexError.
Proof. exact append_root_unknown. Qed.

(** C57: a new spectrum has one decay per entry of the file. *)
Theorem C57_new_mc : forall D V (evs : D -> list V) factory c valid value name bipo ds,
  wf_cfg c -> c <> [] -> name <> "" -> extracts c factory valid value -> (forall v, In v (map fst c) -> is_mc v = true) ->
  exists s, fill_from_root evs factory name (Some c) bipo ds = Ok s /\
    new_result (usable c (of_entry valid) (of_entry value)) (of_entry value) (single_ev evs bipo ds) name (nq (length ds)) c bipo s.
Proof. exact @root_new_mc. Qed.
Theorem C57_new_reco : forall D V (evs : D -> list V) factory c valid value name bipo ds,
  wf_cfg c -> name <> "" -> extracts c factory valid value ->
  (forall v, In v (map fst c) -> is_mc v = true \/ is_reco v = true) -> (exists v, In v (map fst c) /\ is_reco v = true) ->
  exists s, fill_from_root evs factory name (Some c) bipo ds = Ok s /\
    new_result (usable c (of_trigger valid) (of_trigger value)) (of_trigger value) (triggers evs (single_ev evs bipo ds)) name (nq (length ds)) c bipo s.
Proof. exact @root_new_ev. Qed.
Theorem C57_refused : forall D V (evs : D -> list V) factory bipo c ds,
  fill_from_root evs factory "" (Some c) bipo ds = Err EValueError /\
  forall name, fill_from_root evs factory name None bipo ds = Err EValueError.
Proof. intros. split; reflexivity. Qed.
(** C57: a test that raises (as the fiducial cut of external events with several triggers) stops
    the fill with its exception; what came before has been counted. *)
Theorem C57_raises_mc : forall D V (evs : D -> list V) factory valid value bipo pre d x post s,
  wf_spectra s -> s_cfg s <> [] -> extracts_r (s_cfg s) factory valid value ->
  (forall v, In v (map fst (s_cfg s)) -> is_mc v = true) -> (bipo = true -> length (evs d) = 1%nat) ->
  (forall d', In d' (single_ev evs bipo pre) -> exists b, tested (map fst (s_cfg s)) (of_entry valid) d' = Ok b) ->
  tested (map fst (s_cfg s)) (of_entry valid) d = Err x ->
  exists s', append_from_root evs factory bipo (pre ++ d :: post)%list s = (s', Some x) /\
    counts (usable (s_cfg s) (of_entry (passes valid)) (of_entry value)) (of_entry value) (single_ev evs bipo pre) (decayed bipo (pre ++ d :: post)%list s) s'.
Proof. exact root_raises_mc. Qed.
Theorem C57_raises_reco : forall D V (evs : D -> list V) factory valid value bipo pre d vpre v vpost x post s,
  wf_spectra s -> extracts_r (s_cfg s) factory valid value ->
  (forall v, In v (map fst (s_cfg s)) -> is_mc v = true \/ is_reco v = true) ->
  (exists v, In v (map fst (s_cfg s)) /\ is_reco v = true) -> (bipo = true -> length (evs d) = 1%nat) -> evs d = (vpre ++ v :: vpost)%list ->
  (forall t, In t (triggers evs (single_ev evs bipo pre) ++ map (fun v => (d, v)) vpre)%list -> exists b, tested (map fst (s_cfg s)) (of_trigger valid) t = Ok b) ->
  tested (map fst (s_cfg s)) (of_trigger valid) (d, v) = Err x ->
  exists s', append_from_root evs factory bipo (pre ++ d :: post)%list s = (s', Some x) /\
    counts (usable (s_cfg s) (of_trigger (passes valid)) (of_trigger value)) (of_trigger value)
      (triggers evs (single_ev evs bipo pre) ++ map (fun v => (d, v)) vpre)%list (decayed bipo (pre ++ d :: post)%list s) s'.
Proof. exact root_raises_ev. Qed.

(** The hypotheses hold for the ntuple above, and the counts are not trivial. *)
Example C27_ex : wf_cfg ex_c /\ extracts ex_c ex_factory ex_valid ex_val /\
  count (usable ex_c ex_valid ex_val) ex_es = 4 /\
  rmap s_raw (fill_from_ntuple fst ex_factory "b_mc" (Some ex_c) false ex_es) = Ok 4%Z.
Proof.
  split; [|split; [|split; vm_compute; reflexivity]].
  - split; [repeat constructor; cbn; tauto|]. repeat constructor; vm_compute; reflexivity.
  - intros v _. eexists. split; [reflexivity|]. split; [reflexivity|]. intro e. split; reflexivity.
Qed.
Example C28_ex :
  rmap s_raw (fill_from_ntuple fst ex_factory "b_mc" (Some ex_c) true ex_es) = Ok 1%Z /\
  rmap (fun s => this (aget (s_data s) [2])) (fill_from_ntuple fst ex_factory "b_mc" (Some ex_c) true ex_es)
    = Ok (this 1%Qc).
Proof. split; vm_compute; reflexivity. Qed.

(** A ROOT file: an entry is its MC energy and the energies of its triggers. *)
Definition ex_rc : sconfig := [("energy_mc", SPar (zq 0) (zq 10) 5); ("energy_reco", SPar (zq 0) (zq 8) 4)].
Definition ex_rval (v : string) (e : (Qc * list Qc) * option Qc) : Qc :=
  match snd e with None => fst (fst e) | Some x => x end.
Definition ex_rvalid (v : string) (e : (Qc * list Qc) * option Qc) : bool := qle 0 (ex_rval v e).
Definition ex_rfactory (v : string) : res (extractor ((Qc * list Qc) * option Qc)) :=
  Ok (Ext v (fun e => Ok (ex_rvalid v e)) (ex_rval v)).
Definition ex_ds : list (Qc * list Qc) := [(zq 3, [zq 2; zq 5]); (zq 4, [zq 7]); (zq 1, []); (zq 9, [zq 9])].
Definition ex_rs : spectra := Spec "a" None ex_rc (azeros [5; 4]) 0 0 0 [].
Example C57_ex :
  wf_spectra ex_rs /\ extracts ex_rc ex_rfactory ex_rvalid ex_rval /\
  (forall v, In v (map fst ex_rc) -> is_mc v = true \/ is_reco v = true) /\
  (exists v, In v (map fst ex_rc) /\ is_reco v = true) /\
  s_raw (fst (append_from_root snd ex_rfactory false ex_ds ex_rs)) = 3%Z /\
  s_raw (fst (append_from_root snd ex_rfactory true ex_ds ex_rs)) = 1%Z.
Proof.
  split; [|split; [|split; [|split; [|split; vm_compute; reflexivity]]]].
  - split; [|reflexivity]. split; [repeat constructor; cbn; intuition congruence|]. repeat constructor; vm_compute; reflexivity.
  - intros v _. eexists. split; [reflexivity|]. split; [reflexivity|]. intro e. split; reflexivity.
  - intros v [<-|[<-|[]]]; vm_compute; tauto.
  - exists "energy_reco". split; [cbn; tauto|reflexivity].
Qed.

(** A test that raises for values above 8: the second trigger of the second entry. *)
Definition ex_tvalid (v : string) (e : (Qc * list Qc) * option Qc) : res bool := if qlt (zq 8) (ex_rval v e) then Err EValueError else Ok (ex_rvalid v e).
Definition ex_tfactory (v : string) : res (extractor ((Qc * list Qc) * option Qc)) := Ok (Ext v (ex_tvalid v) (ex_rval v)).
Definition ex_tds : list (Qc * list Qc) := [(zq 3, [zq 2; zq 5]); (zq 4, [zq 7; zq 9]); (zq 1, [zq 1])].
Example C57_raises_ex :
  extracts_r ex_rc ex_tfactory ex_tvalid ex_rval /\
  (forall t, In t (triggers snd (single_ev snd false [(zq 3, [zq 2; zq 5])]) ++ map (fun v => ((zq 4, [zq 7; zq 9]), v)) [zq 7])%list ->
     exists b, tested (map fst ex_rc) (of_trigger ex_tvalid) t = Ok b) /\
  tested (map fst ex_rc) (of_trigger ex_tvalid) ((zq 4, [zq 7; zq 9]), zq 9) = Err EValueError /\
  s_raw (fst (append_from_root snd ex_tfactory false ex_tds ex_rs)) = 3%Z /\ snd (append_from_root snd ex_tfactory false ex_tds ex_rs) = Some EValueError.
Proof.
  split; [intros v _; eexists; split; [reflexivity|]; split; [reflexivity|]; intro e; split; reflexivity|].
  split; [|split; [|split]; vm_compute; reflexivity].
  intros t H. cbn in H. destruct H as [<-|[<-|[<-|[]]]]; eexists; vm_compute; reflexivity.
Qed.

Print Assumptions C27_ntuple_new.
Print Assumptions C27_ntuple_append.
Print Assumptions C28_bipo_partial.
Print Assumptions C28_last_entry_refuted.
Print Assumptions C57_root_mc.
Print Assumptions C57_root_reco.
Print Assumptions C57_new_mc.
Print Assumptions C57_new_reco.
Print Assumptions C57_raises_mc.
Print Assumptions C57_raises_reco.
Print Assumptions C57_refused.
Print Assumptions C27_refused.
Print Assumptions C27_raises.

(** C80: what is logged where.  Missing for the full statement: a message through the module logging
    itself before the start (as the value grids of parameters do) prevents the log file, and a start
    that failed over the log level fixes the file; both refuted below. *)
From Coq Require Import Lia.
From Verif Require Import Model.Base Model.PyStr Model.Logging Spec.LoggingSpec Proofs.StrLemmas Proofs.LoggingLemmas.
Local Open Scope string_scope.
Local Open Scope nat_scope.

Section C80.
Variable (dec : nat -> string) (version : string).

(** From the first start on, whatever is done and however often and with whatever settings logging is
    started again: the log file holds every message from level debug on, once and in order, and no
    other file is touched; the terminal shows those from the level of the settings at the first start. *)
Theorem C80_once_partial : forall files hist1 file pr a lvl hist2, Forall quiet hist1 -> pr_isdir pr = true -> level_meant (pr_level pr) lvl ->
  let before := lrun dec version hist1 (fresh files) in
  let s := lrun dec version (hist1 ++ OStart file pr a :: hist2) (fresh files) in
  let path := pr_path pr ++ log_name dec pr a (module_of file) in
  exists strict, (strict = true <-> exists o, In o (hist1 ++ [OStart file pr a]) /\ cautious_start o) /\
    let l := (start_lines version path (module_of file) ++ said (sa_capture a) strict hist2)%list in
    l_files s path = Some (file_lines l) /\ (forall q, q <> path -> l_files s q = files q) /\ l_term s = (l_term before ++ term_lines lvl l)%list.
Proof.
  intros files hist1 file pr a lvl hist2 Q D LM before s path.
  assert (U : unstarted files before). { apply quiet_run; [exact Q|]. repeat split. constructor. }
  destruct (start_l dec version file pr a lvl files before U D LM) as (s1 & E & R & S1 & S2 & F & O & T). fold path in R, F, O.
  assert (Es : s = lrun dec version hist2 s1).
  { unfold s. rewrite lrun_app. cbn [lrun lstep]. fold before. rewrite E. reflexivity. }
  destruct (said_l dec version path lvl hist2 s1 R) as (R' & F' & O' & T'). rewrite <- Es in *. rewrite S2 in *.
  exists (l_strict s1). split.
  - rewrite S1, Bool.orb_true_iff. unfold before. rewrite strict_run, String.eqb_eq. split.
    + intros [[H|(o & I & C)]|H]; [discriminate| |]; [exists o|exists (OStart file pr a)]; (split; [apply in_app_iff|assumption]); [now left|right; now left].
    + intros (o & I & C). apply in_app_iff in I as [I|[<-|[]]]; [left; right; eauto|now right].
  - cbv zeta. split; [|split].
    + now rewrite F', F, file_lines_app.
    + intros q N. now rewrite O', O.
    + now rewrite T', T, term_lines_app, <- app_assoc.
Qed.
(** The format of a message is that of the nearest logger above it, itself included, that has one. *)
Theorem C80_format : forall F (forms : dict F) default names n,
  (forall a f, nearest (fun x => In x (dkeys forms)) names n a -> dget a forms = Some f -> dispatch forms default names n = f) /\
  ((forall a, In a (dkeys forms) -> ~ candidate names n a) ->
     dispatch forms default names n = match dget "root" forms with Some f => f | None => default end).
Proof. intros F. exact dispatch_l. Qed.
(** A warning raises if and only if some start so far, successful or not, was in cautious mode. *)
Theorem C80_cautious : forall files hist text,
  snd (lstep dec version (OWarn text) (lrun dec version hist (fresh files))) <> None <-> exists o, In o hist /\ cautious_start o.
Proof.
  intros files hist text. pose proof (strict_run dec version hist (fresh files)) as X. cbn [lstep]. unfold warn_user.
  destruct (l_strict (lrun dec version hist (fresh files))).
  - split; [intros _|discriminate]. destruct X as [X _]. destruct (X eq_refl) as [H|H]; [discriminate|exact H].
  - destruct (l_capture _); cbn [snd]; (split; [congruence|]); intro H; destruct X as [_ X]; discriminate (X (or_intror H)).
Qed.
(** After a message through the module logging itself, starting makes no log file, and no message
    below the level of warnings is seen anywhere. *)
Theorem C80_early_refuted : forall files hist1 level text hist2, Forall quiet hist1 ->
  let s := lrun dec version (hist1 ++ ORoot level text :: hist2) (fresh files) in
  l_files s = files /\ forall x, In x (l_term s) -> 30 <= r_level (snd x).
Proof.
  intros files hist1 level text hist2 Q s.
  assert (Sp : spoiled files s).
  { unfold s. rewrite lrun_app. cbn [lrun lstep fst]. apply spoiled_run, spoiled_first, quiet_run; [exact Q|]. repeat split. constructor. }
  destruct Sp as (_ & _ & F & T). split; [exact F|]. now apply Forall_forall.
Qed.
(** A start with an unknown log level raises, but its file stays: the next start announces its own and
    does not write it. *)
Theorem C80_failed_start_refuted : forall files file pr a file2 pr2 a2 lvl2,
  pr_isdir pr = true -> (forall l, ~ level_meant (pr_level pr) l) -> pr_isdir pr2 = true -> level_meant (pr_level pr2) lvl2 ->
  let s1 := fst (lstep dec version (OStart file pr a) (fresh files)) in
  let r2 := lstep dec version (OStart file2 pr2 a2) s1 in
  let path1 := pr_path pr ++ log_name dec pr a (module_of file) in
  let path2 := pr_path pr2 ++ log_name dec pr2 a2 (module_of file2) in
  snd (lstep dec version (OStart file pr a) (fresh files)) = Some EKeyError /\ snd r2 = None /\
  (path1 <> path2 -> l_files (fst r2) path2 = files path2 /\
    exists l, l_files (fst r2) path1 = Some l /\ In (FFile, Rec "root" 20 ("Saving logfile to " ++ path2)) l).
Proof.
  intros files file pr a file2 pr2 a2 lvl2 D1 N D2 L2. cbv zeta.
  set (p1 := pr_path pr ++ _). set (p2 := pr_path pr2 ++ _).
  assert (E1 : exists s1, lstep dec version (OStart file pr a) (fresh files) = (s1, Some EKeyError) /\ l_handlers s1 = [HFile p1] /\ l_level s1 = DEBUG /\ l_set s1 = false /\
    forall q, l_files s1 q = if String.eqb q p1 then Some [] else files q).
  { cbn [lstep]. unfold start_logging. cbn [l_set set_warnings fresh]. rewrite D1. cbn [negb].
    assert (K : level_of (pr_level pr) = Err EKeyError).
    { unfold level_of, dlookup. cbn [dget]. destruct (String.eqb (pr_level pr) "debug") eqn:A; [apply String.eqb_eq in A; exfalso; apply (N 10); left; auto|].
      destruct (String.eqb (pr_level pr) "info") eqn:B; [apply String.eqb_eq in B; exfalso; apply (N 20); right; left; auto|].
      destruct (String.eqb (pr_level pr) "warning") eqn:C; [apply String.eqb_eq in C; exfalso; apply (N 30); right; right; auto|]. reflexivity. }
    rewrite K. eexists. split; [reflexivity|]. repeat split. }
  destruct E1 as (s1 & E1 & H & L & St & F). rewrite E1. cbn [fst snd]. split; [reflexivity|].
  cbn [lstep]. unfold start_logging.
  set (s2 := set_warnings _ _ s1). assert (H2 : l_handlers s2 = [HFile p1]) by exact H. assert (B2 : l_level s2 = DEBUG) by exact L.
  assert (F2 : l_files s2 = l_files s1) by reflexivity. assert (St2 : l_set s2 = false) by exact St. clearbody s2. rewrite St2, D2, (level_l _ _ L2). cbn [negb].
  fold p2. unfold basic_config. rewrite H2.
  set (s3 := add_console lvl2 s2). assert (A3 : l_handlers s3 = [HFile p1; HConsole lvl2]) by (cbn; now rewrite H2).
  assert (B3 : l_level s3 = DEBUG) by exact B2. assert (C3 : l_files s3 p1 = Some []) by (cbn; rewrite F2, F, String.eqb_refl; reflexivity).
  assert (F3 : l_files s3 = l_files s1) by exact F2. clearbody s3.
  destruct (running_root p1 lvl2 [] INFO ("echidna-v" ++ version) s3 A3 B3 C3 ltac:(unfold INFO; lia)) as (A4 & B4 & _ & _ & _ & C4 & D4 & _).
  set (s4 := log_root INFO _ s3) in *. clearbody s4.
  destruct (running_root p1 lvl2 _ INFO ("Saving logfile to " ++ p2) s4 A4 B4 C4 ltac:(unfold INFO; lia)) as (A5 & B5 & _ & _ & _ & C5 & D5 & _).
  fold p2. set (s5 := log_root INFO _ s4) in *. clearbody s5.
  destruct (running_root p1 lvl2 _ INFO ("Starting script: " ++ module_of file2 ++ ".py") s5 A5 B5 C5 ltac:(unfold INFO; lia)) as (A6 & B6 & _ & _ & _ & C6 & D6 & _).
  set (s6 := log_root INFO _ s5) in *. clearbody s6.
  split; [reflexivity|]. intro NE. cbn [fst]. set (r := Rec "extra" INFO _).
  assert (X : forall q, l_files (get_logger (module_of file2) (mark_set (log_to r s6))) q = if String.eqb q p1 then option_map (fun l => l ++ [(FFile, r)])%list (l_files s6 p1) else l_files s6 q).
  { intro q. unfold log_to, send. cbn [l_level l_handlers get_logger]. rewrite A6, B6. change (r_level r <? DEBUG) with false. cbn [fold_left handle].
    cbn [l_handlers l_level l_names l_set l_strict l_capture l_files l_term]. destruct (r_level r <? lvl2); cbn [get_logger mark_set l_files]; rewrite C6; reflexivity. }
  rewrite !X, String.eqb_refl. split.
  - assert (Z : String.eqb p2 p1 = false) by (apply String.eqb_neq; congruence). rewrite Z, D6, D5, D4, F3, F, Z by congruence. reflexivity.
  - rewrite C6. cbn [option_map]. eexists. split; [reflexivity|]. cbn. tauto.
Qed.
(** The first start raises if and only if the directory for the log files is missing (IOError, and
    nothing is written) or the log level is unknown (KeyError). *)
Theorem C80_start_raises : forall files hist1 file pr a, Forall quiet hist1 ->
  let before := lrun dec version hist1 (fresh files) in
  let r := lstep dec version (OStart file pr a) before in
  (pr_isdir pr = false -> snd r = Some EIOError /\ l_files (fst r) = files /\ l_term (fst r) = l_term before) /\
  (pr_isdir pr = true -> (forall lvl, ~ level_meant (pr_level pr) lvl) -> snd r = Some EKeyError) /\
  (pr_isdir pr = true -> forall lvl, level_meant (pr_level pr) lvl -> snd r = None).
Proof.
  intros files hist1 file pr a Q. cbv zeta. assert (U : unstarted files (lrun dec version hist1 (fresh files))). { apply quiet_run; [exact Q|]. repeat split. constructor. }
  set (s := lrun dec version hist1 (fresh files)) in *. clearbody s. split; [|split].
  - intro D. destruct U as (H & St & F & _). cbn [lstep]. unfold start_logging. cbn [l_set set_warnings]. rewrite St, D. cbn [negb fst snd]. auto.
  - intros D N. destruct U as (H & St & F & _). cbn [lstep]. unfold start_logging. cbn [l_set set_warnings]. rewrite St, D. cbn [negb].
    assert (K : level_of (pr_level pr) = Err EKeyError).
    { unfold level_of, dlookup. cbn [dget]. destruct (String.eqb (pr_level pr) "debug") eqn:A; [apply String.eqb_eq in A; exfalso; apply (N 10); left; auto|].
      destruct (String.eqb (pr_level pr) "info") eqn:B; [apply String.eqb_eq in B; exfalso; apply (N 20); right; left; auto|].
      destruct (String.eqb (pr_level pr) "warning") eqn:C; [apply String.eqb_eq in C; exfalso; apply (N 30); right; right; auto|]. reflexivity. }
    rewrite K. reflexivity.
  - intros D lvl L. destruct (start_l dec version file pr a lvl files s U D L) as (s' & E & _). cbn [lstep]. now rewrite E.
Qed.
(** Once started, starting again never raises, and starts, messages and new loggers never do either. *)
Theorem C80_started_never_raises : forall files hist1 file pr a lvl hist2 o, Forall quiet hist1 -> pr_isdir pr = true -> level_meant (pr_level pr) lvl ->
  (forall text, o <> OWarn text) ->
  snd (lstep dec version o (lrun dec version (hist1 ++ OStart file pr a :: hist2) (fresh files))) = None.
Proof.
  intros files hist1 file pr a lvl hist2 o Q D L NW. assert (U : unstarted files (lrun dec version hist1 (fresh files))). { apply quiet_run; [exact Q|]. repeat split. constructor. }
  rewrite lrun_app. cbn [lrun lstep]. destruct (start_l dec version file pr a lvl files _ U D L) as (s1 & E & R & _). rewrite E. cbn [fst].
  destruct (said_l dec version _ lvl hist2 s1 R) as ((_ & _ & St & _) & _). destruct o as [file2 pr2 a2|r|n t|t|n]; try reflexivity; [|now elim (NW t)].
  cbn [lstep]. unfold start_logging. cbn [l_set set_warnings]. rewrite St. reflexivity.
Qed.
(** Two processes on one machine have different log files, whatever scripts they run. *)
Theorem C80_own_file : plain_dec dec -> forall pr1 pr2 a1 a2 m1 m2,
  pr_host pr1 = pr_host pr2 -> pr_pid pr1 <> pr_pid pr2 -> sa_short a1 = false -> sa_short a2 = false ->
  log_name dec pr1 a1 m1 <> log_name dec pr2 a2 m2.
Proof.
  intros [Inj Nd] pr1 pr2 a1 a2 m1 m2 Hh Np S1 S2 E. apply Np, Inj. unfold log_name in E. rewrite S1, S2, <- Hh in E.
  assert (K : forall (b : bool) m x, ("echidna" ++ (if b then "." ++ m else "") ++ ("." ++ pr_host pr1 ++ "." ++ x) ++ ".log")%string
              = ((("echidna" ++ (if b then "." ++ m else "")) ++ "." ++ pr_host pr1) ++ String "." x) ++ ".log").
  { intros b m x. rewrite !sapp_assoc. reflexivity. }
  rewrite !K in E. apply sapp_inj_r in E. apply (f_equal (fun s => last (split_char "."%char s) "")) in E. cbv beta in E.
  rewrite !split_last in E by (rewrite <- contains_dot; apply Nd). exact E.
Qed.
(** A short name is not always echidna.log: the documentation says so, but by default the name of the
    script is part of it. *)
Theorem C80_short_name_refuted : forall pr module capture, log_name dec pr (StartArgs capture true true) module <> "echidna.log".
Proof.
  intros pr module capture. unfold log_name. cbn [sa_script sa_short]. intro E. apply (f_equal String.length) in E. rewrite !sapp_length in E. cbn in E.
  rewrite ?sapp_length in E. cbn in E. lia.
Qed.
(** The script is named by its file, without directory and ending. *)
Theorem C80_module : forall dir m ext, contains "/" m = false -> contains "/" ext = false -> contains "." ext = false ->
  module_of (dir ++ "/" ++ m ++ "." ++ ext) = m /\ module_of (m ++ "." ++ ext) = m.
Proof.
  intros dir m ext M E1 E2. rewrite contains_slash in M, E1. rewrite contains_dot in E2.
  assert (B : has_char "/" (m ++ "." ++ ext) = false) by (rewrite !has_app, M; cbn; exact E1).
  assert (L1 : last (split_char "/"%char (dir ++ "/" ++ m ++ "." ++ ext)) "" = m ++ "." ++ ext) by exact (split_last "/" dir (m ++ "." ++ ext) B).
  assert (L2 : last (split_char "/"%char (m ++ "." ++ ext)) "" = m ++ "." ++ ext) by (rewrite split_none by exact B; reflexivity).
  assert (K : match split_char "."%char (m ++ "." ++ ext) with [_] => drop_last 1 (m ++ "." ++ ext) | l => join "." (removelast l) end = m).
  { change ("." ++ ext) with (String "." ext). rewrite split_app, (split_none _ _ E2).
    assert (J : join "." (removelast (split_char "." m ++ [ext])) = m) by (rewrite removelast_last; apply (join_split "." m)).
    destruct (split_char "." m) as [|x [|y l]] eqn:Em; [now apply split_nonempty in Em| |]; exact J. }
  unfold module_of. rewrite L1, L2. destruct (split_char "."%char (m ++ "." ++ ext)) as [|x [|y l]]; split; exact K.
Qed.
End C80.

(** ** Examples *)
Definition l_dec (n : nat) : string := if n =? 7 then "7" else "12".
Definition l_pr (mode level : string) (ok : bool) : profile := Profile mode level "logs/" ok "host" 12.
Definition l_args : startargs := StartArgs true false true.
(** A start that finds no directory; a good start; a debug message, one through "extra.more", a second
    start with another level, and a warning. *)
Definition l_hist1 : list lop := [OStart "/x/dump.py" (l_pr "normal" "info" false) l_args; OLog (Rec "Fit" 30 "early")].
Definition l_hist2 : list lop :=
  [OLog (Rec "Fit" 10 "detail"); OLog (Rec "extra.more" 20 "text"); OStart "fit.py" (l_pr "normal" "debug" true) l_args; OWarn "careful"].
Definition l_end : lstate := lrun l_dec "1" (l_hist1 ++ OStart "/x/dump.py" (l_pr "normal" "info" true) l_args :: l_hist2) (fresh (fun _ => None)).
Example C80_ex :
  Forall quiet l_hist1 /\ level_meant "info" 20 /\
  option_map (map (fun x => r_text (snd x))) (l_files l_end "logs/echidna.dump.host.12.log") =
    Some ["echidna-v1"; "Saving logfile to logs/echidna.dump.host.12.log"; "Starting script: dump.py";
          "Use the 'extra' logger at any time to add extra information."; "detail"; "text"; "Starting script: fit.py"; "careful"] /\
  map (fun x => (fst x, r_text (snd x))) (l_term l_end) =
    [(FColour, "echidna-v1"); (FColour, "Saving logfile to logs/echidna.dump.host.12.log"); (FColour, "Starting script: dump.py");
     (FExtra, "Use the 'extra' logger at any time to add extra information."); (FExtra, "text"); (FColour, "Starting script: fit.py"); (FColour, "careful")].
Proof. split; [repeat constructor|]. split; [right; left; auto|]. split; vm_compute; reflexivity. Qed.
(** A format for a logger that was never made is not found, although the message comes from below it. *)
Example C80_format_ex :
  dispatch [("a.b", 1); ("a", 2)] 0 ["a.b"; "a"] "a.b.c" = 1 /\ nearest (fun x => In x ["a.b"; "a"]) ["a.b"; "a"] "a.b.c" "a.b" /\
  dispatch [("a.b", 1); ("a", 2)] 0 ["a"] "a.b.c" = 2 /\ dispatch [("a.b", 1)] 0 ["a"] "a.b.c" = 0.
Proof.
  split; [reflexivity|]. split.
  - split; [now left|]. split; [right; split; [now exists "c"|now left]|]. intros b [<-|[<-|[]]] _; cbn; lia.
  - split; reflexivity.
Qed.
(** The grid of a parameter corrects a value before the script starts logging. *)
Example C80_early_ex :
  let s := lrun l_dec "1" [ORoot 30 "Correcting fit parameter value <= 0.0"; OStart "fit.py" (l_pr "normal" "info" true) l_args; OLog (Rec "Fit" 20 "lost")]
             (fresh (fun _ => None)) in
  l_files s "logs/echidna.fit.host.12.log" = None /\ map (fun x => r_text (snd x)) (l_term s) = ["Correcting fit parameter value <= 0.0"].
Proof. split; vm_compute; reflexivity. Qed.
Example C80_failed_start_ex : (forall l, ~ level_meant "verbose" l) /\
  exists o, In o [OStart "fit.py" (l_pr "cautious" "info" false) l_args] /\ cautious_start o.
Proof. split; [intros l [[H _]|[[H _]|[H _]]]; discriminate|]. eexists. split; [now left|]. reflexivity. Qed.
Fixpoint ones (n : nat) : string := match n with 0 => "" | Datatypes.S n => String "1" (ones n) end.
Example C80_own_file_ex : plain_dec ones /\ contains "/" "dump" = false /\ contains "." "py" = false.
Proof.
  split; [|split; reflexivity]. split.
  - intro i. induction i as [|i IH]; intros [|j] H; try discriminate; [reflexivity|]. injection H as H. f_equal. auto.
  - intro i. rewrite contains_dot. induction i as [|i IH]; [reflexivity|]. exact IH.
Qed.

Print Assumptions C80_once_partial.
Print Assumptions C80_format.
Print Assumptions C80_cautious.
Print Assumptions C80_early_refuted.
Print Assumptions C80_failed_start_refuted.
Print Assumptions C80_own_file.
Print Assumptions C80_short_name_refuted.
Print Assumptions C80_module.
Print Assumptions C80_start_raises.
Print Assumptions C80_started_never_raises.

(** Lemmas for C80. *)
From Coq Require Import Lia Sorted.
From Verif Require Import Model.Base Model.PyStr Model.Logging Spec.LoggingSpec Proofs.StrLemmas.
Local Open Scope string_scope.
Local Open Scope nat_scope.

(** ** Names *)
Lemma contains_dot s : contains "." s = has_char "."%char s.
Proof.
  induction s as [|c s IH]; [reflexivity|].
  change (contains "." (String c s)) with ((Ascii.eqb "." c && true) || contains "." s).
  change (has_char "." (String c s)) with (Ascii.eqb c "." || has_char "." s).
  now rewrite IH, Bool.andb_true_r, Ascii.eqb_sym.
Qed.
Lemma contains_slash s : contains "/" s = has_char "/"%char s.
Proof.
  induction s as [|c s IH]; [reflexivity|].
  change (contains "/" (String c s)) with ((Ascii.eqb "/" c && true) || contains "/" s).
  change (has_char "/" (String c s)) with (Ascii.eqb c "/" || has_char "/" s).
  now rewrite IH, Bool.andb_true_r, Ascii.eqb_sym.
Qed.
Lemma has_app c a b : has_char c (a ++ b) = (has_char c a || has_char c b)%bool.
Proof. induction a as [|x a IH]; [reflexivity|]. cbn. now rewrite IH, Bool.orb_assoc. Qed.
Lemma above_char c w ws : above (String c w :: ws) = map (String c) (above (w :: ws)).
Proof. cbn [above]. destruct ws as [|x l]; [reflexivity|]. rewrite map_app, map_map. reflexivity. Qed.
Lemma above_iff s : forall a, In a (above (split_char "."%char s)) <-> above_of a s.
Proof.
  induction s as [|c s IH]; intro a.
  - cbn. split; [intros []|]. intros [r H]. destruct a; discriminate.
  - cbn [split_char]. destruct (split_char "."%char s) as [|w ws] eqn:E; [now apply split_nonempty in E|].
    destruct (Ascii.eqb c ".") eqn:Ec.
    + apply Ascii.eqb_eq in Ec. subst c. cbn [above]. rewrite in_app_iff, in_map_iff. split.
      * intros [(y & <- & I)|[<-|[]]]; [|exists s; reflexivity]. apply IH in I as [r ->]. exists r. reflexivity.
      * intros [r H]. destruct a as [|c a]; [right; now left|]. injection H as <- H. left. exists a. split; [reflexivity|]. apply IH. now exists r.
    + rewrite above_char, in_map_iff. split.
      * intros (y & <- & I). apply IH in I as [r ->]. now exists r.
      * intros [r H]. destruct a as [|c' a].
        -- injection H as -> _. discriminate.
        -- injection H as <- H. exists a. split; [reflexivity|]. apply IH. now exists r.
Qed.
(** longest first *)
Definition longer (a b : string) : Prop := String.length b <= String.length a.
Lemma sorted_snoc {A} (R : A -> A -> Prop) l x : StronglySorted R l -> Forall (fun y => R y x) l -> StronglySorted R (l ++ [x]).
Proof.
  induction l as [|a l IH]; intros Ss F; [repeat constructor|]. inversion_clear Ss. inversion_clear F. cbn. constructor; [now apply IH|].
  apply Forall_app. split; [assumption|]. now repeat constructor.
Qed.
Lemma sorted_map {A B} (f : A -> B) (R : A -> A -> Prop) (Q : B -> B -> Prop) l : (forall x y, R x y -> Q (f x) (f y)) ->
  StronglySorted R l -> StronglySorted Q (map f l).
Proof. intros H Ss. induction Ss as [|a l Ss IH F]; cbn; constructor; [exact IH|]. rewrite Forall_map. eapply Forall_impl; [|exact F]. cbn. auto. Qed.
Lemma sorted_filter {A} (R : A -> A -> Prop) (f : A -> bool) l : StronglySorted R l -> StronglySorted R (filter f l).
Proof.
  induction 1 as [|a l Ss IH F]; cbn; [constructor|]. destruct (f a); [|exact IH]. constructor; [exact IH|].
  rewrite Forall_forall in *. intros x I. apply filter_In in I as [I _]. auto.
Qed.
Lemma above_sorted s : StronglySorted longer (above (split_char "."%char s)).
Proof.
  induction s as [|c s IH]; [constructor|].
  cbn [split_char]. destruct (split_char "."%char s) as [|w ws] eqn:E; [now apply split_nonempty in E|].
  destruct (Ascii.eqb c ".").
  - cbn [above]. apply sorted_snoc.
    + eapply sorted_map; [|exact IH]. unfold longer. intros x y H. cbn. lia.
    + apply Forall_forall. intros x I. unfold longer. cbn. lia.
  - rewrite above_char. eapply sorted_map; [|exact IH]. unfold longer. intros x y H. cbn. lia.
Qed.
Lemma above_shorter a n : above_of a n -> String.length a < String.length n.
Proof. intros [r ->]. rewrite !sapp_length. cbn. lia. Qed.
Lemma same_prefix a b n : above_of a n -> above_of b n -> String.length a = String.length b -> a = b.
Proof. intros [r ->] [q H] L. now apply sapp_inj_len in H as [H _]. Qed.
Lemma sorted_find {A} (R : A -> A -> Prop) (f : A -> bool) l : StronglySorted R l ->
  match find f l with
  | Some x => In x l /\ f x = true /\ forall y, In y l -> f y = true -> y = x \/ R x y
  | None => forall y, In y l -> f y = false
  end.
Proof.
  induction 1 as [|a l Ss IH F]; cbn; [tauto|]. destruct (f a) eqn:E.
  - split; [now left|]. split; [exact E|]. intros y [->|I] _; [now left|]. right. rewrite Forall_forall in F. auto.
  - destruct (find f l) as [x|].
    + destruct IH as (I & Fx & H). split; [now right|]. split; [exact Fx|]. intros y [->|J] Fy; [congruence|auto].
    + intros y [->|J]; auto.
Qed.
Lemma find_app {A} (f : A -> bool) l m : find f (l ++ m) = match find f l with Some x => Some x | None => find f m end.
Proof. induction l as [|a l IH]; cbn; [reflexivity|]. destruct (f a); [reflexivity|exact IH]. Qed.
Lemma str_in_iff x l : str_in x l = true <-> In x l.
Proof.
  unfold str_in. rewrite existsb_exists. split.
  - intros (y & I & E). apply String.eqb_eq in E. now subst.
  - intro I. exists x. split; [exact I|apply String.eqb_refl].
Qed.
Lemma dget_in {A} k (d : dict A) : In k (dkeys d) <-> exists v, dget k d = Some v.
Proof.
  induction d as [|[x v] d IH]; cbn; [split; [tauto|intros [v H]; discriminate]|].
  destruct (String.eqb k x) eqn:E.
  - apply String.eqb_eq in E. subst. split; eauto.
  - apply String.eqb_neq in E. rewrite <- IH. split; [intros [<-|I]; [congruence|exact I]|auto].
Qed.
Lemma candidates_l names n : let l := n :: filter (fun a => str_in a names) (above (split_char "."%char n)) in
  StronglySorted longer l /\ forall a, In a l <-> candidate names n a.
Proof.
  cbn zeta. split.
  - constructor; [apply sorted_filter, above_sorted|]. apply Forall_forall. intros x I. apply filter_In in I as [I _]. apply above_iff, above_shorter in I. unfold longer. lia.
  - intro a. cbn. rewrite filter_In, above_iff, str_in_iff. unfold candidate. split; intros [->|H]; auto.
Qed.
Lemma dispatch_l {F} (forms : dict F) default names n :
  (forall a f, nearest (fun x => In x (dkeys forms)) names n a -> dget a forms = Some f -> dispatch forms default names n = f) /\
  ((forall a, In a (dkeys forms) -> ~ candidate names n a) ->
     dispatch forms default names n = match dget "root" forms with Some f => f | None => default end).
Proof.
  destruct (candidates_l names n) as [Ss C]. unfold dispatch, ancestors.
  change (n :: (filter (fun a => str_in a names) (above (split_char "."%char n)) ++ ["root"]))%list
    with ((n :: filter (fun a => str_in a names) (above (split_char "."%char n))) ++ ["root"])%list.
  set (l := n :: _) in *. rewrite find_app. pose proof (sorted_find longer (fun a => str_in a (dkeys forms)) l Ss) as X.
  destruct (find _ l) as [x|].
  - destruct X as (I & Fx & X). apply str_in_iff in Fx. split.
    + intros a f (K & Ca & Mx) D. enough (a = x) by (subst; now rewrite D).
      apply C in Ca as Ia. destruct (X a Ia ltac:(now apply str_in_iff)) as [H|H]; [exact H|]. unfold longer in H.
      apply C in I. specialize (Mx x Fx I). destruct Ca as [->|[Ca _]], I as [->|[I _]]; auto.
      * apply above_shorter in I. lia.
      * apply above_shorter in Ca. lia.
      * apply (same_prefix _ _ n); auto. lia.
    + intro N. exfalso. apply (N x Fx). now apply C.
  - split.
    + intros a f (K & Ca & _) _. exfalso. apply C, X in Ca. cbn in Ca. apply Bool.not_true_iff_false in Ca. apply Ca. now apply str_in_iff.
    + intros _. cbn [find]. destruct (str_in "root" (dkeys forms)) eqn:E; [reflexivity|].
      destruct (dget "root" forms) as [f|] eqn:D; [|reflexivity]. exfalso. apply Bool.not_true_iff_false in E. apply E, str_in_iff, dget_in. eauto.
Qed.
Lemma starts_with_app p s : starts_with p s = true <-> exists r, s = p ++ r.
Proof.
  revert s. induction p as [|c p IH]; intro s; cbn; [split; eauto|]. destruct s as [|d s]; [split; [discriminate|intros [r H]; discriminate]|].
  rewrite Bool.andb_true_iff, Ascii.eqb_eq, IH. split.
  - intros (-> & r & ->). now exists r.
  - intros [r H]. injection H as -> ->. eauto.
Qed.
Lemma extra_iff names n : In "extra" names -> (is_extra n = true <-> candidate names n "extra").
Proof.
  intro I. unfold is_extra, candidate, above_of. rewrite Bool.orb_true_iff, String.eqb_eq, starts_with_app. split.
  - intros [->|(r & ->)]; [now left|right]. split; [now exists r|exact I].
  - intros [<-|[(r & ->) _]]; [now left|right; now exists r].
Qed.
Lemma console_l names n : In "extra" names -> console_format names n = if is_extra n then FExtra else FColour.
Proof.
  intro I. unfold console_format. destruct (dispatch_l [("extra", FExtra)] FColour names n) as [D1 D2].
  destruct (is_extra n) eqn:E.
  - apply (D1 "extra"); [|reflexivity]. split; [now left|]. split; [now apply (extra_iff names n I)|]. intros b [E2|[]] _. subst b. apply le_n.
  - rewrite D2; [reflexivity|]. intros a [<-|[]] H. apply (extra_iff names n I) in H. congruence.
Qed.
Lemma console_root names : console_format names "root" = FColour.
Proof.
  unfold console_format. destruct (dispatch_l [("extra", FExtra)] FColour names "root") as [_ D2]. rewrite D2; [reflexivity|].
  intros a [<-|[]] [H|[[r H] _]]; discriminate.
Qed.

(** ** Running *)
Section Run.
Variable (dec : nat -> string) (version : string).
Definition running (path : string) (lvl : nat) (s : lstate) : Prop :=
  l_handlers s = [HFile path; HConsole lvl] /\ l_level s = DEBUG /\ l_set s = true /\ In "extra" (l_names s) /\
  exists l, l_files s path = Some l.
(** The files and the terminal after saying [l], other things as in [s]. *)
Definition wrote_to (path : string) (lvl : nat) (l : list (bool * record)) (s s' : lstate) : Prop :=
  running path lvl s' /\
  l_files s' path = Some (match l_files s path with Some x => x | None => [] end ++ file_lines l)%list /\
  (forall q, q <> path -> l_files s' q = l_files s q) /\ l_term s' = (l_term s ++ term_lines lvl l)%list.
Lemma file_lines_app a b : file_lines (a ++ b) = (file_lines a ++ file_lines b)%list.
Proof. apply flat_map_app. Qed.
Lemma term_lines_app lvl a b : term_lines lvl (a ++ b) = (term_lines lvl a ++ term_lines lvl b)%list.
Proof. apply flat_map_app. Qed.
Lemma wrote_trans path lvl l1 l2 s s1 s2 : wrote_to path lvl l1 s s1 -> wrote_to path lvl l2 s1 s2 -> wrote_to path lvl (l1 ++ l2) s s2.
Proof.
  intros (R1 & F1 & O1 & T1) (R2 & F2 & O2 & T2). split; [exact R2|]. split; [|split].
  - rewrite F2, F1, file_lines_app, app_assoc. reflexivity.
  - intros q N. now rewrite O2, O1.
  - now rewrite T2, T1, term_lines_app, app_assoc.
Qed.
Lemma send_l path lvl r s : running path lvl s -> wrote_to path lvl [(true, r)] s (send r s) /\
  l_strict (send r s) = l_strict s /\ l_capture (send r s) = l_capture s.
Proof.
  intros (H & L & St & Ex & x & Fx). unfold send. rewrite H, L. cbn [fold_left]. unfold wrote_to, file_lines, term_lines. cbn [flat_map fst snd andb app].
  rewrite Fx. change DEBUG with 10. rewrite Nat.leb_antisym.
  destruct (r_level r <? 10) eqn:E; cbn [negb andb].
  - rewrite !app_nil_r. repeat split; eauto.
  - unfold handle at 2. cbn [l_handlers l_level l_names l_set l_strict l_capture l_files l_term].
    unfold handle. cbn [l_handlers l_level l_names l_set l_strict l_capture l_files l_term]. rewrite (Nat.leb_antisym (r_level r) lvl).
    destruct (r_level r <? lvl) eqn:E2; cbn [negb]; unfold running, get_logger; cbn [l_handlers l_level l_names l_set l_strict l_capture l_files l_term];
      rewrite String.eqb_refl, Fx, ?app_nil_r.
    + repeat split; eauto. intros q N. apply String.eqb_neq in N. now rewrite N.
    + repeat split; eauto; try now right.
      * intros q N. apply String.eqb_neq in N. now rewrite N.
      * do 3 f_equal. apply console_l. now right.
Qed.
Lemma running_get path lvl s n : running path lvl s -> running path lvl (get_logger n s).
Proof. intros (H & L & St & Ex & x & Fx). repeat split; cbn; eauto. Qed.
Lemma log_to_l path lvl r s : running path lvl s -> wrote_to path lvl [(true, r)] s (log_to r s) /\
  l_strict (log_to r s) = l_strict s /\ l_capture (log_to r s) = l_capture s.
Proof. intro R. apply (send_l path lvl r) with (s := get_logger (r_name r) s). now apply running_get. Qed.
Lemma log_root_l path lvl n t s : running path lvl s -> wrote_to path lvl [(true, Rec "root" n t)] s (log_root n t s) /\
  l_strict (log_root n t s) = l_strict s /\ l_capture (log_root n t s) = l_capture s.
Proof. intro R. unfold log_root. pose proof R as (H & _). rewrite H. now apply send_l. Qed.
Lemma wrote_nil path lvl s : running path lvl s -> wrote_to path lvl [] s s.
Proof. intros R. pose proof R as (_ & _ & _ & _ & x & Fx). split; [exact R|]. rewrite Fx. cbn. rewrite !app_nil_r. auto. Qed.
Lemma said_l path lvl l : forall s, running path lvl s -> wrote_to path lvl (said (l_capture s) (l_strict s) l) s (lrun dec version l s).
Proof.
  induction l as [|o l IH]; intros s R; [now apply wrote_nil|]. cbn [lrun]. destruct o as [file pr a|r|n t|t|n]; cbn [lstep said].
  - unfold start_logging. set (s0 := set_warnings _ _ s).
    assert (R0 : running path lvl s0) by (destruct R as (? & ? & ? & ? & x & ?); repeat split; eauto).
    pose proof R0 as (_ & _ & St & _). rewrite St. cbn [fst].
    destruct (log_root_l path lvl INFO ("Starting script: " ++ module_of file ++ ".py") s0 R0) as (W & S1 & S2).
    change (?x :: ?y) with ([x] ++ y)%list. eapply wrote_trans; [exact W|].
    set (s1 := log_root _ _ _) in *. change (sa_capture a) with (l_capture s0). change (l_strict s || _) with (l_strict s0). rewrite <- S1, <- S2.
    apply (IH (get_logger (module_of file) s1)). apply running_get, W.
  - cbn [fst]. destruct (log_to_l path lvl r s R) as (W & S1 & S2). change (?x :: ?y) with ([x] ++ y)%list. eapply wrote_trans; [exact W|].
    rewrite <- S1, <- S2. apply IH, W.
  - cbn [fst]. destruct (log_root_l path lvl n t s R) as (W & S1 & S2). change (?x :: ?y) with ([x] ++ y)%list. eapply wrote_trans; [exact W|].
    rewrite <- S1, <- S2. apply IH, W.
  - unfold warn_user. destruct (l_strict s) eqn:Es; [cbn [fst]; rewrite <- Es; now apply IH|]. destruct (l_capture s) eqn:Ec; cbn [fst].
    + destruct (log_to_l path lvl (Rec "py.warnings" WARNING t) s R) as (W & S1 & S2). change (?x :: ?y) with ([x] ++ y)%list. eapply wrote_trans; [exact W|].
      rewrite Es in S1. rewrite Ec in S2. replace (said true false l) with (said (l_capture (log_to (Rec "py.warnings" WARNING t) s)) (l_strict (log_to (Rec "py.warnings" WARNING t) s)) l) by (now rewrite S1, S2).
      apply IH, W.
    + change (?x :: ?y) with ([x] ++ y)%list. eapply wrote_trans.
      2:{ match goal with |- wrote_to _ _ _ _ (lrun _ _ _ ?x) => change (said false false l) with (said (l_capture x) (l_strict x) l) end. apply IH.
          destruct R as (? & ? & ? & ? & x & ?); repeat split; eauto. }
      destruct R as (? & ? & ? & ? & x & Fx). split; [repeat split; eauto|]. cbn [l_files l_term]. rewrite Fx. cbn. rewrite app_nil_r. auto.
  - cbn [fst]. change (l_capture s) with (l_capture (get_logger n s)). change (l_strict s) with (l_strict (get_logger n s)).
    apply (IH (get_logger n s)). now apply running_get.
Qed.
(** ** Starting *)
Definition unstarted (files : string -> option (list line)) (s : lstate) : Prop :=
  l_handlers s = [] /\ l_set s = false /\ l_files s = files /\ l_level s = WARNING /\ Forall (fun x => WARNING <= r_level (snd x)) (l_term s).
Lemma quiet_step o s files : quiet o -> unstarted files s -> unstarted files (fst (lstep dec version o s)).
Proof.
  intros Q (H & St & F & L & T). destruct o as [file pr a|r|n t|t|n]; cbn [lstep].
  - unfold start_logging. cbn [l_set set_warnings]. rewrite St, Q. cbn [negb fst]. repeat split; assumption.
  - cbn [fst]. unfold log_to, send. cbn [l_handlers l_level get_logger]. rewrite H. cbn [fold_left]. destruct (_ <? _); repeat split; assumption.
  - contradiction.
  - unfold warn_user. destruct (l_strict s); [repeat split; assumption|]. destruct (l_capture s); cbn [fst].
    + unfold log_to, send. cbn [l_handlers l_level get_logger]. rewrite H. cbn [fold_left]. destruct (_ <? _); repeat split; assumption.
    + repeat split; try assumption. cbn. apply Forall_app. split; [exact T|]. repeat constructor.
  - repeat split; assumption.
Qed.
Lemma quiet_run l : forall s files, Forall quiet l -> unstarted files s -> unstarted files (lrun dec version l s).
Proof. induction l as [|o l IH]; intros s files Q U; [exact U|]. inversion_clear Q. cbn [lrun]. apply IH; [assumption|]. now apply quiet_step. Qed.
Lemma lrun_app l m s : lrun dec version (l ++ m) s = lrun dec version m (lrun dec version l s).
Proof. revert s. induction l as [|o l IH]; intro s; [reflexivity|]. cbn. apply IH. Qed.
Lemma level_l n lvl : level_meant n lvl -> level_of n = Ok lvl.
Proof. intros [[-> ->]|[[-> ->]|[-> ->]]]; reflexivity. Qed.
Lemma running_root path lvl files n t s : l_handlers s = [HFile path; HConsole lvl] -> l_level s = DEBUG -> l_files s path = Some files -> 10 <= n ->
  let s' := log_root n t s in
  l_handlers s' = [HFile path; HConsole lvl] /\ l_level s' = DEBUG /\ l_set s' = l_set s /\ l_strict s' = l_strict s /\ l_capture s' = l_capture s /\
  l_files s' path = Some (files ++ [(FFile, Rec "root" n t)])%list /\ (forall q, q <> path -> l_files s' q = l_files s q) /\
  l_term s' = (l_term s ++ (if lvl <=? n then [(FColour, Rec "root" n t)] else []))%list.
Proof.
  intros H L F N. cbn zeta. unfold log_root, send. rewrite H, L. cbn [r_level]. change DEBUG with 10. assert (X : n <? 10 = false) by (apply Nat.ltb_ge; lia). rewrite X. cbn [fold_left].
  rewrite H. cbn [fold_left]. unfold handle at 2. cbn [l_handlers l_level l_names l_set l_strict l_capture l_files l_term]. unfold handle. cbn [r_level r_name].
  rewrite (Nat.leb_antisym n lvl). destruct (n <? lvl); cbn [negb get_logger l_handlers l_level l_names l_set l_strict l_capture l_files l_term];
    rewrite String.eqb_refl, F, ?app_nil_r, ?console_root; repeat split; auto; intros q Nq; apply String.eqb_neq in Nq; now rewrite Nq.
Qed.
Lemma start_l file pr a lvl files s : unstarted files s -> pr_isdir pr = true -> level_meant (pr_level pr) lvl ->
  let path := pr_path pr ++ log_name dec pr a (module_of file) in
  exists s', start_logging dec version file pr a s = (s', Ok (module_of file)) /\ running path lvl s' /\
    l_strict s' = (l_strict s || String.eqb (pr_mode pr) "cautious")%bool /\ l_capture s' = sa_capture a /\
    l_files s' path = Some (file_lines (start_lines version path (module_of file))) /\ (forall q, q <> path -> l_files s' q = files q) /\
    l_term s' = (l_term s ++ term_lines lvl (start_lines version path (module_of file)))%list.
Proof.
  intros (H & St & F & _) D LM path. unfold start_logging. cbn [l_set set_warnings]. rewrite St, D, (level_l _ _ LM). cbn [negb].
  fold path. set (s0 := set_warnings _ _ s). assert (H0 : l_handlers s0 = []) by exact H.
  unfold basic_config. rewrite H0. set (s1 := add_console lvl _).
  assert (A1 : l_handlers s1 = [HFile path; HConsole lvl]) by reflexivity.
  assert (B1 : l_level s1 = DEBUG) by reflexivity.
  assert (C1 : l_files s1 path = Some []) by (cbn; now rewrite String.eqb_refl).
  set (t1 := ("echidna-v" ++ version)%string). destruct (running_root path lvl [] INFO t1 s1 A1 B1 C1 ltac:(unfold INFO; lia)) as (A2 & B2 & X1 & X2 & X3 & C2 & D2 & E2).
  set (s2 := log_root INFO t1 s1) in *. set (t2 := ("Saving logfile to " ++ pr_path pr ++ log_name dec pr a (module_of file))%string).
  destruct (running_root path lvl _ INFO t2 s2 A2 B2 C2 ltac:(unfold INFO; lia)) as (A3 & B3 & X4 & X5 & X6 & C3 & D3 & E3).
  set (s3 := log_root INFO t2 s2) in *. set (t3 := ("Starting script: " ++ module_of file ++ ".py")%string).
  destruct (running_root path lvl _ INFO t3 s3 A3 B3 C3 ltac:(unfold INFO; lia)) as (A4 & B4 & X7 & X8 & X9 & C4 & D4 & E4).
  set (s4 := log_root INFO t3 s3) in *. set (r := Rec "extra" INFO _).
  assert (R4 : running path lvl (mark_set (get_logger "extra" s4))) by (repeat split; cbn; eauto).
  destruct (send_l path lvl r _ R4) as ((R5 & F5 & O5 & T5) & X10 & X11).
  assert (EQ : send r (mark_set (get_logger "extra" s4)) = mark_set (log_to r s4)).
  { unfold log_to, send. cbn [l_level l_handlers mark_set get_logger r_name r]. rewrite B4, A4. change (r_level r <? DEBUG) with false. cbn [fold_left].
    unfold handle at 2 4. unfold handle. cbn [l_handlers l_level l_names l_set l_strict l_capture l_files l_term mark_set get_logger]. destruct (r_level r <? lvl); reflexivity. }
  rewrite EQ in *. clear EQ. set (s5 := mark_set (log_to r s4)) in *.
  exists (get_logger (module_of file) s5). split; [reflexivity|]. split; [now apply running_get|].
  change (l_strict (get_logger (module_of file) s5)) with (l_strict s5). change (l_capture (get_logger (module_of file) s5)) with (l_capture s5).
  change (l_files (get_logger (module_of file) s5)) with (l_files s5). change (l_term (get_logger (module_of file) s5)) with (l_term s5).
  change (l_strict s5 = l_strict s4) in X10. change (l_capture s5 = l_capture s4) in X11.
  change (l_files (mark_set (get_logger "extra" s4))) with (l_files s4) in F5, O5. change (l_term (mark_set (get_logger "extra" s4))) with (l_term s4) in T5.
  split; [rewrite X10, X8, X5, X2; reflexivity|]. split; [rewrite X11, X9, X6, X3; reflexivity|]. split; [|split].
  - rewrite F5, C4. reflexivity.
  - intros q Nq. rewrite O5, D4, D3, D2 by exact Nq. cbn. apply String.eqb_neq in Nq. rewrite Nq, <- F. reflexivity.
  - rewrite T5, E4, E3, E2. unfold term_lines, start_lines. cbn [flat_map fst snd r_level r_name app].
    rewrite <- !app_assoc. reflexivity.
Qed.
(** ** Warnings *)
Lemma strict_handle r s h : l_strict (handle r s h) = l_strict s.
Proof. destruct h; cbn [handle]; try reflexivity. destruct (_ <? _); reflexivity. Qed.
Lemma strict_send r s : l_strict (send r s) = l_strict s.
Proof.
  unfold send. destruct (_ <? _); [reflexivity|]. generalize (l_handlers s). intro l. revert s. induction l as [|h l IH]; intro s; [reflexivity|].
  cbn [fold_left]. now rewrite IH, strict_handle.
Qed.
Lemma strict_root n t s : l_strict (log_root n t s) = l_strict s.
Proof. unfold log_root. rewrite strict_send. destruct (l_handlers s); reflexivity. Qed.
Lemma strict_get n s : l_strict (get_logger n s) = l_strict s.
Proof. reflexivity. Qed.
Lemma strict_mark s : l_strict (mark_set s) = l_strict s.
Proof. reflexivity. Qed.
Lemma strict_console n s : l_strict (add_console n s) = l_strict s.
Proof. reflexivity. Qed.
Lemma strict_basic p s : l_strict (basic_config p s) = l_strict s.
Proof. unfold basic_config. destruct (l_handlers s); reflexivity. Qed.
Lemma strict_start file pr a s : l_strict (fst (start_logging dec version file pr a s)) = (l_strict s || String.eqb (pr_mode pr) "cautious")%bool.
Proof.
  unfold start_logging. change (l_strict s || String.eqb (pr_mode pr) "cautious")%bool with (l_strict (set_warnings (sa_capture a) (String.eqb (pr_mode pr) "cautious") s)).
  generalize (set_warnings (sa_capture a) (String.eqb (pr_mode pr) "cautious") s). intro s0.
  destruct (l_set s0); [unfold fst; now rewrite strict_get, strict_root|]. destruct (negb _); [reflexivity|].
  destruct (level_of _); unfold fst; [|apply strict_basic]. unfold log_to. now rewrite strict_get, strict_mark, strict_send, strict_get, !strict_root, strict_console, strict_basic.
Qed.
Lemma strict_step o s : l_strict (fst (lstep dec version o s)) = (l_strict s || match o with OStart _ pr _ => String.eqb (pr_mode pr) "cautious" | _ => false end)%bool.
Proof.
  destruct o as [file pr a|r|n t|t|n]; cbn [lstep]; rewrite ?Bool.orb_false_r.
  - rewrite <- (strict_start file pr a s). destruct (start_logging dec version file pr a s). reflexivity.
  - unfold fst, log_to. now rewrite strict_send, strict_get.
  - apply strict_root.
  - unfold warn_user. destruct (l_strict s) eqn:E; [exact E|]. destruct (l_capture s); unfold fst; [|reflexivity]. unfold log_to. now rewrite strict_send, strict_get.
  - reflexivity.
Qed.
Lemma strict_run l : forall s, l_strict (lrun dec version l s) = true <-> l_strict s = true \/ exists o, In o l /\ cautious_start o.
Proof.
  induction l as [|o l IH]; intro s; cbn [lrun].
  - split; [auto|]. intros [H|(o & [] & _)]. exact H.
  - rewrite IH, strict_step, Bool.orb_true_iff. split.
    + intros [[H|H]|(o' & I & C)]; [now left|right; exists o; split; [now left|]|right; exists o'; split; [now right|exact C]].
      destruct o; try discriminate. now apply String.eqb_eq in H.
    + intros [H|(o' & [<-|I] & C)]; [auto| |right; eauto]. left. right. destruct o; try contradiction. now apply String.eqb_eq.
Qed.
(** ** A message through the module first *)
Definition spoiled (files : string -> option (list line)) (s : lstate) : Prop :=
  (exists l, l_handlers s = HDefault :: l /\ forall h, In h l -> exists n, h = HConsole n) /\ l_level s = WARNING /\ l_files s = files /\
  Forall (fun x => WARNING <= r_level (snd x)) (l_term s).
Lemma spoiled_handle files r s h : WARNING <= r_level r -> (h = HDefault \/ exists n, h = HConsole n) -> spoiled files s -> spoiled files (handle r s h).
Proof.
  intros W Hh (A & B & C & D). destruct Hh as [->|[n ->]]; cbn [handle].
  - split; [exact A|]. split; [exact B|]. split; [exact C|]. cbn. apply Forall_app. split; [exact D|]. now repeat constructor.
  - destruct (_ <? _); [repeat split; assumption|]. split; [exact A|]. split; [exact B|]. split; [exact C|]. cbn. apply Forall_app. split; [exact D|]. now repeat constructor.
Qed.
Lemma spoiled_send files r s : spoiled files s -> spoiled files (send r s).
Proof.
  intros Sp. unfold send. pose proof Sp as ((l & H & Hl) & L & _). rewrite L. destruct (r_level r <? WARNING) eqn:E; [exact Sp|]. apply Nat.ltb_ge in E.
  assert (G : forall hs, (forall h, In h hs -> h = HDefault \/ exists n, h = HConsole n) -> forall s, spoiled files s -> spoiled files (fold_left (handle r) hs s)).
  { clear - E. induction hs as [|h hs IH]; intros A s Sp; [exact Sp|]. cbn. apply IH; [intros; apply A; now right|]. apply spoiled_handle; auto. apply A. now left. }
  rewrite H. apply G; [|exact Sp]. intros h [<-|I]; [now left|right; auto].
Qed.
Lemma spoiled_root files n t s : spoiled files s -> spoiled files (log_root n t s).
Proof. intro Sp. unfold log_root. pose proof Sp as ((l & H & _) & _). rewrite H. now apply spoiled_send. Qed.
Lemma spoiled_get files n s : spoiled files s -> spoiled files (get_logger n s).
Proof. intros (A & B & C & D). repeat split; assumption. Qed.
Lemma spoiled_mark files s : spoiled files s -> spoiled files (mark_set s).
Proof. intros (A & B & C & D). repeat split; assumption. Qed.
Lemma spoiled_warnings files a b s : spoiled files s -> spoiled files (set_warnings a b s).
Proof. intros (A & B & C & D). repeat split; assumption. Qed.
Lemma spoiled_console files n s : spoiled files s -> spoiled files (add_console n s).
Proof.
  intros ((l & H & Hl) & B & C & D). split; [|repeat split; assumption]. exists (l ++ [HConsole n])%list. split; [cbn [add_console l_handlers]; now rewrite H|].
  intros h I. apply in_app_iff in I as [I|[<-|[]]]; eauto.
Qed.
Lemma spoiled_basic files p s : spoiled files s -> spoiled files (basic_config p s).
Proof. intro Sp. pose proof Sp as ((l & H & _) & _). unfold basic_config. now rewrite H. Qed.
Lemma spoiled_start files file pr a s : spoiled files s -> spoiled files (fst (start_logging dec version file pr a s)).
Proof.
  intro Sp. unfold start_logging. apply (spoiled_warnings files (sa_capture a) (String.eqb (pr_mode pr) "cautious")) in Sp. revert Sp.
  generalize (set_warnings (sa_capture a) (String.eqb (pr_mode pr) "cautious") s). intros s0 Sp0.
  destruct (l_set s0); [unfold fst; now apply spoiled_get, spoiled_root|]. destruct (negb _); [exact Sp0|].
  destruct (level_of _) as [lvl|]; unfold fst; [|now apply spoiled_basic].
  apply spoiled_get, spoiled_mark. unfold log_to. apply spoiled_send, spoiled_get, spoiled_root, spoiled_root, spoiled_root, spoiled_console, spoiled_basic, Sp0.
Qed.
Lemma spoiled_step files o s : spoiled files s -> spoiled files (fst (lstep dec version o s)).
Proof.
  intro Sp. destruct o as [file pr a|r|n t|t|n]; cbn [lstep].
  - pose proof (spoiled_start files file pr a s Sp) as X. revert X. destruct (start_logging dec version file pr a s). exact (fun x => x).
  - now apply spoiled_send, spoiled_get.
  - now apply spoiled_root.
  - unfold warn_user. destruct (l_strict s); [exact Sp|]. destruct (l_capture s); unfold fst; [now apply spoiled_send, spoiled_get|].
    destruct Sp as (A & B & C & D). split; [exact A|]. split; [exact B|]. split; [exact C|]. cbn. apply Forall_app. split; [exact D|]. repeat constructor.
  - now apply spoiled_get.
Qed.
Lemma spoiled_run files l : forall s, spoiled files s -> spoiled files (lrun dec version l s).
Proof. induction l as [|o l IH]; intros s Sp; [exact Sp|]. cbn. now apply IH, spoiled_step. Qed.
Lemma spoiled_first files n t s : unstarted files s -> spoiled files (log_root n t s).
Proof.
  intros (H & St & F & L & T). unfold log_root. rewrite H. apply spoiled_send. split; [exists []; split; [reflexivity|intros h []]|]. repeat split; assumption.
Qed.
End Run.

From Coq Require Import Lia.
From Verif Require Import Model.Base Model.PyStr Model.NDArray Model.Param Model.Config Model.Spectra.
From Verif Require Import Model.FitParam Model.FitConfig Model.Minimise Model.ConfigFile Model.Store Model.Crash.
From Verif Require Import Spec.StoreSpec Spec.CrashSpec Proofs.StoreLemmas Proofs.FileLemmas.
Local Open Scope string_scope.

Lemma dset_end {A} k (v : A) d : ~ In k (dkeys d) -> dset k v d = (d ++ [(k, v)])%list.
Proof.
  induction d as [|[k' v'] d IH]; [reflexivity|]. cbn. intro N. destruct (String.eqb_spec k k') as [->|]; [tauto|]. rewrite IH; tauto.
Qed.
Lemma wattrs_fold : forall d a m, NoDup (dkeys (a ++ d)%list) -> fold_left wapply (wattrs d) (a, m) = ((a ++ d)%list, m).
Proof.
  induction d as [|[k v] d IH]; intros a m N; [now rewrite app_nil_r|]. cbn [wattrs map fold_left wapply fst snd].
  rewrite dset_end.
  - fold (wattrs d). rewrite IH; rewrite <- app_assoc; [reflexivity|exact N].
  - unfold dkeys in N. rewrite map_app in N. apply NoDup_remove_2 in N. intro I. apply N, in_or_app. now left.
Qed.
(** Attributes and members that nothing writes. *)
Definition no_attr (k : string) (w : write) : Prop := match w with WAttr None k' _ => k' <> k | _ => True end.
Definition no_member (k : string) (w : write) : Prop :=
  match w with WData None k' _ | WGroup k' => k' <> k | WAttr (Some k') _ _ | WData (Some k') _ _ => k' <> k | _ => True end.
Lemma dget_dset_other {A} k k' (v : A) d : k <> k' -> dget k (dset k' v d) = dget k d.
Proof.
  intro N. induction d as [|[k2 v2] d IH]; cbn.
  - apply String.eqb_neq in N. now rewrite N.
  - destruct (String.eqb_spec k' k2) as [->|]; cbn; [|now rewrite IH]. apply String.eqb_neq in N. now rewrite N.
Qed.
Lemma dget_app_other {A} k k' (v : A) d : k <> k' -> dget k (d ++ [(k', v)])%list = dget k d.
Proof.
  intro N. induction d as [|[k2 v2] d IH]; cbn; [apply String.eqb_neq in N; now rewrite N|]. now rewrite IH.
Qed.
Lemma dget_on_sub k g F m : k <> g -> dget k (on_sub g F m) = dget k m.
Proof.
  intro N. unfold on_sub. induction m as [|[k2 v2] m IH]; [reflexivity|]. cbn [map fst snd].
  destruct (String.eqb_spec k2 g) as [->|]; cbn [dget]; rewrite IH; [|reflexivity]. apply String.eqb_neq in N. now rewrite N.
Qed.
Lemma no_attr_fold k : forall ws c, Forall (no_attr k) ws -> dget k (fst (fold_left wapply ws c)) = dget k (fst c).
Proof.
  induction ws as [|w ws IH]; intros [a m] F; [reflexivity|]. inversion_clear F as [|? ? W F']. cbn [fold_left]. rewrite IH by exact F'.
  destruct w as [[g|] k' v|[g|] k' d|k']; cbn in *; try reflexivity. apply dget_dset_other. congruence.
Qed.
Lemma no_member_fold k : forall ws c, Forall (no_member k) ws -> dget k (snd (fold_left wapply ws c)) = dget k (snd c).
Proof.
  induction ws as [|w ws IH]; intros [a m] F; [reflexivity|]. inversion_clear F as [|? ? W F']. cbn [fold_left]. rewrite IH by exact F'.
  destruct w as [[g|] k' v|[g|] k' d|k']; cbn in *; try reflexivity; try (apply dget_on_sub; congruence); apply dget_app_other; congruence.
Qed.
Lemma Forall_firstn {A} (P : A -> Prop) n l : Forall P l -> Forall P (firstn n l).
Proof. intro F. revert n. induction F; intros [|n]; cbn; auto. Qed.
Lemma firstn_last {A} k (l : list A) x : k < length (l ++ [x])%list -> firstn k (l ++ [x])%list = firstn k l.
Proof.
  rewrite app_length. cbn. intro L. rewrite firstn_app. replace (k - length l) with 0 by lia. cbn. apply app_nil_r.
Qed.
Lemma grown_eq ws : grown ws = HGroup (fst (fold_left wapply ws ([], []))) (snd (fold_left wapply ws ([], []))).
Proof. reflexivity. Qed.

(** The states a call goes through. *)
Definition base (f : hfile) (append overwrite : bool) (t : string) : root :=
  let r := opened append f in
  if overwrite && str_in t (dkeys (r_members r)) then Root (r_attrs r) (remove t (r_members r)) else r.
Definition app_of (c : call) : bool := match c with Dump _ a _ | DumpFit _ a | DumpLimit _ _ a => a | DumpObject _ => false end.
Definition over_of (c : call) : bool := match c with Dump _ _ o => o | _ => false end.
Lemma stopped_eq n f c ws : (forall o, c <> DumpObject o) -> stopped n f c ws = interrupted n f (app_of c) (over_of c) (target c) ws.
Proof. destruct c; try reflexivity. intro H. now destruct (H o). Qed.
Lemma written_call c ws : written c ws -> forall o, c <> DumpObject o.
Proof. intros W o ->. exact W. Qed.
Lemma interrupted_cases n f a o t ws (P : nat -> hfile -> Prop) :
  P 0 f -> P 1 (Some (opened a f)) -> P 2 (Some (base f a o t)) ->
  (forall k, str_in t (dkeys (r_members (base f a o t))) = true -> P (3 + k) (Some (base f a o t))) ->
  (forall k, str_in t (dkeys (r_members (base f a o t))) = false -> P (3 + k) (Some (put t (grown (firstn k ws)) (base f a o t)))) ->
  P n (interrupted n f a o t ws).
Proof.
  intros P0 P1 P2 P3 P4. destruct n as [|[|[|k]]]; try assumption. cbn [interrupted]. fold (base f a o t).
  destruct (str_in t (dkeys (r_members (base f a o t)))) eqn:E; [now apply P3|now apply P4].
Qed.
Lemma str_in_iff k l : str_in k l = true <-> In k l.
Proof.
  unfold str_in. rewrite existsb_exists. split; [intros (x & I & E); apply String.eqb_eq in E; now subst|intro I; exists k; split; [exact I|apply String.eqb_refl]].
Qed.
Lemma str_in_not k l : str_in k l = false -> ~ In k l.
Proof. intros E I. apply str_in_iff in I. congruence. Qed.

(** ** Other groups *)
Lemma base_attrs_app f o t : r_attrs (base f true o t) = root_attrs f.
Proof. unfold base. destruct f as [r|]; cbn; destruct (o && _); reflexivity. Qed.
Lemma base_other_app f o t k : k <> t -> dget k (r_members (base f true o t)) = member k f.
Proof.
  intro N. unfold base. destruct f as [r|]; cbn [opened r_members member].
  - destruct (o && _); [cbn [r_members]; now apply dget_remove|reflexivity].
  - cbn. now rewrite andb_false_r.
Qed.
Lemma others_stopped n f c ws : appends c -> written c ws ->
  root_attrs (stopped n f c ws) = root_attrs f /\ forall k, k <> target c -> member k (stopped n f c ws) = member k f.
Proof.
  intros A W. rewrite stopped_eq by (eapply written_call; exact W).
  assert (Ha : app_of c = true) by (destruct c; cbn in *; congruence || tauto). rewrite Ha.
  apply (interrupted_cases n f true (over_of c) (target c) ws
           (fun _ f' => root_attrs f' = root_attrs f /\ forall k, k <> target c -> member k f' = member k f)).
  - now split.
  - destruct f; now split.
  - split; [apply base_attrs_app|intros; now apply base_other_app].
  - intros _ _. split; [apply base_attrs_app|intros; now apply base_other_app].
  - intros j _. split; [cbn [root_attrs put r_attrs]; apply base_attrs_app|]. intros k N. unfold member. rewrite dget_put_other by exact N.
    now apply base_other_app.
Qed.
Lemma lost_stopped n f c ws k : ~ appends c -> written c ws -> k <> target c -> member k (stopped (S n) f c ws) = None /\ root_attrs (stopped (S n) f c ws) = [].
Proof.
  intros A W N. rewrite stopped_eq by (eapply written_call; exact W).
  assert (Ha : app_of c = false) by (destruct c; cbn in *; try destruct append; congruence || tauto). rewrite Ha.
  assert (B : base f false (over_of c) (target c) = Root [] []) by (unfold base; cbn; now rewrite andb_false_r).
  assert (G : 0 < S n -> member k (interrupted (S n) f false (over_of c) (target c) ws) = None /\
                         root_attrs (interrupted (S n) f false (over_of c) (target c) ws) = []).
  { apply (interrupted_cases (S n) f false (over_of c) (target c) ws (fun m f' => 0 < m -> member k f' = None /\ root_attrs f' = [])); rewrite ?B.
    - lia.
    - now split.
    - now split.
    - now split.
    - intros j _ _. split; [|reflexivity]. unfold member. now rewrite dget_put_other. }
  apply G. lia.
Qed.

(** ** Completed *)
Lemma spectrum_keys s bg : NoDup (dkeys (spectrum_attrs s bg)).
Proof.
  unfold spectrum_attrs. destruct (st_fit s); cbn; repeat constructor; cbn; intuition discriminate.
Qed.
Lemma grown_spectrum s bg : grown (spectrum_writes s bg) = HGroup (spectrum_attrs s bg) [("data", HData (s_data (st_spec s)))].
Proof.
  rewrite grown_eq. unfold spectrum_writes. rewrite fold_left_app, wattrs_fold by (apply spectrum_keys). reflexivity.
Qed.
Lemma grown_fit name fr dg ds : grown (fit_writes name fr dg ds) =
  HGroup ([("name", AStr name); ("spectra_config", AJson (JObj (sc_dump (fr_spec fr))));
           ("spectra_config_name", AStr (fr_spec_name fr)); ("fit_config", AJson2 dg ds); ("fit_config_name", AStr (gc_name (fr_fit fr)));
           ("resets", AInt (Z.of_nat (gs_resets (fr_search fr))))])
         [("penalty_terms", HData (gs_pen (fr_search fr))); ("stats", HData (gs_stats (fr_search fr)))].
Proof. reflexivity. Qed.

(** A subgroup at the end. *)
Lemma on_sub_last g F a' m' m : ~ In g (dkeys m) -> on_sub g F (m ++ [(g, HGroup a' m')])%list = (m ++ [(g, F a' m')])%list.
Proof.
  intro N. unfold on_sub. rewrite map_app. cbn. rewrite String.eqb_refl. f_equal.
  rewrite <- (map_id m) at 2. apply map_ext_in. intros [k v] I. cbn. destruct (String.eqb_spec k g) as [->|]; [|reflexivity].
  exfalso. apply N. change g with (fst (g, v)). unfold dkeys. now apply in_map.
Qed.
(** What the subgroup of a fit result holds. *)
Definition sub_group (o : option gsearch) : hobj :=
  match o with
  | Some gs => HGroup [("exists", ANum 1); ("resets", AInt (Z.of_nat (gs_resets gs)))]
                      [("penalty_terms", HData (gs_pen gs)); ("stats", HData (gs_stats gs))]
  | None => HGroup [("exists", ANum 0)] []
  end.
Definition sub_block (dec : nat -> string) (i : nat) (o : option gsearch) : list write :=
  WGroup (dec i) ::
  match o with
  | Some gs => [WAttr (Some (dec i)) "exists" (ANum 1); WData (Some (dec i)) "penalty_terms" (gs_pen gs); WData (Some (dec i)) "stats" (gs_stats gs);
                WAttr (Some (dec i)) "resets" (AInt (Z.of_nat (gs_resets gs)))]
  | None => [WAttr (Some (dec i)) "exists" (ANum 0)]
  end.
Lemma sub_writes_cons dec i o l : sub_writes dec i (o :: l) = (sub_block dec i o ++ sub_writes dec (S i) l)%list.
Proof. reflexivity. Qed.
Lemma block_fold dec i o a m : ~ In (dec i) (dkeys m) -> fold_left wapply (sub_block dec i o) (a, m) = (a, (m ++ [(dec i, sub_group o)])%list).
Proof.
  intro N. destruct o as [gs|]; cbn [sub_block fold_left wapply]; rewrite !on_sub_last by exact N; reflexivity.
Qed.
Fixpoint subs (dec : nat -> string) (i : nat) (l : list (option gsearch)) : dict hobj :=
  match l with [] => [] | o :: l' => (dec i, sub_group o) :: subs dec (S i) l' end.
Lemma keys_app {A} (d e : dict A) : dkeys (d ++ e)%list = (dkeys d ++ dkeys e)%list.
Proof. apply map_app. Qed.
Lemma subs_fold dec : good_dec dec -> forall l i a m, (forall j, i <= j -> ~ In (dec j) (dkeys m)) ->
  fold_left wapply (sub_writes dec i l) (a, m) = (a, (m ++ subs dec i l)%list).
Proof.
  intros [D _]. induction l as [|o l IH]; intros i a m N; [cbn; now rewrite app_nil_r|].
  rewrite sub_writes_cons, fold_left_app, block_fold by (apply N; lia). rewrite IH.
  - now rewrite <- app_assoc.
  - intros j L. rewrite keys_app. intro I. apply in_app_or in I as [I|[I|[]]]; [apply (N j); [lia|exact I]|]. cbn in I. apply D in I. lia.
Qed.
Lemma subs_groups dec : forall l i r, fit_groups dec i l = Ok r -> r = subs dec i l.
Proof.
  induction l as [|o l IH]; intros i r H; cbn in H; [now injection H as <-|].
  destruct o as [gs|].
  - destruct (filterable (gs_pen gs)); cbn in H; [|discriminate]. destruct (filterable (gs_stats gs)); cbn in H; [|discriminate].
    destruct (fit_groups dec (S i) l) as [r'|x] eqn:E; cbn in H; [|discriminate]. injection H as <-. cbn. f_equal. now apply IH.
  - cbn in H. destruct (fit_groups dec (S i) l) as [r'|x] eqn:E; cbn in H; [|discriminate]. injection H as <-. cbn. f_equal. now apply IH.
Qed.
Definition head_attrs (lr : lresults) (dg ds : jdict) : dict hattr :=
  [("name", AStr (lr_name lr)); ("spectra_config", AJson (JObj (sc_dump (lr_spec lr))));
   ("spectra_config_name", AStr (lr_spec_name lr));
   ("fit_config", AJson2 dg ds); ("fit_config_name", AStr (gc_name (lr_fit lr)));
   ("limit_config", AJson (JObj (sf_dump false (lr_limit lr))));
   ("limit_config_name", AStr (sf_name (lr_limit lr)));
   ("limit_config_spectra_name", AStr (sf_spectra (lr_limit lr)))].
Definition head_members (lr : lresults) : dict hobj :=
  ((if aany (lr_pen lr) then [("penalty_terms", HData (lr_pen lr))] else []) ++
  (if aany (lr_best lr) then [("best_fits", HData (lr_best lr))] else []) ++ [("stats", HData (lr_stats lr))])%list.
Lemma head_fold lr dg ds : fold_left wapply (limit_head lr dg ds) ([], []) = (head_attrs lr dg ds, head_members lr).
Proof.
  unfold limit_head, head_members. destruct (aany (lr_pen lr)), (aany (lr_best lr)); reflexivity.
Qed.
Lemma head_fresh dec lr j : good_dec dec -> ~ In (dec j) (dkeys (head_members lr)).
Proof.
  intros [_ D] I. destruct (D j) as (A & B & C). unfold head_members in I.
  destruct (aany (lr_pen lr)), (aany (lr_best lr)); cbn in I; intuition congruence.
Qed.
Lemma grown_limit dec lr dg ds h : good_dec dec -> gc_dump false (lr_fit lr) = Ok (dg, ds) -> limit_group dec lr = Ok h -> grown (limit_writes dec lr dg ds) = h.
Proof.
  intros D G H. unfold limit_group in H. rewrite G in H. cbn [rbind fst snd] in H.
  rewrite grown_eq. unfold limit_writes. rewrite fold_left_app, head_fold.
  assert (M : forall m e, create_datasets [] ((if aany (lr_pen lr) then [("penalty_terms", lr_pen lr)] else []) ++
           (if aany (lr_best lr) then [("best_fits", lr_best lr)] else []) ++ [("stats", lr_stats lr)])%list = (m, e) -> e = None -> m = head_members lr).
  { intros m e C ->. unfold head_members. destruct (aany (lr_pen lr)), (aany (lr_best lr)); cbn in C;
      repeat (destruct (filterable _); cbn in C; [|discriminate]); now injection C as <-. }
  destruct (create_datasets _ _) as [m [e|]] eqn:C; [discriminate|]. specialize (M _ _ eq_refl eq_refl). subst m.
  destruct (existsb _ (lr_fits lr)).
  - destruct (fit_groups dec 0 (lr_fits lr)) as [sb|x] eqn:F; [|discriminate]. cbn [rbind] in H. injection H as <-.
    cbn [fold_left wapply]. rewrite subs_fold; [|exact D|intros; now apply head_fresh]. apply subs_groups in F. subst sb. reflexivity.
  - now injection H as <-.
Qed.
Lemma complete_l n f dec c ws : storable_call dec c -> written c ws -> snd (perform f c) = None -> steps ws <= n -> stopped n f c ws = fst (perform f c).
Proof.
  intros S W O L. unfold steps in L. destruct n as [|[|[|k]]]; try lia. assert (K : length ws <= k) by lia.
  destruct c as [s a o|fr a|dec' lr a|ob]; cbn [stopped interrupted target] in *.
  - cbn [perform] in *. rewrite dump_unfold in *. fold (cleared a o f). cbn zeta in *.
    destruct W as (bg & B & ->). rewrite B in *. destruct (str_in _ _); [discriminate|].
    destruct (filterable _); [|discriminate]. rewrite firstn_all2, grown_spectrum by exact K. reflexivity.
  - cbn [perform andb] in *. destruct W as (name & dg & ds & N & G & ->). unfold dump_fit_results in *. rewrite N, G in *. cbn zeta in *.
    destruct (str_in _ _); [discriminate|]. rewrite firstn_all2, grown_fit by exact K. cbn [create_datasets] in *.
    destruct (filterable (gs_pen (fr_search fr))); [|discriminate]. destruct (filterable (gs_stats (fr_search fr))); [|discriminate]. reflexivity.
  - cbn [perform andb] in *. destruct W as (dg & ds & G & ->). destruct S as (-> & D & _). unfold dump_limit_results in *.
    destruct (str_in _ _); [discriminate|]. destruct (limit_group dec lr) as [h|x] eqn:H; [|discriminate].
    rewrite firstn_all2 by exact K. rewrite (grown_limit _ _ _ _ _ D G H). reflexivity.
  - contradiction.
Qed.

(** ** Reading after an interruption *)
Lemma group_put t a m r : ~ In t (dkeys (r_members r)) -> get_group t (r_members (put t (HGroup a m) r)) = Ok (a, m).
Proof. intro N. unfold get_group, dlookup. now rewrite (dget_put_new _ _ _ N). Qed.
Lemma dget_absent {A} k (d : dict A) : ~ In k (dkeys d) -> dget k d = None.
Proof.
  induction d as [|[k' v] d IH]; [reflexivity|]. cbn. intro N. destruct (String.eqb_spec k k') as [->|]; [tauto|]. apply IH. tauto.
Qed.
Lemma group_absent t r : ~ In t (dkeys (r_members r)) -> get_group t (r_members r) = Err EKeyError.
Proof. intro N. unfold get_group, dlookup. now rewrite (dget_absent _ _ N). Qed.
Ltac bind_step H :=
  match type of H with
  | rbind ?x _ = Ok _ => let e := fresh "E" in destruct x eqn:e; cbn [rbind] in H; [|discriminate H]
  end.
Lemma load_new_data e r g : get_group "spectrum" (r_members r) = Ok g -> dget "data" (snd g) = None -> exists x, load_new e r = Err x.
Proof.
  intros G D. destruct (load_new e r) as [s|x] eqn:H; [exfalso|now exists x]. unfold load_new in H. rewrite G in H. cbn [rbind] in H.
  cbn zeta in H. repeat bind_step H. unfold get_data, dlookup in *. rewrite D in *. discriminate.
Qed.
Lemma load_new_absent e r : ~ In "spectrum" (dkeys (r_members r)) -> exists x, load_new e r = Err x.
Proof. intro N. unfold load_new. rewrite (group_absent _ _ N). now exists EKeyError. Qed.
Lemma load_old_none pf r : dget "name" (r_attrs r) = None -> exists x, load_old pf r = Err x.
Proof.
  intro N. unfold load_old. destruct (old_pars [] (r_attrs r)) as [c|x]; cbn [rbind]; [|now exists x].
  unfold attr_str, attr, dlookup. rewrite N. now exists EKeyError.
Qed.
Lemma load_err pf e r x : load_new e r = Err x -> dget "name" (r_attrs r) = None -> exists y, load pf e (Some r) = Err y.
Proof.
  intros H N. destruct (load_old_none pf r N) as [y Y]. cbn. rewrite H. unfold on_key_error. rewrite Y. destruct x; eexists; reflexivity.
Qed.
Lemma opened_cases a f : Some (opened a f) = f \/ opened a f = Root [] [].
Proof. destruct a, f; cbn; auto. Qed.
Lemma base_cases f a o t : base f a o t = opened a f \/ (r_attrs (base f a o t) = r_attrs (opened a f) /\ ~ In t (dkeys (r_members (base f a o t)))).
Proof.
  unfold base. cbn zeta. destruct (o && _); [right|now left]. cbn. split; [reflexivity|apply remove_gone].
Qed.
Lemma base_attrs f a o t : no_old_spectrum f -> dget "name" (r_attrs (base f a o t)) = None.
Proof.
  intro N. assert (O : dget "name" (r_attrs (opened a f)) = None) by (destruct a, f; cbn in *; try reflexivity; exact N).
  destruct (base_cases f a o t) as [-> | [-> _]]; exact O.
Qed.
Lemma empty_load pf e : exists x, load pf e (Some (Root [] [])) = Err x.
Proof. now exists EKeyError. Qed.

Lemma base_load {A} (read : hfile -> res A) f a o t :
  (exists x, read (Some (Root [] [])) = Err x) -> (~ In t (dkeys (r_members (base f a o t))) -> exists x, read (Some (base f a o t)) = Err x) ->
  as_before read f (Some (opened a f)) /\ as_before read f (Some (base f a o t)).
Proof.
  intros E N. assert (O : as_before read f (Some (opened a f))).
  { destruct (opened_cases a f) as [-> | ->]; [now left|now right]. }
  split; [exact O|]. destruct (base_cases f a o t) as [-> | [_ M]]; [exact O|]. right. now apply N.
Qed.
Lemma stopped_load {A} (read : hfile -> res A) n f c ws : written c ws -> n < steps ws ->
  (exists x, read (Some (Root [] [])) = Err x) ->
  (~ In (target c) (dkeys (r_members (base f (app_of c) (over_of c) (target c)))) -> exists x, read (Some (base f (app_of c) (over_of c) (target c))) = Err x) ->
  (forall k, k < length ws -> ~ In (target c) (dkeys (r_members (base f (app_of c) (over_of c) (target c)))) ->
     exists x, read (Some (put (target c) (grown (firstn k ws)) (base f (app_of c) (over_of c) (target c)))) = Err x) ->
  as_before read f (stopped n f c ws).
Proof.
  intros W L E N K. destruct (base_load read f (app_of c) (over_of c) (target c) E N) as [B1 B2].
  rewrite stopped_eq by (eapply written_call; exact W). revert L.
  apply (interrupted_cases n f (app_of c) (over_of c) (target c) ws (fun n f' => n < steps ws -> as_before read f f')).
  - now left.
  - intros _. exact B1.
  - intros _. exact B2.
  - intros _ _ _. exact B2.
  - intros k I L. right. apply K; [unfold steps in L; lia|now apply str_in_not].
Qed.

Lemma spectrum_no_data d : Forall (no_member "data") (wattrs d).
Proof. apply Forall_forall. intros w I. apply in_map_iff in I as ([k v] & <- & _). exact Logic.I. Qed.
Lemma stopped_spectrum pf e n f s a o ws : written (Dump s a o) ws -> no_old_spectrum f -> n < steps ws ->
  as_before (load pf e) f (stopped n f (Dump s a o) ws).
Proof.
  intros W N L. apply stopped_load; [exact W|exact L|apply empty_load| |].
  - intro I. destruct (load_new_absent e _ I) as [x X]. eapply load_err; [exact X|]. now apply base_attrs.
  - intros k K I. destruct W as (bg & B & ->). unfold spectrum_writes in *. rewrite firstn_last by exact K.
    rewrite grown_eq. set (ws := firstn k _).
    assert (F : Forall (no_member "data") ws) by (apply Forall_firstn, spectrum_no_data).
    destruct (load_new_data e (put "spectrum" (HGroup (fst (fold_left wapply ws ([], []))) (snd (fold_left wapply ws ([], []))))
                (base f (app_of (Dump s a o)) (over_of (Dump s a o)) (target (Dump s a o)))) _ (group_put _ _ _ _ I)) as [x X].
    + cbn [snd]. now rewrite (no_member_fold _ _ _ F).
    + eapply load_err; [exact X|]. cbn [put r_attrs]. now apply base_attrs.
Qed.
Lemma load_fit_resets e r g : get_group "fit_results" (r_members r) = Ok g -> dget "resets" (fst g) = None -> exists x, load_fit_results e (Some r) = Err x.
Proof.
  intros G D. destruct (load_fit_results e (Some r)) as [s|x] eqn:H; [exfalso|now exists x]. unfold load_fit_results in H. rewrite G in H. cbn [rbind] in H.
  cbn zeta in H. repeat bind_step H. unfold attr_int, attr, dlookup in *. rewrite D in *. discriminate.
Qed.
Lemma load_fit_absent e r : ~ In "fit_results" (dkeys (r_members r)) -> exists x, load_fit_results e (Some r) = Err x.
Proof. intro N. unfold load_fit_results. rewrite (group_absent _ _ N). now exists EKeyError. Qed.
Lemma stopped_fit e n f fr a ws : written (DumpFit fr a) ws -> n < steps ws ->
  as_before (load_fit_results e) f (stopped n f (DumpFit fr a) ws).
Proof.
  intros W L. apply stopped_load; [exact W|exact L|now exists EKeyError|apply load_fit_absent|].
  intros k K I. destruct W as (name & dg & ds & _ & _ & ->).
  assert (F : Forall (no_attr "resets") (firstn k (fit_writes name fr dg ds))).
  { unfold fit_writes in *. change [WData None "penalty_terms" (gs_pen (fr_search fr)); WData None "stats" (gs_stats (fr_search fr)); WAttr None "resets" (AInt (Z.of_nat (gs_resets (fr_search fr))))]
      with ([WData None "penalty_terms" (gs_pen (fr_search fr)); WData None "stats" (gs_stats (fr_search fr))] ++ [WAttr None "resets" (AInt (Z.of_nat (gs_resets (fr_search fr))))])%list in *.
    rewrite app_assoc in *. rewrite firstn_last by exact K. apply Forall_firstn. repeat constructor; cbn; discriminate. }
  rewrite grown_eq. eapply load_fit_resets; [now apply group_put|]. cbn [fst]. now rewrite (no_attr_fold _ _ _ F).
Qed.

(** A subgroup that can be read. *)
Definition sub_full (k : string) (m : dict hobj) : Prop :=
  exists a m' x, get_group k m = Ok (a, m') /\ attr_num "exists" a = Ok x /\
    (x = 1%Qc -> dget "resets" a <> None).
Lemma load_fits_full dec m best c n fname : forall is g r, load_fits dec m best c n fname is g = Ok r -> Forall (fun i => sub_full (dec i) m) is.
Proof.
  induction is as [|i is IH]; intros g r H; [constructor|]. cbn [load_fits] in H. destruct (get_group (dec i) m) as [[a m']|] eqn:E; cbn [rbind fst snd] in H; [|discriminate H].
  destruct (attr_num "exists" a) as [q|] eqn:E0; cbn [rbind] in H; [|discriminate H]. destruct (qeq q 1) eqn:Q.
  - bind_step H. bind_step H. bind_step H. constructor.
    + exists a, m', q. repeat split; try assumption. intros _ D. unfold attr_int, attr, dlookup in E2. rewrite D in E2. discriminate.
    + destruct (_ && _)%bool; [discriminate|]. cbn zeta in H. destruct (n <=? i)%nat; [discriminate|]. bind_step H. eapply IH. exact E4.
  - constructor; [|eapply IH; exact H]. exists a, m', q. repeat split; try assumption. intros ->. vm_compute in Q. discriminate.
Qed.
Lemma cut_subs dec : good_dec dec -> forall l i k a m, k < length (sub_writes dec i l) -> (forall j, i <= j -> ~ In (dec j) (dkeys m)) ->
  exists j, i <= j < i + length l /\ ~ sub_full (dec j) (snd (fold_left wapply (firstn k (sub_writes dec i l)) (a, m))) .
Proof.
  intros D. induction l as [|o l IH]; intros i k a m K N; [cbn in K; lia|].
  rewrite sub_writes_cons in *. rewrite app_length in K. assert (Ni : ~ In (dec i) (dkeys m)) by (apply N; lia).
  destruct (Nat.lt_ge_cases k (length (sub_block dec i o))) as [B|B].
  - exists i. split; [cbn; lia|]. rewrite firstn_app. replace (k - length (sub_block dec i o)) with 0 by lia. cbn [firstn]. rewrite app_nil_r.
    assert (P : forall a' m', get_group (dec i) (m ++ [(dec i, HGroup a' m')])%list = Ok (a', m')).
    { intros. exact (group_put (dec i) a' m' (Root [] m) Ni). }
    intros (a' & m' & x & G & X & R). destruct o as [gs|]; cbn in B; unfold sub_block in G.
    + destruct k as [|[|[|[|[|k]]]]]; try lia; cbn [firstn fold_left wapply snd] in G; rewrite ?on_sub_last in G by exact Ni;
        try (rewrite P in G; injection G as <- <-; cbn in X; discriminate);
        try (rewrite P in G; injection G as <- <-; cbn in X; injection X as <-; now destruct (R eq_refl)).
      unfold get_group, dlookup in G. rewrite (dget_absent _ _ Ni) in G. discriminate.
    + destruct k as [|[|k]]; try lia; cbn [firstn fold_left wapply snd] in G.
      * unfold get_group, dlookup in G. rewrite (dget_absent _ _ Ni) in G. discriminate.
      * rewrite P in G. injection G as <- <-. cbn in X. discriminate.
  - rewrite firstn_app, (firstn_all2 (sub_block dec i o)) by exact B. rewrite fold_left_app, block_fold by exact Ni.
    destruct (IH (S i) (k - length (sub_block dec i o)) a (m ++ [(dec i, sub_group o)])%list) as (j & J & F).
    + lia.
    + intros j J. rewrite keys_app. intro I. apply in_app_or in I as [I|[I|[]]]; [apply (N j); [lia|exact I]|]. cbn in I. apply D in I. lia.
    + exists j. split; [cbn; lia|exact F].
Qed.
Lemma subs_attrs dec : forall l i k a m, fst (fold_left wapply (firstn k (sub_writes dec i l)) (a, m)) = a.
Proof.
  assert (G : forall ws a m, Forall (fun w => match w with WAttr None _ _ => False | _ => True end) ws -> fst (fold_left wapply ws (a, m)) = a).
  { induction ws as [|w ws IH]; intros a m F; [reflexivity|]. inversion_clear F as [|? ? W F']. cbn [fold_left].
    destruct w as [[g|] k' v|[g|] k' d|k']; cbn [wapply]; try contradiction; now apply IH. }
  intros l i k a m. apply G, Forall_firstn. revert i. induction l as [|o l IH]; intro i; [constructor|].
  rewrite sub_writes_cons. apply Forall_app. split; [|apply IH]. destruct o; repeat constructor.
Qed.
Lemma head_no_fits lr dg ds : Forall (no_attr "fits_exist") (limit_head lr dg ds).
Proof. unfold limit_head. destruct (aany (lr_pen lr)), (aany (lr_best lr)); repeat constructor; cbn; discriminate. Qed.
Lemma load_limit_fits dec e r g : get_group "limit_results" (r_members r) = Ok g -> dget "fits_exist" (fst g) = None ->
  exists x, load_limit_results dec e (Some r) = Err x.
Proof.
  intros G D. destruct (load_limit_results dec e (Some r)) as [s|x] eqn:H; [exfalso|now exists x]. unfold load_limit_results in H. rewrite G in H. cbn [rbind] in H.
  cbn zeta in H. repeat bind_step H. unfold attr_num, attr, dlookup in *. rewrite D in *. discriminate.
Qed.
Lemma load_limit_subs dec e r a m stats k sub : get_group "limit_results" (r_members r) = Ok (a, m) -> dget "fits_exist" a = Some (ANum 1) ->
  dget "stats" m = Some (HData stats) -> ashape stats = k :: sub -> (exists j, j < k /\ ~ sub_full (dec j) m) ->
  exists x, load_limit_results dec e (Some r) = Err x.
Proof.
  intros G D T K (j & J & F). destruct (load_limit_results dec e (Some r)) as [s|x] eqn:H; [exfalso|now exists x]. unfold load_limit_results in H. rewrite G in H. cbn [rbind fst snd] in H.
  cbn zeta in H. do 13 bind_step H. bind_step H.
  match goal with E : get_data "stats" m = Ok ?x |- _ => assert (x = stats) by (unfold get_data, dlookup in E; rewrite T in E; cbn in E; congruence); subst x end.
  match goal with E : attr_num "fits_exist" a = Ok ?x |- _ => assert (x = 1%Qc) by (unfold attr_num, attr, dlookup in E; rewrite D in E; cbn in E; congruence); subst x end.
  rewrite K in H. replace (qeq 1 1) with true in H by reflexivity. bind_step H.
  match goal with E : load_fits _ _ _ _ _ _ _ _ = Ok _ |- _ => apply load_fits_full in E; rewrite Forall_forall in E; apply F, E end.
  apply in_seq. lia.
Qed.
Lemma load_limit_absent dec e r : ~ In "limit_results" (dkeys (r_members r)) -> exists x, load_limit_results dec e (Some r) = Err x.
Proof. intro N. unfold load_limit_results. rewrite (group_absent _ _ N). now exists EKeyError. Qed.
Lemma head_stats lr : dget "stats" (head_members lr) = Some (HData (lr_stats lr)).
Proof. unfold head_members. destruct (aany (lr_pen lr)), (aany (lr_best lr)); reflexivity. Qed.
Lemma subs_no_stats dec l i : good_dec dec -> Forall (no_member "stats") (sub_writes dec i l).
Proof.
  intros [_ D]. revert i. induction l as [|o l IH]; intro i; [constructor|]. rewrite sub_writes_cons. apply Forall_app. split; [|apply IH].
  destruct (D i) as (_ & _ & N). destruct o; repeat constructor; cbn; exact N.
Qed.
Lemma stopped_limit dec e n f lr a ws : written (DumpLimit dec lr a) ws -> storable_call dec (DumpLimit dec lr a) -> n < steps ws ->
  as_before (load_limit_results dec e) f (stopped n f (DumpLimit dec lr a) ws).
Proof.
  intros W (_ & D & sub & Sh) L. apply stopped_load; [exact W|exact L|now exists EKeyError|apply load_limit_absent|].
  intros k K I. destruct W as (dg & ds & _ & ->). unfold limit_writes in *. rewrite app_length in K. rewrite grown_eq.
  destruct (Nat.le_gt_cases k (length (limit_head lr dg ds))) as [B|B].
  - rewrite firstn_app. replace (k - length (limit_head lr dg ds)) with 0 by lia. cbn [firstn]. rewrite app_nil_r.
    eapply load_limit_fits; [now apply group_put|]. cbn [fst]. now rewrite (no_attr_fold _ _ _ (Forall_firstn _ _ _ (head_no_fits lr dg ds))).
  - rewrite firstn_app, (firstn_all2 (limit_head lr dg ds)) by lia. rewrite fold_left_app, head_fold.
    destruct (existsb _ (lr_fits lr)); [|cbn [length] in K; lia]. cbn [length] in K.
    destruct (k - length (limit_head lr dg ds)) as [|j] eqn:J; [lia|]. cbn [firstn fold_left wapply].
    eapply load_limit_subs; [now apply group_put| | |exact Sh|].
    + rewrite subs_attrs. reflexivity.
    + rewrite no_member_fold by (apply Forall_firstn, subs_no_stats, D). apply head_stats.
    + destruct (cut_subs dec D (lr_fits lr) 0 j (dset "fits_exist" (ANum 1) (head_attrs lr dg ds)) (head_members lr)) as (i & Hi & F);
        [lia|intros; now apply head_fresh|]. exists i. split; [lia|exact F].
Qed.

(** ** Again *)
Lemma remove_put {A} t (o : A) d : remove t (d ++ [(t, o)])%list = remove t d.
Proof. unfold remove. rewrite filter_app. cbn. rewrite String.eqb_refl. cbn. apply app_nil_r. Qed.
Lemma remove_twice {A} t (d : dict A) : remove t (remove t d) = remove t d.
Proof.
  unfold remove. induction d as [|[k v] d IH]; [reflexivity|]. cbn [filter fst]. destruct (negb (String.eqb k t)) eqn:E; [|exact IH]. cbn [filter fst]. now rewrite E, IH.
Qed.
Lemma remove_id {A} t (d : dict A) : ~ In t (dkeys d) -> remove t d = d.
Proof.
  unfold remove. induction d as [|[k v] d IH]; [reflexivity|]. cbn. intro N. destruct (String.eqb_spec k t) as [->|]; [tauto|]. cbn. rewrite IH; tauto.
Qed.
Lemma base_over f t : base f true true t = Root (root_attrs f) (remove t (match f with Some r => r_members r | None => [] end)).
Proof.
  unfold base. destruct f as [r|]; cbn [opened root_attrs]; [|reflexivity]. cbn [andb].
  destruct (str_in t (dkeys (r_members r))) eqn:E; [reflexivity|]. rewrite remove_id by (now apply str_in_not). now destruct r.
Qed.
Lemma base_stopped n f o t ws : base (interrupted n f true o t ws) true true t = base f true true t.
Proof.
  apply (interrupted_cases n f true o t ws (fun _ f' => base f' true true t = base f true true t)).
  - reflexivity.
  - rewrite !base_over. now destruct f.
  - rewrite !base_over. cbn. rewrite base_attrs_app. f_equal. destruct (base_cases f true o t) as [-> | [_ N]]; [now destruct f|].
    unfold base. destruct f as [r|]; cbn [opened]; [|now rewrite andb_false_r]. destruct (o && _); [cbn; apply remove_twice|reflexivity].
  - intros _ _. rewrite !base_over. cbn. rewrite base_attrs_app. f_equal.
    unfold base. destruct f as [r|]; cbn [opened]; [|now rewrite andb_false_r]. destruct (o && _); [cbn; apply remove_twice|reflexivity].
  - intros k _. rewrite !base_over. cbn [root_attrs put r_attrs r_members]. rewrite base_attrs_app, remove_put. f_equal.
    unfold base. destruct f as [r|]; cbn [opened]; [|now rewrite andb_false_r]. destruct (o && _); [cbn; apply remove_twice|reflexivity].
Qed.
Lemma retry_l n f s o ws : written (Dump s true o) ws -> perform (stopped n f (Dump s true o) ws) (Dump s true true) = perform f (Dump s true true).
Proof.
  intros _. cbn [stopped target perform]. rewrite !dump_unfold. cbn zeta.
  change (cleared true true (interrupted n f true o "spectrum" ws)) with (base (interrupted n f true o "spectrum" ws) true true "spectrum").
  rewrite base_stopped. reflexivity.
Qed.
Lemma retry_anew_l f' f c : ~ appends c -> perform f' c = perform f c.
Proof.
  destruct c as [s [|] o|fr [|]|dec lr [|]|ob]; cbn [appends]; intro N; try (exfalso; now apply N); try reflexivity.
Qed.
Lemma stuck_l n f c ws : appends c -> ~ overwrites c -> written c ws -> perform (stopped (3 + n) f c ws) c = (stopped (3 + n) f c ws, Some EValueError).
Proof.
  intros A O W. apply refuse_l; [exact A|exact O|]. rewrite stopped_eq by (eapply written_call; exact W).
  cbn [Nat.add interrupted]. fold (base f (app_of c) (over_of c) (target c)).
  destruct (str_in _ _) eqn:E; [now apply str_in_iff|]. cbn [names put r_members]. rewrite keys_app. apply in_or_app. right. now left.
Qed.

(** ** Objects *)
Lemma write_object_frame : forall o r k, ~ In k (dkeys o) -> dget k (r_members (fst (write_object r o))) = dget k (r_members r) /\ dget k (r_attrs (fst (write_object r o))) = dget k (r_attrs r).
Proof.
  induction o as [|[k' v] o IH]; intros r k N; [now split|]. cbn in N. cbn [write_object]. destruct v as [|a|v size].
  - apply IH. tauto.
  - destruct (filterable a); [|now split]. destruct (IH (put k' (HData a) r) k) as [X Y]; [tauto|]. rewrite X, Y.
    split; [apply dget_put_other; intuition|reflexivity].
  - destruct (size <? 65536)%Z; [|now split]. destruct (IH (Root (dset k' v (r_attrs r)) (r_members r)) k) as [X Y]; [tauto|]. rewrite X, Y.
    split; [reflexivity|]. cbn. apply dget_dset_other. intuition.
Qed.
Lemma object_cut_l n f o t k v : In (k, v) t -> ~ In k (dkeys (firstn n o)) ->
  exists t', load_ndarray (interrupted_object (S n) f o) t = Ok t' /\ In (k, v) t' /\ dkeys t' = dkeys t.
Proof.
  intros I N. eexists. split; [reflexivity|]. set (r := fst (write_object (Root [] []) (firstn n o))).
  destruct (write_object_frame (firstn n o) (Root [] []) k N) as [X Y]. fold r in X, Y. cbn in X, Y. split.
  - apply in_map_iff. exists (k, v). split; [|exact I]. unfold read_attr. cbn [fst snd]. rewrite X, Y. now destruct v.
  - unfold dkeys. rewrite map_map. reflexivity.
Qed.

(** ** Histories *)
Lemma load_cong pf e r r' : r_attrs r' = r_attrs r -> dget "spectrum" (r_members r') = dget "spectrum" (r_members r) ->
  dget "data" (r_members r') = dget "data" (r_members r) -> load pf e (Some r') = load pf e (Some r).
Proof.
  intros A S D. cbn [load]. unfold load_new, load_old, get_group, get_data, dlookup. rewrite A, S, D. reflexivity.
Qed.
Lemma load_fit_cong e r r' : dget "fit_results" (r_members r') = dget "fit_results" (r_members r) -> load_fit_results e (Some r') = load_fit_results e (Some r).
Proof. intros S. unfold load_fit_results, get_group, dlookup. rewrite S. reflexivity. Qed.
Lemma load_limit_cong dec e r r' : dget "limit_results" (r_members r') = dget "limit_results" (r_members r) ->
  load_limit_results dec e (Some r') = load_limit_results dec e (Some r).
Proof. intros S. unfold load_limit_results, get_group, dlookup. rewrite S. reflexivity. Qed.
Lemma stopped_some n f c ws : written c ws -> exists r, stopped (S n) f c ws = Some r.
Proof.
  intro W. rewrite stopped_eq by (eapply written_call; exact W). destruct n as [|[|k]]; cbn [interrupted]; [eauto|eauto|]. destruct (str_in _ _); eauto.
Qed.
Lemma appends_dec c : appends c \/ ~ appends c.
Proof. destruct c as [s [|] o|fr [|]|dec lr [|]|o]; cbn; auto. Qed.
(** A reader of another group. *)
Lemma other_reader {A} (read : hfile -> res A) (k1 k2 : string) n f c ws :
  (forall r r', r_attrs r' = r_attrs r -> dget k1 (r_members r') = dget k1 (r_members r) -> dget k2 (r_members r') = dget k2 (r_members r) -> read (Some r') = read (Some r)) ->
  (exists x, read (Some (Root [] [])) = Err x) -> written c ws -> target c <> k1 -> target c <> k2 -> as_before read f (stopped n f c ws).
Proof.
  intros C [x E] W N1 N2. destruct n as [|n].
  { rewrite stopped_eq by (eapply written_call; exact W). now left. }
  destruct (stopped_some n f c ws W) as [r' R]. destruct (appends_dec c) as [Ap|Ap].
  - destruct (others_stopped (S n) f c ws Ap W) as [T M]. rewrite R in *. destruct f as [r|].
    + left. apply C; [exact T|apply (M k1); congruence|apply (M k2); congruence].
    + right. exists x. rewrite <- E. apply C; [exact T|apply (M k1); congruence|apply (M k2); congruence].
  - right. exists x. rewrite R, <- E.
    destruct (lost_stopped n f c ws k1 Ap W) as [M1 T]; [congruence|]. destruct (lost_stopped n f c ws k2 Ap W) as [M2 _]; [congruence|].
    rewrite R in *. apply C; assumption.
Qed.
Lemma as_before_trans {A} (read : hfile -> res A) f f' f'' : as_before read f f' -> as_before read f' f'' -> as_before read f f''.
Proof. intros H [E|E]; [|now right]. unfold as_before. rewrite E. exact H. Qed.
Lemma no_old_stopped n f c ws : written c ws -> no_old_spectrum f -> no_old_spectrum (stopped n f c ws).
Proof.
  intros W N. destruct (appends_dec c) as [A|A].
  - unfold no_old_spectrum. destruct (others_stopped n f c ws A W) as [-> _]. exact N.
  - destruct n as [|n]; [rewrite stopped_eq by (eapply written_call; exact W); exact N|].
    unfold no_old_spectrum. destruct (lost_stopped n f c ws "" A W) as [_ ->]; [|reflexivity]. destruct c; discriminate || contradiction.
Qed.
Lemma history_no_old dec f f' : interruptions dec f f' -> no_old_spectrum f -> no_old_spectrum f'.
Proof. induction 1; intro N; [exact N|]. apply no_old_stopped; [assumption|]. auto. Qed.
Lemma history_load dec pf e f f' : interruptions dec f f' -> no_old_spectrum f -> as_before (load pf e) f f'.
Proof.
  induction 1 as [|f f' c ws n I IH W S L]; intro N; [now left|]. eapply as_before_trans; [now apply IH|].
  destruct c as [s a o|fr a|dec' lr a|ob].
  - apply stopped_spectrum; [exact W|eapply history_no_old; eassumption|exact L].
  - apply (other_reader (load pf e) "spectrum" "data"); [intros; now apply load_cong|apply empty_load|exact W|discriminate|discriminate].
  - apply (other_reader (load pf e) "spectrum" "data"); [intros; now apply load_cong|apply empty_load|exact W|discriminate|discriminate].
  - contradiction.
Qed.
Lemma history_fit dec e f f' : interruptions dec f f' -> as_before (load_fit_results e) f f'.
Proof.
  induction 1 as [|f f' c ws n I IH W S L]; [now left|]. eapply as_before_trans; [now apply IH|].
  destruct c as [s a o|fr a|dec' lr a|ob].
  - apply (other_reader (load_fit_results e) "fit_results" "fit_results"); [intros; now apply load_fit_cong|now exists EKeyError|exact W|discriminate|discriminate].
  - now apply stopped_fit.
  - apply (other_reader (load_fit_results e) "fit_results" "fit_results"); [intros; now apply load_fit_cong|now exists EKeyError|exact W|discriminate|discriminate].
  - contradiction.
Qed.
Lemma history_limit dec e f f' : interruptions dec f f' -> as_before (load_limit_results dec e) f f'.
Proof.
  induction 1 as [|f f' c ws n I IH W S L]; [now left|]. eapply as_before_trans; [now apply IH|].
  destruct c as [s a o|fr a|dec' lr a|ob].
  - apply (other_reader (load_limit_results dec e) "limit_results" "limit_results"); [intros; now apply load_limit_cong|now exists EKeyError|exact W|discriminate|discriminate].
  - apply (other_reader (load_limit_results dec e) "limit_results" "limit_results"); [intros; now apply load_limit_cong|now exists EKeyError|exact W|discriminate|discriminate].
  - assert (D : dec' = dec) by apply S. subst dec'. now apply stopped_limit.
  - contradiction.
Qed.

(** ** Saves that raise *)
Lemma raised_spectrum f s a o ws : written (Dump s a o) ws -> snd (perform f (Dump s a o)) <> None ->
  exists n, n < steps ws /\ fst (perform f (Dump s a o)) = stopped n f (Dump s a o) ws.
Proof.
  intros (bg & B & ->) R. cbn [perform stopped target] in *. rewrite dump_unfold in *. cbn zeta in *. rewrite B in *.
  destruct (str_in "spectrum" (dkeys (r_members (cleared a o f)))) eqn:E.
  - exists 3. split; [unfold steps, spectrum_writes; rewrite app_length; cbn; lia|]. cbn [interrupted]. fold (cleared a o f). now rewrite E.
  - destruct (filterable _); [now destruct R|]. unfold spectrum_writes. set (s' := with_spec s _).
    exists (3 + length (wattrs (spectrum_attrs s' bg))). split; [unfold steps; rewrite app_length; cbn; lia|].
    cbn [Nat.add interrupted]. fold (cleared a o f). rewrite E, firstn_app, Nat.sub_diag, firstn_all. cbn [firstn]. rewrite app_nil_r, grown_eq.
    rewrite wattrs_fold by apply spectrum_keys. reflexivity.
Qed.
Lemma raised_fit f fr a ws : written (DumpFit fr a) ws -> snd (perform f (DumpFit fr a)) <> None ->
  exists n, n < steps ws /\ fst (perform f (DumpFit fr a)) = stopped n f (DumpFit fr a) ws.
Proof.
  intros (name & dg & ds & N & G & ->) R. cbn [perform stopped target] in *. unfold dump_fit_results in *. rewrite N, G in *. cbn zeta in *.
  destruct (str_in "fit_results" (dkeys (r_members (opened a f)))) eqn:E.
  - exists 3. split; [cbn; lia|]. cbn [interrupted andb]. now rewrite E.
  - cbn [create_datasets] in *. destruct (filterable (gs_pen (fr_search fr))).
    + destruct (filterable (gs_stats (fr_search fr))); [now destruct R|]. exists 9. split; [cbn; lia|]. cbn [interrupted andb]. now rewrite E.
    + exists 8. split; [cbn; lia|]. cbn [interrupted andb]. now rewrite E.
Qed.

(** Histories of dumps, fit results, limit results, arrays. *)
From Coq Require Import Lia.
From Verif Require Import Model.Base Model.PyStr Model.NDArray Model.Param Model.Config Model.Spectra.
From Verif Require Import Model.FitParam Model.FitConfig Model.Minimise Model.Store.
From Verif Require Import Spec.ArraySpec Spec.ConfigSpec Spec.StoreSpec.
From Verif Require Import Proofs.NDArrayLemmas Proofs.DictLemmas Proofs.ConfigLemmas Proofs.StoreLemmas Proofs.MinimiseLemmas.
Local Open Scope string_scope.
Local Open Scope list_scope.

(** ** One call *)
(** What a call leaves: the file as it was opened, possibly without the old group, and
    possibly with a new group. *)
Definition base_of (f : hfile) (c : call) : root :=
  match c with
  | Dump _ a o => cleared a o f
  | DumpFit _ a | DumpLimit _ _ a => opened a f
  | DumpObject _ => Root [] []
  end.
Lemma perform_shape f c : (forall o, c <> DumpObject o) ->
  (str_in (target c) (dkeys (r_members (base_of f c))) = true /\ perform f c = (Some (base_of f c), Some EValueError)) \/
  (str_in (target c) (dkeys (r_members (base_of f c))) = false /\ exists h, fst (perform f c) = Some (put (target c) h (base_of f c))).
Proof.
  destruct c as [s a o|fr a|dec lr a|o]; intro N; cbn [perform target base_of].
  - rewrite dump_unfold. cbn zeta. destruct (str_in _ _); [left; auto|right; split; [reflexivity|]].
    destruct (snd (get_background_name (st_spec s))); [destruct (filterable _)|]; eexists; reflexivity.
  - unfold dump_fit_results. destruct (str_in _ _); [left; auto|right; split; [reflexivity|]].
    destruct (gs_name _); [|eexists; reflexivity]. destruct (gc_dump _ _) as [[dg ds]|]; [|eexists; reflexivity].
    destruct (create_datasets _ _) as [m []]; eexists; reflexivity.
  - unfold dump_limit_results. destruct (str_in _ _); [left; auto|right; split; [reflexivity|]].
    destruct (limit_group _ _); eexists; reflexivity.
  - exfalso. now apply (N o).
Qed.
Lemma appends_not_object c : appends c -> forall o, c <> DumpObject o.
Proof. destruct c; intros A o'; try discriminate. destruct A. Qed.
Lemma opened_append f : root_attrs (Some (opened true f)) = root_attrs f /\ forall k, member k (Some (opened true f)) = member k f.
Proof. destruct f; split; reflexivity. Qed.
Lemma base_append f c : appends c -> root_attrs (Some (base_of f c)) = root_attrs f /\
  (forall k, k <> target c -> member k (Some (base_of f c)) = member k f) /\
  (~ overwrites c -> forall k, member k (Some (base_of f c)) = member k f).
Proof.
  intro A. destruct (opened_append f) as [O1 O2]. destruct c as [s a o|fr a|dec lr a|o]; cbn in A; try subst a; cbn [base_of target overwrites].
  - unfold cleared. destruct (o && _) eqn:E.
    + cbn [root_attrs member r_members r_attrs]. split; [exact O1|]. split.
      * intros k N. rewrite dget_remove by exact N. apply O2.
      * intros NO. apply andb_prop in E as [-> _]. exfalso. now apply NO.
    + auto.
  - auto.
  - auto.
  - destruct A.
Qed.
Lemma member_put k h r : dget k (r_members (put k h r)) = match dget k (r_members r) with Some x => Some x | None => Some h end.
Proof.
  unfold put. cbn. induction (r_members r) as [|[k' v] m IH]; cbn; [now rewrite String.eqb_refl|].
  destruct (String.eqb k k'); [reflexivity|exact IH].
Qed.
Lemma frame_l f c : appends c -> root_attrs (fst (perform f c)) = root_attrs f /\
  forall k, k <> target c -> member k (fst (perform f c)) = member k f.
Proof.
  intro A. destruct (base_append f c A) as (B1 & B2 & _). destruct (perform_shape f c (appends_not_object c A)) as [[_ P]|[_ [h P]]]; rewrite P.
  - auto.
  - split; [exact B1|]. intros k N. cbn [member]. rewrite dget_put_other by exact N. now apply B2.
Qed.
Lemma member_in k f : (exists h, member k f = Some h) <-> In k (names f).
Proof.
  destruct f as [r|]; cbn; [|split; [intros [h H]; discriminate|tauto]]. split.
  - intros [h H]. now apply dget_key in H.
  - intro H. apply key_dget in H. exact H.
Qed.
Lemma refuse_l f c : appends c -> ~ overwrites c -> In (target c) (names f) -> perform f c = (f, Some EValueError).
Proof.
  intros A O I. assert (E : Some (base_of f c) = f).
  { destruct f as [r|]; [|destruct I]. destruct c as [s a o|fr a|dec lr a|o]; cbn in *; try subst a; try reflexivity; [|destruct A].
    unfold cleared. destruct o; [exfalso; now apply O|reflexivity]. }
  destruct (perform_shape f c (appends_not_object c A)) as [[_ P]|[S _]].
  - now rewrite E in P.
  - apply str_in_false in S. exfalso. apply S. rewrite <- E in I. exact I.
Qed.
Lemma only_l f c : ~ appends c -> (forall o, c <> DumpObject o) ->
  names (fst (perform f c)) = [target c] /\ root_attrs (fst (perform f c)) = [].
Proof.
  intros A N. assert (E : base_of f c = Root [] []).
  { destruct c as [s a o|fr a|dec lr a|o]; cbn in *; [destruct a|destruct a|destruct a|]; try (exfalso; now apply A); try reflexivity.
    unfold cleared. cbn. now destruct o. }
  destruct (perform_shape f c N) as [[S _]|[_ [h P]]]; rewrite E in *; [discriminate|]. rewrite P. split; reflexivity.
Qed.
Lemma stays_l : forall l f k h, member k f = Some h -> Forall (fun c => appends c /\ (target c = k -> ~ overwrites c)) l ->
  member k (after f l) = Some h.
Proof.
  induction l as [|c l IH]; intros f k h H F; [exact H|]. inversion F as [|? ? [A O] F']; subst. cbn [after fold_left].
  apply IH; [|exact F']. destruct (String.eqb_spec k (target c)) as [E|N].
  - rewrite (refuse_l f c A (O (eq_sym E))); [exact H|]. rewrite <- E. apply member_in. eauto.
  - now rewrite (proj2 (frame_l f c A) k N).
Qed.
Lemma others_l : forall l f k, Forall appends l -> ~ In k (map target l) ->
  member k (after f l) = member k f /\ root_attrs (after f l) = root_attrs f.
Proof.
  induction l as [|c l IH]; intros f k F N; [auto|]. inversion F as [|? ? A F']; subst. cbn [after fold_left].
  destruct (IH (fst (perform f c)) k F') as [H1 H2]; [intro X; apply N; now right|].
  fold (after (fst (perform f c)) l) in *. rewrite H1, H2. destruct (frame_l f c A) as [G1 G2]. split; [apply G2; intro X; apply N; now left|exact G1].
Qed.
Lemma attrs_l : forall l f, Forall appends l -> root_attrs (after f l) = root_attrs f.
Proof.
  induction l as [|c l IH]; intros f F; [auto|]. inversion F as [|? ? A F']; subst. cbn [after fold_left].
  fold (after (fst (perform f c)) l). rewrite (IH _ F'). now apply frame_l.
Qed.
Lemma data_not_target c : target c <> "data" .
Proof. destruct c; discriminate. Qed.
Lemma is_some f l h k : member k f = Some h -> Forall appends l -> exists r r', f = Some r /\ after f l = Some r'.
Proof.
  intros H F. destruct f as [r|]; [|discriminate]. exists r. revert r H. induction l as [|c l IH] using rev_ind; intros r H; [eexists; split; reflexivity|].
  apply Forall_app in F as [F1 F2]. inversion F2 as [|? ? A _]; subst. unfold after. rewrite fold_left_app. cbn [fold_left].
  destruct (perform_shape (fold_left (fun f c => fst (perform f c)) l (Some r)) c (appends_not_object c A)) as [[_ P]|[_ [g P]]]; rewrite P; eexists; split; reflexivity.
Qed.
Lemma load_stays_l pf e f l : In "spectrum" (names f) ->
  Forall (fun c => appends c /\ (target c = "spectrum" -> ~ overwrites c)) l -> load pf e (after f l) = load pf e f.
Proof.
  intros I F. assert (A : Forall appends l) by (eapply Forall_impl; [|exact F]; intros c [X _]; exact X).
  apply member_in in I as [h H]. assert (S := stays_l l f _ _ H F). destruct (is_some f l h _ H A) as (r & r' & -> & E).
  assert (D : member "data" (after (Some r) l) = member "data" (Some r)).
  { apply others_l; [exact A|]. intro X. apply in_map_iff in X as (c & X & _). now apply (data_not_target c). }
  assert (T := attrs_l l (Some r) A). rewrite E in *. cbn [member root_attrs] in *.
  unfold load, load_new, load_old, get_group, dlookup, get_data, dlookup. rewrite S, H, D, T. reflexivity.
Qed.
Lemma load_fit_stays_l e f l : In "fit_results" (names f) -> Forall appends l -> load_fit_results e (after f l) = load_fit_results e f.
Proof.
  intros I A. assert (F : Forall (fun c => appends c /\ (target c = "fit_results" -> ~ overwrites c)) l).
  { eapply Forall_impl; [|exact A]. intros c X. split; [exact X|]. destruct c; cbn; try tauto; discriminate. }
  apply member_in in I as [h H]. assert (S := stays_l l f _ _ H F). destruct (is_some f l h _ H A) as (r & r' & -> & E).
  rewrite E in *. cbn [member] in *. unfold load_fit_results, get_group, dlookup. rewrite S, H. reflexivity.
Qed.
Lemma load_limit_stays_l dec e f l : In "limit_results" (names f) -> Forall appends l -> load_limit_results dec e (after f l) = load_limit_results dec e f.
Proof.
  intros I A. assert (F : Forall (fun c => appends c /\ (target c = "limit_results" -> ~ overwrites c)) l).
  { eapply Forall_impl; [|exact A]. intros c X. split; [exact X|]. destruct c; cbn; try tauto; discriminate. }
  apply member_in in I as [h H]. assert (S := stays_l l f _ _ H F). destruct (is_some f l h _ H A) as (r & r' & -> & E).
  rewrite E in *. cbn [member] in *. unfold load_limit_results, get_group, dlookup. rewrite S, H. reflexivity.
Qed.

(** ** Arrays *)
Lemma write_object_ok : forall o r r', write_object r o = (r', None) -> NoDup (dkeys o) ->
  (forall k, In k (dkeys o) -> dget k (r_attrs r) = None /\ dget k (r_members r) = None) ->
  (forall k a, In (k, OArray a) o -> dget k (r_members r') = Some (HData a)) /\
  (forall k v n, In (k, OValue v n) o -> dget k (r_attrs r') = Some v) /\
  (forall k, In (k, ONone) o -> dget k (r_attrs r') = None) /\
  (forall k a, In (k, OArray a) o -> dget k (r_attrs r') = None) /\
  (forall k, ~ In k (dkeys o) -> dget k (r_attrs r') = dget k (r_attrs r) /\ dget k (r_members r') = dget k (r_members r)).
Proof.
  induction o as [|[k v] o IH]; intros r r' H N Fr; cbn [write_object] in H.
  - injection H as <-. repeat split; intros; try contradiction; reflexivity.
  - cbn [dkeys map fst] in N. inversion N as [|? ? N1 N2]; subst. fold (dkeys o) in *.
    destruct (Fr k (or_introl eq_refl)) as [Fa Fm].
    assert (NI : forall k' w, In (k', w) o -> k' <> k).
    { intros k' w I ->. apply N1. apply (in_map fst) in I. exact I. }
    destruct v as [|a|w n].
    + destruct (IH r r' H N2) as (I1 & I2 & I3 & I4 & I5); [intros k' I; apply Fr; now right|].
      repeat split.
      * intros k' a [E|I]; [discriminate|eauto].
      * intros k' w n [E|I]; [discriminate|eauto].
      * intros k' [E|I]; [injection E as ->|eauto]. rewrite (proj1 (I5 k' N1)). exact Fa.
      * intros k' a [E|I]; [discriminate|eauto].
      * apply I5. intro X. apply H0. now right.
      * apply I5. intro X. apply H0. now right.
    + destruct (filterable a); [|discriminate].
      assert (Fr' : forall k', In k' (dkeys o) -> dget k' (r_attrs (put k (HData a) r)) = None /\ dget k' (r_members (put k (HData a) r)) = None).
      { intros k' I. assert (k' <> k) by (intros ->; contradiction). rewrite dget_put_other by assumption. apply (Fr k'). now right. }
      destruct (IH _ r' H N2 Fr') as (I1 & I2 & I3 & I4 & I5).
      destruct (I5 k N1) as [J1 J2]. rewrite member_put, Fm in J2. cbn [put r_attrs] in J1.
      repeat split.
      * intros k' b [E|I]; [injection E as -> ->; exact J2|eauto].
      * intros k' w n [E|I]; [discriminate|eauto].
      * intros k' [E|I]; [discriminate|eauto].
      * intros k' b [E|I]; [injection E as -> ->; congruence|eauto].
      * rewrite (proj1 (I5 k0 (fun X => H0 (or_intror X)))). reflexivity.
      * rewrite (proj2 (I5 k0 (fun X => H0 (or_intror X)))). apply dget_put_other. intros ->. apply H0. now left.
    + destruct (n <? 65536)%Z; [|discriminate].
      set (r1 := Root (dset k w (r_attrs r)) (r_members r)) in *.
      assert (Fr' : forall k', In k' (dkeys o) -> dget k' (r_attrs r1) = None /\ dget k' (r_members r1) = None).
      { intros k' I. assert (k' <> k) by (intros ->; contradiction). unfold r1. cbn. rewrite dget_dset_other by assumption. apply (Fr k'). now right. }
      destruct (IH _ r' H N2 Fr') as (I1 & I2 & I3 & I4 & I5).
      destruct (I5 k N1) as [J1 J2]. unfold r1 in J1. cbn in J1. rewrite dget_dset_same in J1.
      repeat split.
      * intros k' b [E|I]; [discriminate|eauto].
      * intros k' u m [E|I]; [injection E as -> -> ->; exact J1|eauto].
      * intros k' [E|I]; [discriminate|eauto].
      * intros k' b [E|I]; [discriminate|eauto].
      * rewrite (proj1 (I5 k0 (fun X => H0 (or_intror X)))). unfold r1. cbn. apply dget_dset_other. intros ->. apply H0. now left.
      * rewrite (proj2 (I5 k0 (fun X => H0 (or_intror X)))). reflexivity.
Qed.
Lemma ndarray_l o f o' : dump_ndarray o = (f, None) -> NoDup (dkeys o) -> Forall2 (fun kv kv' => fst kv' = fst kv /\ same_kind (snd kv) (snd kv')) o o' ->
  exists o2, load_ndarray f o' = Ok o2 /\ Forall2 (fun kv kv' => fst kv' = fst kv /\ same_value (snd kv) (snd kv')) o o2.
Proof.
  unfold dump_ndarray. destruct (write_object (Root [] []) o) as [r e] eqn:W. intros H N K. injection H as <- ->. cbn [load_ndarray].
  eexists. split; [reflexivity|]. destruct (write_object_ok o _ _ W N) as (I1 & I2 & I3 & I4 & _); [intros; split; reflexivity|].
  assert (G : forall kv kv', In kv o -> fst kv' = fst kv -> same_kind (snd kv) (snd kv') ->
     fst (read_attr r kv') = fst kv /\ same_value (snd kv) (snd (read_attr r kv'))).
  { intros [k v] [k' v'] I E S. cbn [fst snd] in *. subst k'. split; [reflexivity|]. unfold read_attr. cbn [fst snd].
    destruct v as [|a|w n], v' as [|b|w' n']; try contradiction; cbn [same_value].
    - now rewrite (I3 k I).
    - now rewrite (I1 k a I).
    - now rewrite (I2 k w n I).
    - now rewrite (I2 k w n I). }
  clear - K G. induction K as [|kv kv' o o' [E S] K IH]; [constructor|]. cbn [map]. constructor.
  - apply G; auto. now left.
  - apply IH. intros. apply G; auto. now right.
Qed.

(** ** When a dump succeeds, and what failing ones leave *)
Lemma dump_ok_l f s append overwrite bg : (append = false \/ overwrite = true \/ ~ In "spectrum" (names f)) ->
  snd (get_background_name (st_spec s)) = Ok bg -> ashape (s_data (st_spec s)) <> [] ->
  exists f' s', dump f s append overwrite = (f', s', None).
Proof.
  intros C B D. rewrite dump_unfold. cbn zeta. rewrite B. assert (NF := name_frame (st_spec s)). cbn zeta in NF.
  cbn [with_spec st_spec]. destruct NF as (_ & _ & E & _). rewrite E.
  assert (F : filterable (s_data (st_spec s)) = true) by (unfold filterable, andim; destruct (ashape (s_data (st_spec s))); [congruence|reflexivity]).
  rewrite F. assert (S : str_in "spectrum" (dkeys (r_members (cleared append overwrite f))) = false).
  { apply str_in_false. unfold cleared. destruct (overwrite && _) eqn:E2; [apply remove_gone|].
    destruct append; [|destruct overwrite; cbn; tauto]. destruct f as [r|]; [|cbn; tauto]. cbn [opened] in *. cbn [names] in C.
    destruct C as [C|[-> |C]]; [discriminate| |exact C]. cbn [andb] in E2. now apply str_in_false in E2. }
  rewrite S. eauto.
Qed.
Lemma dump_frame_l f s append overwrite : let s' := snd (fst (dump f s append overwrite)) in
  st_cfg_name s' = st_cfg_name s /\ st_fit s' = st_fit s /\ st_style s' = st_style s /\
  s_name (st_spec s') = s_name (st_spec s) /\ s_cfg (st_spec s') = s_cfg (st_spec s) /\ s_data (st_spec s') = s_data (st_spec s) /\
  s_decays (st_spec s') = s_decays (st_spec s) /\ s_raw (st_spec s') = s_raw (st_spec s) /\ s_bipo (st_spec s') = s_bipo (st_spec s) /\
  s_rois (st_spec s') = s_rois (st_spec s).
Proof.
  cbn zeta. rewrite dump_unfold. cbn zeta. assert (NF := name_frame (st_spec s)). cbn zeta in NF.
  destruct (str_in _ _); [repeat split|]. destruct (snd (get_background_name (st_spec s))); [destruct (filterable _)|]; cbn; repeat split; apply NF.
Qed.
(** A dump that fails for want of a background name. *)
Lemma dump_no_name_l f s append overwrite e : snd (get_background_name (st_spec s)) = Err e ->
  (append = false \/ overwrite = true \/ ~ In "spectrum" (names f)) ->
  let f' := fst (fst (dump f s append overwrite)) in
  snd (dump f s append overwrite) = Some e /\ forall pf np, load pf np f' = load_old pf (match f' with Some r => r | None => Root [] [] end).
Proof.
  intros B C. cbn zeta. rewrite dump_unfold. cbn zeta. rewrite B.
  assert (S : str_in "spectrum" (dkeys (r_members (cleared append overwrite f))) = false).
  { apply str_in_false. unfold cleared. destruct (overwrite && _) eqn:E2; [apply remove_gone|].
    destruct append; [|destruct overwrite; cbn; tauto]. destruct f as [r|]; [|cbn; tauto]. cbn [opened] in *. cbn [names] in C.
    destruct C as [C|[-> |C]]; [discriminate| |exact C]. cbn [andb] in E2. now apply str_in_false in E2. }
  rewrite S. split; [reflexivity|]. intros pf np. cbn [fst load]. unfold load_new, get_group, dlookup.
  apply str_in_false in S. rewrite (dget_put_new _ _ _ S). reflexivity.
Qed.

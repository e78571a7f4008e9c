(** Configurations: Model/FitConfig.v (C49, C50). *)
From Coq Require Import Lia Permutation.
From Verif Require Import Model.Base Model.PyStr Model.Param Model.Config Model.FitParam Model.FitConfig.
From Verif Require Import Spec.ConfigSpec.
From Verif Require Import Proofs.QcLemmas Proofs.DictLemmas Proofs.StrLemmas Proofs.NameLemmas.
Local Open Scope string_scope.
Local Open Scope list_scope.

(** ** Dictionaries *)
Lemma dset_fresh {A} k (v : A) d : ~ In k (dkeys d) -> dset k v d = d ++ [(k, v)].
Proof.
  induction d as [|[k' v'] d IH]; cbn; intro H; [reflexivity|].
  destruct (String.eqb_spec k k') as [->|N]; [exfalso; auto|]. rewrite IH by auto. reflexivity.
Qed.
Lemma dkeys_app {A} (a b : dict A) : dkeys (a ++ b) = dkeys a ++ dkeys b.
Proof. apply map_app. Qed.
Lemma dset_nodup {A} k (v : A) d : NoDup (dkeys d) -> NoDup (dkeys (dset k v d)).
Proof.
  intro H. rewrite dkeys_dset. destruct (str_in k (dkeys d)) eqn:E; [exact H|]. apply str_in_false in E.
  apply (Permutation_NoDup (l := k :: dkeys d)); [apply Permutation_cons_append|]. now constructor.
Qed.
Lemma dget_mapk {A} (f : string -> A) k ds : dget k (map (fun d => (d, f d)) ds) = if str_in k ds then Some (f k) else None.
Proof.
  induction ds as [|d ds IH]; [reflexivity|]. cbn. destruct (String.eqb_spec k d) as [->|N]; [reflexivity|exact IH].
Qed.
Lemma dset_mapk {A} (f : string -> A) k v ds : NoDup ds -> In k ds ->
  dset k v (map (fun d => (d, f d)) ds) = map (fun d => (d, if String.eqb d k then v else f d)) ds.
Proof.
  induction ds as [|d ds IH]; intros N H; [destruct H|]. inversion N as [|? ? N1 N2]; subst. cbn.
  destruct (String.eqb_spec k d) as [->|E].
  - rewrite String.eqb_refl. f_equal. apply map_ext_in. intros d' H'.
    destruct (String.eqb_spec d' d) as [->|]; [contradiction|reflexivity].
  - destruct (String.eqb_spec d k) as [->|]; [congruence|]. f_equal. apply IH; [exact N2|]. destruct H; [congruence|assumption].
Qed.

(** ** Parameters *)
Lemma load_spar_ok p : load_spar (sp_to_dict p) = Ok p.
Proof. destruct p. reflexivity. Qed.

Lemma jopt_onum o : jopt (ojnum o) = Ok o. Proof. now destruct o. Qed.
Lemma jflag_oflag o : jflag (ojflag o) = Ok o. Proof. now destruct o. Qed.
Lemma load_fpar_ok e b name dim p : constructed p -> fp_dim p = dim ->
  load_fpar e name dim (fp_to_dict b p) = Ok (if b then reread_basic name p else reread name p).
Proof.
  intros C <-. destruct p as [n pr sg lo hi bi di va cu be pe ls ba ld]. unfold constructed in C. cbn in C. unfold load_fpar.
  assert (K : kw_known match fp_dim (FPar n pr sg lo hi bi di va cu be pe ls ba ld) with
        | Some _ => fp_keywords | None => "dimension" :: fp_keywords end (fp_to_dict b (FPar n pr sg lo hi bi di va cu be pe ls ba ld)) = Ok tt).
  { cbn [fp_dim]. destruct di, b; reflexivity. }
  rewrite K. clear K. cbn [rbind fp_dim].
  assert (D : match di with Some d => Ok (Some d) | None => jstr (kw_default "dimension" JNull (fp_to_dict b (FPar n pr sg lo hi bi di va cu be pe ls ba ld))) end = Ok di).
  { destruct di; [reflexivity|]. now destruct b. }
  destruct b; unfold kw_required, kw_default, fp_to_dict in *; cbn in *; rewrite ?jopt_onum, ?jflag_oflag; cbn; rewrite D; cbn;
    rewrite ?jopt_onum, ?jflag_oflag; cbn; unfold new_fpar, reread, reread_basic; cbn;
    (destruct C as [(-> & B & ->)|(-> & -> & [->| ->])]; cbn; [destruct ba; [|congruence]| |]; reflexivity).
Qed.
Lemma constructed_new name pr sg lo hi bi di va cu pe be ls ba ld p :
  new_fpar name pr sg lo hi bi di va cu pe be ls ba ld = Ok p -> constructed p.
Proof.
  unfold new_fpar, constructed. destruct (truthy ls) eqn:T.
  - destruct ba; [|discriminate]. intro H. injection H as <-. cbn. left. destruct ls as [[]|]; try discriminate. repeat split; congruence.
  - intro H. injection H as <-. cbn. right. repeat split. destruct ld as [[]|]; cbn; auto.
Qed.

(** ** Loading a flat dictionary of parameters *)
Lemma load_all_ok {A B} (f : string -> jval -> res A) (t : string * B -> jdict) (r : string * B -> A) : forall (l : list (string * B)) acc,
  (forall kp, In kp l -> f (fst kp) (JObj (t kp)) = Ok (r kp)) -> NoDup (dkeys acc ++ map fst l) ->
  load_all f acc (map (fun kp => (fst kp, JObj (t kp))) l) = Ok (acc ++ map (fun kp => (fst kp, r kp)) l).
Proof.
  induction l as [|[k p] l IH]; intros acc H N; cbn [map load_all fst]; [now rewrite app_nil_r|].
  assert (E := H (k, p) (or_introl eq_refl)). cbn [fst] in E. rewrite E. cbn [rbind].
  cbn [map fst] in N. rewrite dset_fresh.
  2:{ intro K. apply NoDup_remove_2 in N. apply N. apply in_or_app. now left. }
  rewrite IH.
  - now rewrite <- app_assoc.
  - intros kp K. apply H. now right.
  - rewrite dkeys_app. cbn. now rewrite <- app_assoc.
Qed.
Lemma load_all_nodup {A} (f : string -> jval -> res A) : forall l acc r, load_all f acc l = Ok r -> NoDup (dkeys acc) -> NoDup (dkeys r).
Proof.
  induction l as [|[k j] l IH]; cbn; intros acc r H N; [injection H as <-; exact N|].
  destruct (f k j); [|discriminate]. cbn in H.
  eapply IH; [exact H|]. now apply dset_nodup.
Qed.
Lemma sc_roundtrip c : c <> [] -> NoDup (dkeys c) -> sc_load (sc_dump c) = Ok c.
Proof.
  intros NE N. unfold sc_load, sc_dump, section. cbn [dget String.eqb Ascii.eqb Bool.eqb].
  destruct c as [|kp c]; [congruence|].
  set (L := kp :: c) in *.
  assert (X : load_all (fun _ j => do kw <- jobj j; load_spar kw) [] (map (fun kp => (fst kp, JObj (sp_to_dict (snd kp)))) L) = Ok ([] ++ map (fun kp => (fst kp, snd kp)) L)).
  { apply (load_all_ok (fun _ j => do kw <- jobj j; load_spar kw) (fun kp => sp_to_dict (snd kp)) snd); [intros; apply load_spar_ok|exact N]. }
  unfold L in *. cbn [map] in *. cbn [rbind]. rewrite X. cbn [app]. f_equal. change (map (fun kp => (fst kp, snd kp)) (kp :: c) = kp :: c).
  rewrite <- (map_id (kp :: c)) at 2. apply map_ext. now intros [].
Qed.
Lemma sf_roundtrip e b c : sf_pars c <> [] -> NoDup (dkeys (sf_pars c)) -> Forall rate_entry (sf_pars c) ->
  sf_load e (sf_dump b c) (sf_spectra c) (sf_name c) =
    Ok (SFC (sf_name c) (sf_spectra c) (map (fun kp => (fst kp, again b (fst kp) (snd kp))) (sf_pars c))).
Proof.
  intros NE N R. destruct c as [nm sp ps]. cbn [sf_pars sf_name sf_spectra] in *. unfold sf_load, sf_dump, section.
  cbn [sf_pars dget]. rewrite String.eqb_refl. destruct ps as [|kp ps]; [congruence|].
  set (L := kp :: ps) in *.
  assert (X : load_all (load_rate e) [] (map (fun kp => (fst kp, JObj (fp_to_dict b (cp_par (snd kp))))) L) =
     Ok ([] ++ map (fun kp => (fst kp, again b (fst kp) (snd kp))) L)).
  { apply (load_all_ok (load_rate e) (fun kp => fp_to_dict b (cp_par (snd kp))) (fun kp => again b (fst kp) (snd kp))); [|exact N].
    intros q Q. rewrite Forall_forall in R. destruct (R q Q) as (R1 & R2 & R3 & R4). unfold load_rate, again. rewrite R1, R2. cbn [jobj rbind].
    rewrite (load_fpar_ok e b (fst q) None _ R4 R3). reflexivity. }
  unfold L in *. cbn [map] in *. cbn [rbind]. rewrite X. reflexivity.
Qed.

(** ** Stripping the dimension from a name *)
Lemma replace_skip old new : forall a s, replace_aux old new (String.length a) (a ++ s) = replace_aux old new 0 s.
Proof. induction a as [|x a IH]; intro s; [reflexivity|]. cbn [String.length append]. cbn [replace_aux]. apply IH. Qed.
Lemma replace_prefix x old new s : replace (String x old) new (String x old ++ s) = (new ++ replace (String x old) new s)%string.
Proof.
  unfold replace. cbn [append]. cbn [replace_aux]. change (String x (old ++ s)) with (String x old ++ s)%string.
  rewrite starts_with_app. cbn [String.length]. rewrite Nat.sub_0_r || idtac. f_equal.
  replace (Datatypes.S (String.length old) - 1) with (String.length old) by lia. apply replace_skip.
Qed.
Lemma replace_none old new : forall s, contains old s = false -> replace old new s = s.
Proof.
  unfold replace. induction s as [|x s IH]; intro H; [reflexivity|].
  cbn [contains] in H. apply orb_false_iff in H as [H1 H2]. cbn [replace_aux]. rewrite H1. f_equal. now apply IH.
Qed.
Lemma strip_ok d s : contains (d ++ "_") s = false -> strip_dim d (d ++ "_" ++ s) = s.
Proof.
  intro H. unfold strip_dim. rewrite (contains_starts _ _ (starts_with_app d _)).
  assert (E : exists x o, (d ++ "_")%string = String x o) by (destruct d; cbn; eauto).
  destruct E as (x & o & E). rewrite <- sapp_assoc, E, replace_prefix, replace_none by (now rewrite <- E). reflexivity.
Qed.
Lemma contains_has_char c p s : contains (p ++ String c "") s = true -> has_char c s = true.
Proof.
  assert (S0 : forall p s, starts_with (p ++ String c "") s = true -> has_char c s = true).
  { clear. induction p as [|x p IH]; intros [|y s] H; cbn in *; try discriminate.
    - apply andb_true_iff in H as [H _]. rewrite Ascii.eqb_sym in H. now rewrite H.
    - apply andb_true_iff in H as [_ H]. rewrite (IH _ H). apply orb_true_r. }
  induction s as [|y s IH]; cbn [contains]; intro H.
  - rewrite orb_false_r in H. now apply S0 in H.
  - apply orb_true_iff in H as [H|H]; [now apply S0 in H|]. cbn. rewrite (IH H). apply orb_true_r.
Qed.
Lemma strip_entry dim syst c : global_entry dim syst c -> strip_dim dim (fp_name (cp_par c)) = syst /\ class_of syst = Ok (cp_class c).
Proof.
  intros (N & D & S & C & L). rewrite N. split.
  - apply strip_ok. destruct (contains (dim ++ "_") syst) eqn:E; [|reflexivity].
    assert (H := contains_has_char "_" dim syst E). destruct (cp_class c); cbn in S.
    + destruct S.
    + destruct S as [->| ->]; [discriminate|]. now apply L.
    + subst. discriminate.
    + subst. discriminate.
  - destruct (cp_class c); cbn in S; [destruct S|destruct S as [->| ->]|subst|subst]; reflexivity.
Qed.

(** ** Grouping by dimension *)
Lemma distinct_in seen l x : In x (distinct seen l) <-> In x l /\ ~ In x seen.
Proof.
  revert seen. induction l as [|y l IH]; intro seen; cbn [distinct]; [cbn; tauto|].
  destruct (str_in y seen) eqn:E.
  - apply str_in_iff in E. rewrite IH. cbn. split; [tauto|]. intros [[->|H] N]; [contradiction|auto].
  - apply str_in_false in E. cbn. rewrite IH. cbn. split.
    + intros [->|[H N]]; auto.
    + intros [[->|H] N]; [auto|]. destruct (string_dec y x) as [->|]; [auto|]. right. split; [exact H|]. intros [X|X]; congruence.
Qed.
Lemma distinct_nodup : forall l seen, NoDup (distinct seen l).
Proof.
  induction l as [|y l IH]; intro seen; cbn [distinct]; [constructor|].
  destruct (str_in y seen); [apply IH|]. constructor; [|apply IH]. rewrite distinct_in. cbn. tauto.
Qed.
Lemma distinct_snoc : forall l seen x, distinct seen (l ++ [x]) =
  if str_in x l || str_in x seen then distinct seen l else distinct seen l ++ [x].
Proof.
  induction l as [|y l IH]; intros seen x; cbn [app distinct].
  - cbn [str_in existsb orb]. destruct (str_in x seen); reflexivity.
  - destruct (str_in y seen) eqn:E.
    + rewrite IH. cbn [str_in existsb]. fold (str_in x l). destruct (String.eqb_spec x y) as [->|N]; [|reflexivity].
      rewrite E, orb_true_r. reflexivity.
    + rewrite IH. cbn [str_in existsb]. fold (str_in x l). fold (str_in x seen).
      destruct (String.eqb_spec x y) as [->|N]; cbn; [now rewrite orb_true_r|].
      destruct (str_in x l || str_in x seen); reflexivity.
Qed.

Definition dims_group (l : dict gentry) : dict gentry :=
  flat_map (fun d => filter (dim_is d) l) (distinct [] (map dim_of l)).

Lemma filter_split {A} (f g : A -> bool) l : (forall x, f x && g x = false) ->
  Permutation (filter f l ++ filter g l) (filter (fun x => f x || g x) l).
Proof.
  intro D. induction l as [|x l IH]; [constructor|]. cbn. specialize (D x).
  destruct (f x), (g x); cbn in *; try discriminate; auto.
  apply Permutation_sym, Permutation_cons_app, Permutation_sym, IH.
Qed.
Lemma group_perm (ds : list string) (l : dict gentry) : NoDup ds ->
  Permutation (flat_map (fun d => filter (dim_is d) l) ds) (filter (fun ke => existsb (fun d => dim_is d ke) ds) l).
Proof.
  induction ds as [|d ds IH]; intro N; cbn [flat_map existsb].
  - replace (filter (fun _ => false) l) with (@nil (string * gentry)); [constructor|]. now induction l.
  - inversion N as [|? ? N1 N2]; subst. etransitivity; [apply Permutation_app_head, IH, N2|].
    apply filter_split. intro x. unfold dim_is. destruct (fp_dim (cp_par (ge_par (snd x)))) as [d'|]; [|reflexivity].
    destruct (String.eqb_spec d d') as [->|]; [|reflexivity]. cbn.
    destruct (existsb (fun d => String.eqb d d') ds) eqn:E; [|reflexivity]. exfalso. apply existsb_exists in E as (y & Y1 & Y2).
    apply String.eqb_eq in Y2. subst. contradiction.
Qed.
Lemma dims_group_perm l : Forall (fun ke => fp_dim (cp_par (ge_par (snd ke))) <> None) l -> Permutation (dims_group l) l.
Proof.
  intro H. unfold dims_group. etransitivity; [apply group_perm, distinct_nodup|].
  replace (filter _ l) with l; [reflexivity|]. symmetry.
  assert (X : forall f : (string * gentry) -> bool, (forall x, In x l -> f x = true) -> filter f l = l).
  { clear. induction l as [|x l IH]; intros f F; [reflexivity|]. cbn. rewrite (F x (or_introl eq_refl)). rewrite IH; [reflexivity|]. intros; apply F; now right. }
  apply X. intros x Hx. apply existsb_exists. exists (dim_of x). split.
  - apply distinct_in. split; [now apply in_map|intros []].
  - rewrite Forall_forall in H. specialize (H x Hx). unfold dim_is, dim_of. destruct (fp_dim _); [apply String.eqb_refl|congruence].
Qed.

Definition gpar (ke : string * gentry) : cpar := ge_par (snd ke).
Definition good_global (ke : string * gentry) : Prop :=
  fst ke = fp_name (cp_par (gpar ke)) /\ exists dim syst, global_entry dim syst (gpar ke).
Definition gsyst (ke : string * gentry) : string := strip_dim (dim_of ke) (fp_name (cp_par (gpar ke))).
Definition dumped_entry (b : bool) (ke : string * gentry) : string * jval := (gsyst ke, JObj (fp_to_dict b (cp_par (gpar ke)))).
Definition dumped_dim (b : bool) (l : dict gentry) (d : string) : jdict := map (dumped_entry b) (filter (dim_is d) l).

Lemma good_parts ke : good_global ke -> exists dim syst, global_entry dim syst (gpar ke) /\ dim_of ke = dim /\ gsyst ke = syst /\
  fst ke = (dim ++ "_" ++ syst)%string /\ class_of syst = Ok (cp_class (gpar ke)).
Proof.
  intros (N & dim & syst & G). exists dim, syst. assert (S := strip_entry dim syst _ G).
  destruct G as (G1 & G2 & G3 & G4 & G5). assert (D : dim_of ke = dim) by (unfold dim_of, gpar in *; now rewrite G2).
  split; [repeat split; assumption|]. split; [exact D|]. split; [unfold gsyst; rewrite D; apply S|]. split; [now rewrite N|]. apply S.
Qed.
Lemma dump_app b : forall l acc c, dump_globals b acc (l ++ [c]) = do a <- dump_globals b acc l; dump_globals b a [c].
Proof.
  induction l as [|x l IH]; intros acc c; [reflexivity|]. cbn [app]. cbn [dump_globals].
  destruct (fp_dim (cp_par x)); [|reflexivity]. apply IH.
Qed.
Lemma dim_is_of d ke : good_global ke -> dim_is d ke = String.eqb d (dim_of ke).
Proof. intros (_ & dim & syst & _ & G & _). unfold dim_is, dim_of, gpar in *. now rewrite G. Qed.
Lemma dump_globals_ok b l : Forall good_global l -> NoDup (map fst l) ->
  dump_globals b [] (map gpar l) = Ok (map (fun d => (d, dumped_dim b l d)) (distinct [] (map dim_of l))).
Proof.
  induction l as [|ke l IH] using rev_ind; intros G N; [reflexivity|].
  apply Forall_app in G as [G1 G2]. inversion G2 as [|? ? Gk _]; subst. rewrite map_app in N.
  assert (N1 : NoDup (map fst l)). { apply NoDup_remove_1 in N. now rewrite app_nil_r in N. }
  assert (N2 : ~ In (fst ke) (map fst l)). { apply NoDup_remove_2 in N. now rewrite app_nil_r in N. }
  rewrite map_app. cbn [map]. rewrite dump_app, (IH G1 N1). cbn [rbind dump_globals].
  destruct (good_parts ke Gk) as (dim & syst & G & D & Sy & Nm & _).
  assert (FD : fp_dim (cp_par (gpar ke)) = Some dim) by apply G. rewrite FD.
  assert (SD : strip_dim dim (fp_name (cp_par (gpar ke))) = syst) by (unfold gsyst in Sy; now rewrite D in Sy). rewrite SD.
  rewrite dget_mapk, map_app. cbn [map]. rewrite distinct_snoc, D. cbn [str_in existsb]. fold (str_in dim (map dim_of l)). rewrite orb_false_r.
  assert (SI : str_in dim (distinct [] (map dim_of l)) = str_in dim (map dim_of l)).
  { destruct (str_in dim (map dim_of l)) eqn:E.
    - apply str_in_iff in E. apply str_in_iff, distinct_in. split; [exact E|intros []].
    - apply str_in_false in E. apply str_in_false. rewrite distinct_in. tauto. }
  rewrite SI.
  assert (DD : forall d', dumped_dim b (l ++ [ke]) d' = dumped_dim b l d' ++ (if String.eqb d' dim then [dumped_entry b ke] else [])).
  { intro d'. unfold dumped_dim. rewrite filter_app, map_app. f_equal. cbn [filter]. rewrite (dim_is_of d' ke Gk), D. destruct (String.eqb d' dim); reflexivity. }
  assert (FR : ~ In syst (dkeys (dumped_dim b l dim))).
  { intro H. unfold dumped_dim, dkeys in H. rewrite map_map in H. apply in_map_iff in H as (k' & K1 & K2). apply filter_In in K2 as [K2 K3].
    cbn [dumped_entry fst] in K1. rewrite Forall_forall in G1. assert (Gk' := G1 k' K2).
    destruct (good_parts k' Gk') as (dim' & syst' & _ & D' & Sy' & Nm' & _).
    rewrite (dim_is_of dim k' Gk'), D' in K3. apply String.eqb_eq in K3. subst dim'.
    apply N2. apply in_map_iff. exists k'. split; [|exact K2]. rewrite Nm, Nm'. congruence. }
  assert (EN : (syst, JObj (fp_to_dict b (cp_par (gpar ke)))) = dumped_entry b ke) by (unfold dumped_entry; now rewrite Sy).
  destruct (str_in dim (map dim_of l)) eqn:E.
  - apply str_in_iff in E. rewrite (dset_fresh syst _ (dumped_dim b l dim) FR). rewrite EN.
    rewrite dset_mapk by (apply distinct_nodup || (apply distinct_in; split; [exact E|intros []])).
    f_equal. apply map_ext. intro d'. rewrite DD. destruct (String.eqb_spec d' dim) as [->|]; [reflexivity|]. now rewrite app_nil_r.
  - apply str_in_false in E. cbn [dset]. rewrite EN. rewrite dset_fresh.
    + rewrite map_app. cbn [map]. f_equal. f_equal.
      * apply map_ext_in. intros d' Hd. rewrite DD. destruct (String.eqb_spec d' dim) as [->|]; [|now rewrite app_nil_r].
        exfalso. apply E. now apply distinct_in in Hd.
      * rewrite DD, String.eqb_refl. f_equal. f_equal.
        enough (F : dumped_dim b l dim = []) by now rewrite F.
        unfold dumped_dim. replace (filter (dim_is dim) l) with (@nil (string * gentry)); [reflexivity|]. symmetry.
        clear - G1 E. induction l as [|k l IH]; [reflexivity|]. inversion G1 as [|? ? A B]; subst. cbn. rewrite (dim_is_of dim k A).
        cbn in E. destruct (String.eqb_spec dim (dim_of k)) as [->|]; [exfalso; auto|]. apply IH; auto.
    + unfold dkeys. rewrite map_map. cbn. rewrite map_id. rewrite distinct_in. tauto.
Qed.

Lemma load_dim_ok e b dim : forall l nm acc, Forall good_global l -> Forall (fun ke => dim_of ke = dim) l ->
  NoDup (dkeys acc ++ map fst l) ->
  load_dim e dim (nm, acc) (map (dumped_entry b) l) = Ok (last (map fst l) nm, acc ++ map (fun ke => (fst ke, GE (again b (fst ke) (gpar ke)) true)) l).
Proof.
  induction l as [|ke l IH]; intros nm acc G D N; cbn [map load_dim]; [now rewrite app_nil_r|].
  inversion G as [|? ? G1 G2]; inversion D as [|? ? D1 D2]; subst x x0 l0 l1.
  destruct (good_parts ke G1) as (dim' & syst & GE' & E & Sy & Nm & Cl). unfold dumped_entry at 1. rewrite Sy, Cl. cbn [rbind jobj].
  assert (dim' = dim) as -> by congruence. rewrite <- Nm.
  rewrite (load_fpar_ok e b (fst ke) (Some dim)) by apply GE'. cbn [rbind snd].
  cbn [map fst] in N. rewrite dset_fresh.
  2:{ intro K. apply NoDup_remove_2 in N. apply N, in_or_app. now left. }
  rewrite IH; [|exact G2|exact D2|rewrite dkeys_app; cbn; now rewrite <- app_assoc].
  rewrite <- app_assoc. cbn [app]. f_equal. f_equal. destruct (map fst l) eqn:M; [reflexivity|]. 
  assert (LL : forall (a : string) r d d', last (a :: r) d = last (a :: r) d').
  { clear. intros a r. revert a. induction r as [|c r IH]; intros a d d'; [reflexivity|]. cbn in *. apply IH. }
  cbn [last]. apply LL.
Qed.
Lemma load_dims_ok e b l : Forall good_global l -> forall ds nm acc, NoDup ds ->
  NoDup (dkeys acc ++ map fst (flat_map (fun d => filter (dim_is d) l) ds)) ->
  load_dims e (nm, acc) (map (fun kv => (fst kv, JObj (snd kv))) (map (fun d => (d, dumped_dim b l d)) ds)) =
    Ok (last (map fst (flat_map (fun d => filter (dim_is d) l) ds)) nm,
        acc ++ map (fun ke => (fst ke, GE (again b (fst ke) (gpar ke)) true)) (flat_map (fun d => filter (dim_is d) l) ds)).
Proof.
  intro G. induction ds as [|d ds IH]; intros nm acc ND N; cbn [map load_dims flat_map]; [now rewrite app_nil_r|].
  inversion ND as [|? ? ND1 ND2]; subst. cbn [fst snd jobj rbind]. cbn [flat_map] in N. rewrite map_app, app_assoc in N.
  assert (GF : Forall good_global (filter (dim_is d) l)).
  { apply Forall_forall. intros x Hx. apply filter_In in Hx as [Hx _]. rewrite Forall_forall in G. auto. }
  unfold dumped_dim at 1. rewrite (load_dim_ok e b d).
  - cbn [rbind]. rewrite IH.
    + rewrite <- app_assoc, <- map_app. f_equal. f_equal. rewrite map_app.
      generalize (map fst (filter (dim_is d) l)), (map fst (flat_map (fun d0 => filter (dim_is d0) l) ds)). clear.
      intros a r. revert nm. destruct r as [|c r] using rev_ind; [now rewrite app_nil_r|]. intros nm. rewrite app_assoc, !last_last. reflexivity.
    + exact ND2.
    + rewrite dkeys_app. unfold dkeys at 2. rewrite map_map. exact N.
  - exact GF.
  - apply Forall_forall. intros x Hx. apply filter_In in Hx as [Hx E]. rewrite Forall_forall in G. rewrite (dim_is_of d x (G x Hx)) in E.
    apply String.eqb_eq in E. now symmetry.
  - clear - N. revert N. generalize (dkeys acc ++ map fst (filter (dim_is d) l)), (map fst (flat_map (fun d0 => filter (dim_is d0) l) ds)).
    intros a r H. induction a as [|x a IH]; [constructor|]. cbn in H. inversion H; subst. constructor; [|auto]. intro K. apply H2. apply in_or_app. now left.
Qed.

Lemma dump_spectral_ok b : forall (l : dict gentry) acc, Forall (fun ke => fst ke = fp_name (cp_par (gpar ke))) l ->
  NoDup (dkeys acc ++ map fst l) ->
  fold_left (fun acc c => dset (fp_name (cp_par c)) (JObj (fp_to_dict b (cp_par c))) acc) (map gpar l) acc =
    acc ++ map (fun ke => (fst ke, JObj (fp_to_dict b (cp_par (gpar ke))))) l.
Proof.
  induction l as [|ke l IH]; intros acc F N; cbn [map fold_left]; [now rewrite app_nil_r|].
  inversion F as [|? ? F1 F2]; subst. cbn [map] in N. rewrite <- F1. rewrite dset_fresh.
  2:{ intro K. apply NoDup_remove_2 in N. apply N, in_or_app. now left. }
  rewrite IH; [|exact F2|rewrite dkeys_app; cbn; now rewrite <- app_assoc]. rewrite <- app_assoc. reflexivity.
Qed.
Lemma load_spectral_ok e b : forall (l : dict gentry) acc, Forall (fun ke => rate_entry (fst ke, gpar ke)) l ->
  NoDup (dkeys acc ++ map fst l) ->
  load_spectral e acc (map (fun ke => (fst ke, JObj (fp_to_dict b (cp_par (gpar ke))))) l) =
    Ok (acc ++ map (fun ke => (fst ke, GE (again b (fst ke) (gpar ke)) false)) l).
Proof.
  induction l as [|ke l IH]; intros acc F N; cbn [map load_spectral]; [now rewrite app_nil_r|].
  inversion F as [|? ? F1 F2]; subst. destruct F1 as (R1 & R2 & R3 & R4). cbn [fst snd] in *. rewrite R1. cbn [jobj rbind].
  rewrite (load_fpar_ok e b (fst ke) None _ R4 R3). cbn [rbind]. cbn [map] in N. rewrite dset_fresh.
  2:{ intro K. apply NoDup_remove_2 in N. apply N, in_or_app. now left. }
  rewrite IH; [|exact F2|rewrite dkeys_app; cbn; now rewrite <- app_assoc]. rewrite <- app_assoc. unfold again at 2. now rewrite R2.
Qed.

Lemma filter_map_swap {A B} (f : B -> bool) (g : A -> B) l : filter f (map g l) = map g (filter (fun x => f (g x)) l).
Proof. induction l as [|x l IH]; [reflexivity|]. cbn. destruct (f (g x)); cbn; now rewrite IH. Qed.
Lemma global_pars_eq g : get_global_pars g = map gpar (globals (gc_pars g)).
Proof. unfold get_global_pars, globals. rewrite filter_map_swap, map_map. reflexivity. Qed.
Lemma spectra_pars_eq g : get_spectra_pars g = map gpar (spectrals (gc_pars g)).
Proof. unfold get_spectra_pars, spectrals. rewrite filter_map_swap, map_map. reflexivity. Qed.
Lemma split_perm (l : dict gentry) : Permutation (globals l ++ spectrals l) l.
Proof.
  unfold globals, spectrals. etransitivity; [apply filter_split|].
  - intro x. destruct (ge_global (snd x)); reflexivity.
  - replace (filter _ l) with l; [reflexivity|]. induction l as [|x l IH]; [reflexivity|]. cbn. destruct (ge_global (snd x)); cbn; now rewrite <- IH.
Qed.
Lemma by_dim_eq l : by_dimension l = dims_group (globals l) ++ spectrals l.
Proof. reflexivity. Qed.

Lemma parts l : Forall well_named_entry l ->
  Forall good_global (globals l) /\ Forall (fun ke => fst ke = fp_name (cp_par (gpar ke))) (spectrals l) /\
  Forall (fun ke => rate_entry (fst ke, gpar ke)) (spectrals l) /\ Permutation (by_dimension l) l.
Proof.
  intro W. rewrite Forall_forall in W.
  assert (A : Forall good_global (globals l)).
  { apply Forall_forall. intros x Hx. apply filter_In in Hx as [Hx E]. destruct (W x Hx) as [W1 W2]. rewrite E in W2. split; assumption. }
  repeat split; try exact A.
  - apply Forall_forall. intros x Hx. apply filter_In in Hx as [Hx E]. now destruct (W x Hx) as [W1 _].
  - apply Forall_forall. intros x Hx. apply filter_In in Hx as [Hx E]. destruct (W x Hx) as [_ W2]. apply negb_true_iff in E. now rewrite E in W2.
  - rewrite by_dim_eq. etransitivity; [|apply split_perm]. apply Permutation_app_tail, dims_group_perm.
    eapply Forall_impl; [|exact A]. intros x (_ & dim & syst & _ & D & _). unfold gpar in D. congruence.
Qed.

Lemma last_app_name (l : list string) d : last l d = match rev l with [] => d | x :: _ => x end.
Proof. destruct l as [|x l] using rev_ind; [reflexivity|]. now rewrite last_last, rev_unit. Qed.

Lemma gc_roundtrip e b g n : NoDup (dkeys (gc_pars g)) -> Forall well_named_entry (gc_pars g) -> get_spectra_pars g <> [] ->
  exists dg ds g', gc_dump b g = Ok (dg, ds) /\ gc_load e dg (Some ds) n = Ok g' /\
    gc_pars g' = map (again_entry b) (by_dimension (gc_pars g)).
Proof.
  intros N W NE. destruct (parts _ W) as (A & B & C & P).
  assert (NB : NoDup (dkeys (by_dimension (gc_pars g)))).
  { apply (Permutation_NoDup (l := dkeys (gc_pars g))); [|exact N]. apply Permutation_sym. now apply Permutation_map. }
  rewrite by_dim_eq, dkeys_app in NB.
  assert (NG : NoDup (map fst (globals (gc_pars g)))).
  { assert (X : NoDup (map fst (globals (gc_pars g)) ++ map fst (spectrals (gc_pars g)))).
    { rewrite <- map_app. apply (Permutation_NoDup (l := dkeys (gc_pars g))); [|exact N]. apply Permutation_sym, Permutation_map, split_perm. }
    clear - X. induction (map fst (globals (gc_pars g))) as [|x l IH]; [constructor|]. cbn in X. inversion X; subst. constructor; [|auto].
    intro K. apply H1. apply in_or_app. now left. }
  assert (NS : NoDup (map fst (spectrals (gc_pars g)))).
  { clear - NB. induction (dkeys (dims_group (globals (gc_pars g)))) as [|x l IH]; [exact NB|]. cbn in NB. inversion NB; subst. auto. }
  unfold gc_dump. rewrite global_pars_eq, spectra_pars_eq, (dump_globals_ok b _ A NG). cbn [rbind].
  unfold dump_spectral. rewrite (dump_spectral_ok b _ [] B NS). cbn [app].
  do 2 eexists. unfold gc_load. rewrite spectra_pars_eq in NE.
  assert (LD := load_dims_ok e b (globals (gc_pars g)) A (distinct [] (map dim_of (globals (gc_pars g)))) n [] (distinct_nodup _ _)).
  fold (dims_group (globals (gc_pars g))) in LD. cbn [app] in LD.
  assert (ND : NoDup (dkeys (@nil (string * gentry)) ++ map fst (dims_group (globals (gc_pars g))))).
  { cbn. clear - NB. fold (dkeys (dims_group (globals (gc_pars g)))). revert NB. generalize (dkeys (dims_group (globals (gc_pars g)))).
    induction l as [|x l IH]; intro H; [constructor|]. cbn in H. inversion H; subst. constructor; [|auto]. intro K. apply H2, in_or_app. now left. }
  specialize (LD ND).
  eexists. split; [reflexivity|]. cbn [dget]. rewrite String.eqb_refl. cbn [jobj rbind]. unfold jdict, dict in LD |- *. rewrite LD. cbn [rbind fst snd].
  unfold section. cbn [dget]. rewrite String.eqb_refl.
  set (ds := map (fun ke : string * gentry => (fst ke, JObj (fp_to_dict b (cp_par (gpar ke))))) (spectrals (gc_pars g))).
  assert (LS := load_spectral_ok e b (spectrals (gc_pars g)) (map (fun ke => (fst ke, GE (again b (fst ke) (gpar ke)) true)) (dims_group (globals (gc_pars g)))) C).
  fold ds in LS. unfold dkeys at 1 in LS. rewrite map_map in LS. cbn [fst] in LS.
  assert (NB' : NoDup (map fst (dims_group (globals (gc_pars g))) ++ map fst (spectrals (gc_pars g)))) by exact NB.
  specialize (LS NB').
  destruct ds as [|d0 ds0] eqn:ED.
  { exfalso. unfold ds in ED. destruct (spectrals (gc_pars g)); [now apply NE|discriminate]. }
  cbn [rbind]. rewrite LS. cbn [rbind]. split; [reflexivity|]. cbn [gc_pars].
  rewrite by_dim_eq, map_app. f_equal.
  - assert (FG : forall ke, In ke (dims_group (globals (gc_pars g))) -> ge_global (snd ke) = true).
    { intros ke H. assert (PG := dims_group_perm (globals (gc_pars g))).
      assert (D : Forall (fun ke => fp_dim (cp_par (ge_par (snd ke))) <> None) (globals (gc_pars g))).
      { eapply Forall_impl; [|exact A]. intros x (_ & dim & syst & _ & D & _). unfold gpar in D. congruence. }
      apply (Permutation_in _ (PG D)) in H. now apply filter_In in H. }
    apply map_ext_in. intros ke H. unfold again_entry. now rewrite (FG ke H).
  - apply map_ext_in. intros ke H. apply filter_In in H as [_ H]. apply negb_true_iff in H. unfold again_entry. now rewrite H.
Qed.
(** Looking up a name. *)
Lemma perm_dget {A} (a b : dict A) k : Permutation a b -> NoDup (dkeys b) -> dget k a = dget k b.
Proof.
  intros P N. assert (NA : NoDup (dkeys a)).
  { apply (Permutation_NoDup (l := dkeys b)); [|exact N]. apply Permutation_sym. now apply Permutation_map. }
  destruct (dget k a) eqn:E.
  - apply dget_In in E. symmetry. apply In_dget; [exact N|]. eapply Permutation_in; eassumption.
  - apply dget_none in E. symmetry. apply dget_none. intro K. apply E.
    apply (Permutation_in (l := dkeys b)); [apply Permutation_sym, Permutation_map, P|exact K].
Qed.
Lemma dget_again b l k : dget k (map (again_entry b) l) = option_map (fun e => GE (again b k (ge_par e)) (ge_global e)) (dget k l).
Proof.
  induction l as [|[k' v] l IH]; [reflexivity|]. cbn. destruct (String.eqb_spec k k') as [->|]; [reflexivity|exact IH].
Qed.
Lemma gc_roundtrip_lookup e b g n : NoDup (dkeys (gc_pars g)) -> Forall well_named_entry (gc_pars g) -> get_spectra_pars g <> [] ->
  exists dg ds g', gc_dump b g = Ok (dg, ds) /\ gc_load e dg (Some ds) n = Ok g' /\
    Permutation (gc_get_pars g') (gc_get_pars g) /\
    forall k, dget k (gc_pars g') = option_map (fun e => GE (again b k (ge_par e)) (ge_global e)) (dget k (gc_pars g)).
Proof.
  intros N W NE. destruct (gc_roundtrip e b g n N W NE) as (dg & ds & g' & D & L & E). exists dg, ds, g'.
  destruct (parts _ W) as (_ & _ & _ & P). repeat split; auto.
  - unfold gc_get_pars. rewrite E. unfold dkeys. rewrite map_map. cbn [again_entry fst]. now apply Permutation_map.
  - intro k. rewrite E, dget_again. now rewrite (perm_dget _ _ k P N).
Qed.

(** ** Consistency (C50) *)
Lemma index_of_spec x l : match index_of x l with
  | Ok i => nth_error l i = Some x /\ forall j, (j < i)%nat -> nth_error l j <> Some x
  | Err e => e = EIndexError /\ ~ In x l end.
Proof.
  induction l as [|y l IH]; cbn [index_of]; [cbn; auto|].
  destruct (String.eqb_spec y x) as [->|N].
  - split; [reflexivity|]. intros j Hj. lia.
  - destruct (index_of x l) as [i|e]; cbn [rmap].
    + destruct IH as [A B]. split; [exact A|]. intros [|j] Hj; cbn; [congruence|]. apply B. lia.
    + destruct IH as [A B]. split; [exact A|]. intros [C|C]; congruence.
Qed.
Lemma index_nodup l i x : NoDup l -> nth_error l i = Some x -> index_of x l = Ok i.
Proof.
  intros N H. assert (S := index_of_spec x l). destruct (index_of x l) as [j|e].
  - destruct S as [S _]. f_equal. rewrite NoDup_nth_error in N. apply N; [|congruence]. apply nth_error_Some. congruence.
  - destruct S as [_ S]. exfalso. apply S. eapply nth_error_In; eassumption.
Qed.
Lemma sbuilt_nodup c : sbuilt c -> NoDup (dkeys c).
Proof.
  induction 1 as [|j c H|c n p _ IH]; [constructor| |].
  - unfold sc_load in H. destruct (section "parameters" j); [|discriminate]. cbn in H. eapply load_all_nodup; [exact H|constructor].
  - now apply dset_nodup.
Qed.
Lemma new_fpar_name name pr sg lo hi bi di va cu pe be ls ba ld p :
  new_fpar name pr sg lo hi bi di va cu pe be ls ba ld = Ok p -> fp_name p = name.
Proof.
  unfold new_fpar. destruct (truthy ls); [destruct ba; [|discriminate]|]; intro H; injection H as <-; reflexivity.
Qed.
Lemma load_fpar_name e name dim kw p : load_fpar e name dim kw = Ok p -> fp_name p = name /\ constructed p.
Proof.
  unfold load_fpar. intro E.
  repeat (match type of E with rbind ?r _ = _ => destruct r; cbn [rbind] in E; [|discriminate] end).
  split; [exact (new_fpar_name _ _ _ _ _ _ _ _ _ _ _ _ _ _ _ E)|exact (constructed_new _ _ _ _ _ _ _ _ _ _ _ _ _ _ _ E)].
Qed.
Definition keyed (d : dict gentry) : Prop := NoDup (dkeys d) /\ Forall (fun ke => fst ke = fp_name (cp_par (ge_par (snd ke)))) d.
Lemma keyed_dset d k v : keyed d -> k = fp_name (cp_par (ge_par v)) -> keyed (dset k v d).
Proof.
  intros [N K] E. split; [now apply dset_nodup|]. clear N. induction d as [|[k' v'] d IH]; cbn.
  - constructor; [exact E|constructor].
  - inversion K as [|x y K1 K2 Hx]. clear x y Hx H. destruct (String.eqb_spec k k') as [<-|].
    + constructor; [exact E|exact K2].
    + constructor; [exact K1|]. now apply IH.
Qed.
Lemma load_dim_keyed e dim : forall l st st', load_dim e dim st l = Ok st' -> keyed (snd st) -> keyed (snd st').
Proof.
  induction l as [|[syst j] l IH]; cbn [load_dim]; intros st st' H K; [injection H as <-; auto|].
  destruct (class_of syst); [|discriminate]. cbn [rbind] in H. destruct (jobj j); [|discriminate]. cbn [rbind] in H.
  destruct (load_fpar e _ _ _) as [p|] eqn:E; [|discriminate]. cbn [rbind] in H. apply IH in H; [exact H|].
  cbn [snd]. apply keyed_dset; [exact K|]. cbn. now apply load_fpar_name in E as [-> _].
Qed.
Lemma load_dims_keyed e : forall l st st', load_dims e st l = Ok st' -> keyed (snd st) -> keyed (snd st').
Proof.
  induction l as [|[dim j] l IH]; cbn [load_dims]; intros st st' H K; [injection H as <-; auto|].
  destruct (jobj j); [|discriminate]. cbn [rbind] in H. destruct (load_dim e dim st a) eqn:E; [|discriminate]. cbn [rbind] in H.
  eapply IH; [exact H|]. eapply load_dim_keyed; eassumption.
Qed.
Lemma load_spectral_keyed e : forall l acc r, load_spectral e acc l = Ok r -> keyed acc -> keyed r.
Proof.
  induction l as [|[syst j] l IH]; cbn [load_spectral]; intros acc r H K; [injection H as <-; auto|].
  destruct (contains "rate" syst); [|discriminate]. destruct (jobj j); [|discriminate]. cbn [rbind] in H.
  destruct (load_fpar e _ _ _) as [p|] eqn:E; [|discriminate]. cbn [rbind] in H. eapply IH; [exact H|].
  apply keyed_dset; [exact K|]. cbn. now apply load_fpar_name in E as [-> _].
Qed.
Lemma fold_keyed b : forall l g, keyed (gc_pars g) -> keyed (gc_pars (fold_left (add_as b) l g)).
Proof. induction l as [|c l IH]; intros g K; [exact K|]. cbn [fold_left]. apply IH. cbn. now apply keyed_dset. Qed.
Lemma built_keyed e g : built e g -> keyed (gc_pars g).
Proof.
  induction 1 as [n|j s n g H|g p t g' _ IH H|g c _ IH|g c _ IH].
  - split; constructor.
  - unfold gc_load in H. destruct (dget _ j); [|discriminate]. destruct (jobj j0); [|discriminate]. cbn [rbind] in H.
    destruct (load_dims e (n, []) a) as [st|] eqn:E; [|discriminate]. cbn [rbind] in H.
    assert (K : keyed (snd st)) by (eapply load_dims_keyed; [exact E|split; constructor]).
    destruct s as [sc|]; [|injection H as <-; exact K].
    destruct (section _ sc); [|discriminate]. cbn [rbind] in H. destruct (load_spectral e (snd st) a0) eqn:L; [|discriminate].
    cbn [rbind] in H. injection H as <-. eapply load_spectral_keyed; eassumption.
  - unfold gc_add_par in H. destruct (_ || _); [|discriminate]. injection H as <-. cbn. now apply keyed_dset.
  - cbn. now apply fold_keyed.
  - unfold add_gconfig. now apply fold_keyed, fold_keyed.
Qed.

Lemma gc_index_l g p : NoDup (dkeys (gc_pars g)) ->
  match gc_get_index g p with
  | Ok i => gc_get_par_by_index g i = gc_get_par g p /\ exists c, gc_get_par g p = Ok c
  | Err e => e = EIndexError /\ ~ In p (gc_get_pars g)
  end.
Proof.
  intro N. unfold gc_get_index. assert (S := index_of_spec p (gc_get_pars g)). destruct (index_of p (gc_get_pars g)) as [i|e].
  - destruct S as [S _]. unfold gc_get_par_by_index. rewrite S. split; [reflexivity|].
    assert (I : In p (dkeys (gc_pars g))) by (eapply nth_error_In; exact S).
    apply key_dget in I as [v I]. exists (ge_par v). unfold gc_get_par, dlookup. now rewrite I.
  - exact S.
Qed.
Lemma gc_nth_l g i k v : NoDup (dkeys (gc_pars g)) -> nth_error (gc_pars g) i = Some (k, v) ->
  gc_get_index g k = Ok i /\ gc_get_par g k = Ok (ge_par v) /\ gc_get_par_by_index g i = Ok (ge_par v) /\
  nth_error (gc_get_pars g) i = Some k /\ nth_error (gc_get_shape g) i = Some (fp_bins (cp_par (ge_par v))).
Proof.
  intros N H. assert (K : nth_error (gc_get_pars g) i = Some k).
  { unfold gc_get_pars, dkeys. now rewrite nth_error_map, H. }
  assert (G : gc_get_par g k = Ok (ge_par v)).
  { unfold gc_get_par, dlookup. rewrite (In_dget k v); [reflexivity|exact N|]. eapply nth_error_In; exact H. }
  repeat split.
  - now apply index_nodup.
  - exact G.
  - unfold gc_get_par_by_index. now rewrite K.
  - exact K.
  - unfold gc_get_shape. now rewrite nth_error_map, H.
Qed.
Lemma sc_nth_l c i k p : NoDup (dkeys c) -> nth_error c i = Some (k, p) ->
  get_index c k = Ok i /\ get_par c k = Ok p /\ get_par_by_index c i = Ok p /\
  nth_error (get_pars c) i = Some k /\ nth_error (get_shape c) i = Some (sp_bins p).
Proof.
  intros N H. assert (K : nth_error (get_pars c) i = Some k).
  { unfold get_pars, dkeys. now rewrite nth_error_map, H. }
  assert (G : get_par c k = Ok p).
  { unfold get_par, dlookup. rewrite (In_dget k p); [reflexivity|exact N|]. eapply nth_error_In; exact H. }
  repeat split.
  - now apply index_nodup.
  - exact G.
  - unfold get_par_by_index. now rewrite K.
  - exact K.
  - unfold get_shape. now rewrite nth_error_map, H.
Qed.
Lemma sc_index_l c p : match get_index c p with
  | Ok i => get_par_by_index c i = get_par c p /\ exists v, get_par c p = Ok v
  | Err e => e = EIndexError /\ ~ In p (get_pars c) end.
Proof.
  unfold get_index. assert (S := index_of_spec p (get_pars c)). destruct (index_of p (get_pars c)) as [i|e]; [|exact S].
  destruct S as [S _]. unfold get_par_by_index. rewrite S. split; [reflexivity|].
  assert (I : In p (dkeys c)) by (eapply nth_error_In; exact S). apply key_dget in I as [v I]. exists v. unfold get_par, dlookup. now rewrite I.
Qed.
Lemma partition_l g : Permutation (get_global_pars g ++ get_spectra_pars g) (map (fun ke => ge_par (snd ke)) (gc_pars g)).
Proof.
  rewrite global_pars_eq, spectra_pars_eq, <- map_app. apply (Permutation_map gpar), split_perm.
Qed.
Lemma global_iff_l g k : keyed (gc_pars g) -> forall e, dget k (gc_pars g) = Some e ->
  (ge_global e = true -> In (ge_par e) (get_global_pars g)) /\ (ge_global e = false -> In (ge_par e) (get_spectra_pars g)).
Proof.
  intros _ e H. apply dget_In in H. rewrite global_pars_eq, spectra_pars_eq. split; intro G.
  - apply in_map_iff. exists (k, e). split; [reflexivity|]. apply filter_In. auto.
  - apply in_map_iff. exists (k, e). split; [reflexivity|]. apply filter_In. cbn. now rewrite G.
Qed.
(** Names of global and spectral parameters do not overlap. *)
Lemma names_disjoint_l g : keyed (gc_pars g) -> NoDup (map (fun c => fp_name (cp_par c)) (get_global_pars g ++ get_spectra_pars g)).
Proof.
  intros [N K]. apply (Permutation_NoDup (l := dkeys (gc_pars g))); [|exact N].
  etransitivity; [|apply Permutation_map, Permutation_sym, partition_l]. rewrite map_map.
  replace (map (fun x => fp_name (cp_par (ge_par (snd x)))) (gc_pars g)) with (dkeys (gc_pars g)); [reflexivity|].
  unfold dkeys. apply map_ext_in. intros x Hx. rewrite Forall_forall in K. now apply K.
Qed.
Lemma add_par_l g p t g' : gc_add_par g p t = Ok g' ->
  let n := fp_name (cp_par p) in
  gc_get_par g' n = Ok p /\ (forall k, k <> n -> gc_get_par g' k = gc_get_par g k) /\
  gc_get_pars g' = (if str_in n (gc_get_pars g) then gc_get_pars g else gc_get_pars g ++ [n]) /\
  (t = "global" /\ In p (get_global_pars g') \/ t = "spectra" /\ In p (get_spectra_pars g')).
Proof.
  intros H n. unfold gc_add_par in H. destruct (_ || _) eqn:T; [|discriminate]. injection H as <-.
  unfold gc_get_par, gc_get_pars, dlookup. cbn [gc_pars]. fold n. rewrite dget_dset_same. repeat split.
  - intros k N. now rewrite dget_dset_other.
  - apply dkeys_dset.
  - set (e := GE p (t =? "global")). assert (I : In (n, e) (dset n e (gc_pars g))) by (apply dget_In, dget_dset_same).
    assert (TT : t = "global" \/ t = "spectra").
    { apply orb_true_iff in T as [T|T]; apply String.eqb_eq in T; auto. }
    rewrite global_pars_eq, spectra_pars_eq. cbn [gc_pars]. destruct (t =? "global") eqn:G; [left|right];
      (split; [first [apply String.eqb_eq; exact G|destruct TT as [TT|TT]; [apply String.eqb_neq in G; congruence|exact TT]]|]);
      apply in_map_iff; exists (n, e); (split; [reflexivity|]); apply filter_In; split; auto; unfold e; cbn; now rewrite G.
Qed.

(** Adding a spectrum's fit configuration. *)
Lemma fold_add_get b : forall l g k, NoDup (map (fun c => fp_name (cp_par c)) l) ->
  dget k (gc_pars (fold_left (add_as b) l g)) =
    match find (fun c => String.eqb (fp_name (cp_par c)) k) l with
    | Some c => Some (GE c b)
    | None => dget k (gc_pars g)
    end.
Proof.
  induction l as [|c l IH]; intros g k N; [reflexivity|]. cbn [map] in N. inversion N as [|? ? N1 N2]; subst.
  cbn [fold_left find]. rewrite IH by exact N2. destruct (String.eqb_spec (fp_name (cp_par c)) k) as [E|E].
  - destruct (find _ l) eqn:F.
    + exfalso. apply find_some in F as [F1 F2]. apply String.eqb_eq in F2. apply N1. rewrite E, <- F2. now apply (in_map (fun c => fp_name (cp_par c))).
    + cbn. rewrite <- E. apply dget_dset_same.
  - destruct (find _ l); [reflexivity|]. cbn. apply dget_dset_other. congruence.
Qed.
Lemma add_spectra_l g c : NoDup (dkeys (sf_pars c)) ->
  let g' := fst (add_sfconfig g c) in
  (forall k p, dget k (sf_pars c) = Some p ->
     dget (sf_spectra c ++ "_" ++ k)%string (gc_pars g') =
       Some (GE (CPar (cp_class p) (fp_rename (sf_spectra c ++ "_" ++ k) (cp_par p))) false)) /\
  (forall n, (forall k, In k (dkeys (sf_pars c)) -> n <> (sf_spectra c ++ "_" ++ k)%string) -> dget n (gc_pars g') = dget n (gc_pars g)).
Proof.
  intros N g'. set (sp := sf_spectra c) in *.
  set (l := map snd (map (rename_par sp) (sf_pars c))).
  assert (NL : map (fun c => fp_name (cp_par c)) l = map (fun k => sp ++ "_" ++ k)%string (dkeys (sf_pars c))).
  { unfold l, dkeys. rewrite !map_map. apply map_ext. reflexivity. }
  assert (ND : NoDup (map (fun c => fp_name (cp_par c)) l)).
  { rewrite NL. apply FinFun.Injective_map_NoDup; [|exact N]. intros x y H. apply sapp_inj_l in H. cbn in H. congruence. }
  assert (G : forall k, dget k (gc_pars g') = match find (fun c => String.eqb (fp_name (cp_par c)) k) l with Some c => Some (GE c false) | None => dget k (gc_pars g) end).
  { intro k. unfold g'. cbn [add_sfconfig fst]. now apply fold_add_get. }
  split.
  - intros k p H. rewrite G. set (q := CPar (cp_class p) (fp_rename (sp ++ "_" ++ k) (cp_par p))).
    assert (I : In q l).
    { unfold l. apply in_map_iff. exists (rename_par sp (k, p)). split; [reflexivity|]. apply in_map. now apply dget_In. }
    destruct (find _ l) as [c'|] eqn:F.
    + apply find_some in F as [F1 F2]. apply String.eqb_eq in F2. f_equal. f_equal.
      clear - ND I F1 F2. assert (NQ : fp_name (cp_par q) = (sp ++ "_" ++ k)%string) by reflexivity.
      rewrite <- NQ in F2. clear NQ. induction l as [|y l IH]; [destruct I|]. cbn in ND. inversion ND as [|? ? N1 N2]; subst.
      destruct I as [->|I], F1 as [->|F1]; [reflexivity| | |auto]; exfalso; apply N1.
      * rewrite <- F2. now apply (in_map (fun c => fp_name (cp_par c))).
      * rewrite F2. now apply (in_map (fun c => fp_name (cp_par c))).
    + exfalso. apply (find_none _ _ F) in I. cbn in I. rewrite String.eqb_refl in I. discriminate.
  - intros n H. rewrite G. destruct (find _ l) as [c'|] eqn:F; [|reflexivity]. exfalso. apply find_some in F as [F1 F2]. apply String.eqb_eq in F2.
    apply (in_map (fun c => fp_name (cp_par c))) in F1. rewrite NL in F1. apply in_map_iff in F1 as (k & K1 & K2). apply (H k K2). congruence.
Qed.

Lemma nodup_app_l {A} (a b : list A) : NoDup (a ++ b) -> NoDup a.
Proof. induction a as [|x a IH]; cbn; intro H; [constructor|]. inversion H; subst. constructor; [|auto]. intro K. apply H2, in_or_app. now left. Qed.
Lemma nodup_app_r {A} (a b : list A) : NoDup (a ++ b) -> NoDup b.
Proof. induction a as [|x a IH]; cbn; intro H; [exact H|]. inversion H; subst. auto. Qed.
Lemma add_global_l g c k : keyed (gc_pars c) ->
  dget k (gc_pars (add_gconfig g c)) = match dget k (gc_pars c) with Some en => Some en | None => dget k (gc_pars g) end.
Proof.
  intros K. assert (D := names_disjoint_l c K). rewrite map_app in D. unfold add_gconfig.
  assert (D1 : NoDup (map (fun c => fp_name (cp_par c)) (get_global_pars c))) by (now apply nodup_app_l in D).
  assert (D2 : NoDup (map (fun c => fp_name (cp_par c)) (get_spectra_pars c))) by (now apply nodup_app_r in D).
  rewrite !fold_add_get by assumption.
  assert (F : forall (b : bool) l, l = map gpar (filter (fun ke => Bool.eqb (ge_global (snd ke)) b) (gc_pars c)) ->
    find (fun c => fp_name (cp_par c) =? k) l =
      match dget k (gc_pars c) with Some en => if Bool.eqb (ge_global en) b then Some (ge_par en) else None | None => None end).
  { intros b l ->. destruct K as [N K]. clear D D1 D2. induction (gc_pars c) as [|[k' en] d IH]; [reflexivity|].
    inversion N as [|? ? N1 N2]; subst. inversion K as [|? ? K1 K2]; subst. cbn [fst snd] in K1. cbn [filter snd dget].
    assert (S : (fp_name (cp_par (ge_par en)) =? k) = (k =? k')%string) by (rewrite <- K1; apply String.eqb_sym).
    destruct (Bool.eqb (ge_global en) b) eqn:B; cbn [map find]; try (change (gpar (k', en)) with (ge_par en)); rewrite ?S.
    - destruct (k =? k')%string eqn:E; [now rewrite B|]. now apply IH.
    - destruct (k =? k')%string eqn:E; [|now apply IH]. rewrite B, IH by assumption. apply String.eqb_eq in E.
      destruct (dget k d) eqn:G; [|reflexivity]. exfalso. apply N1. rewrite <- E. apply dget_In in G. apply (in_map fst) in G. exact G. }
  rewrite (F false (get_spectra_pars c)), (F true (get_global_pars c)).
  - destruct (dget k (gc_pars c)) as [[p []]|]; reflexivity.
  - rewrite global_pars_eq. unfold globals. apply (f_equal (map gpar)),  filter_ext. intros [? [? []]]; reflexivity.
  - rewrite spectra_pars_eq. unfold spectrals. apply (f_equal (map gpar)),  filter_ext. intros [? [? []]]; reflexivity.
Qed.

Lemma globals_nodup g : NoDup (dkeys (gc_pars g)) -> NoDup (map fst (globals (gc_pars g))).
Proof.
  intro N. unfold globals. induction (gc_pars g) as [|[k e] l IH]; [constructor|]. inversion N; subst. cbn.
  destruct (ge_global e); [cbn; constructor; [|auto]|auto]. intro H. apply H1. apply in_map_iff in H as (x & A & B).
  apply filter_In in B. apply in_map_iff. exists x. now split.
Qed.
Lemma globals_alone_l e b g n : NoDup (dkeys (gc_pars g)) -> Forall well_named_entry (gc_pars g) ->
  exists dg ds g', gc_dump b g = Ok (dg, ds) /\ gc_load e dg None n = Ok g' /\
    forall k, dget k (gc_pars g') =
      match dget k (gc_pars g) with
      | Some en => if ge_global en then Some (GE (again b k (ge_par en)) true) else None
      | None => None
      end.
Proof.
  intros N W. destruct (parts _ W) as (A & B & C & P).
  assert (NG := globals_nodup g N).
  unfold gc_dump. rewrite global_pars_eq, (dump_globals_ok b _ A NG). cbn [rbind].
  do 2 eexists. unfold gc_load.
  assert (LD := load_dims_ok e b (globals (gc_pars g)) A (distinct [] (map dim_of (globals (gc_pars g)))) n [] (distinct_nodup _ _)).
  fold (dims_group (globals (gc_pars g))) in LD. cbn [app] in LD.
  assert (PG : Permutation (dims_group (globals (gc_pars g))) (globals (gc_pars g))).
  { apply dims_group_perm. eapply Forall_impl; [|exact A]. intros x (_ & dim & syst & _ & D & _). unfold gpar in D. congruence. }
  assert (NDG : NoDup (dkeys (dims_group (globals (gc_pars g))))).
  { apply (Permutation_NoDup (l := map fst (globals (gc_pars g)))); [|exact NG]. apply Permutation_sym. now apply Permutation_map. }
  assert (ND : NoDup (dkeys (@nil (string * gentry)) ++ map fst (dims_group (globals (gc_pars g))))) by exact NDG.
  specialize (LD ND).
  eexists. split; [reflexivity|]. cbn [dget]. rewrite String.eqb_refl. cbn [jobj rbind]. unfold jdict, dict in LD |- *. rewrite LD. cbn [rbind fst snd].
  split; [reflexivity|]. cbn [gc_pars]. intro k.
  assert (M : forall l, dget k (map (fun ke : string * gentry => (fst ke, GE (again b (fst ke) (gpar ke)) true)) l) =
      option_map (fun en => GE (again b k (ge_par en)) true) (dget k l)).
  { induction l as [|[k' v] l IH]; [reflexivity|]. cbn. destruct (String.eqb_spec k k') as [->|]; [reflexivity|exact IH]. }
  unfold dict in M |- *. rewrite M. rewrite (perm_dget _ _ k PG NG).
  clear - N. unfold globals. induction (gc_pars g) as [|[k' [p []]] l IH]; [reflexivity| |]; inversion N; subst; cbn.
  - destruct (k =? k')%string; [reflexivity|auto].
  - destruct (k =? k')%string eqn:E; [|auto]. apply String.eqb_eq in E. subst k'. rewrite IH by assumption.
    destruct (dget k l) eqn:G; [|reflexivity]. exfalso. apply H1. apply dget_In in G. apply (in_map fst) in G. exact G.
Qed.
Lemma globals_only_l e b g d : get_spectra_pars g = [] -> gc_dump b g = Ok d ->
  Forall well_named_entry (gc_pars g) -> NoDup (dkeys (gc_pars g)) ->
  forall n, gc_load e (fst d) (Some (snd d)) n = Err EKeyError.
Proof.
  intros S D W N n. destruct (globals_alone_l e b g n N W) as (dg & ds & g' & D' & L & _). rewrite D in D'. injection D' as ->.
  cbn [fst snd]. unfold gc_load in *. destruct (dget _ dg); [|discriminate]. destruct (jobj j); [|discriminate]. cbn [rbind] in *.
  destruct (load_dims e (n, []) a); [|discriminate]. cbn [rbind] in *.
  unfold gc_dump in D. destruct (dump_globals b [] _); [|discriminate]. cbn [rbind] in D. injection D as _ <-. rewrite S. reflexivity.
Qed.

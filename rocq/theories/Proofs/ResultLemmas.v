(** Fit results and limit results in files. *)
From Coq Require Import Lia.
From Verif Require Import Model.Base Model.PyStr Model.NDArray Model.Param Model.Config Model.Spectra.
From Verif Require Import Model.FitParam Model.FitConfig Model.Minimise Model.Store.
From Verif Require Import Spec.ArraySpec Spec.ConfigSpec Spec.StoreSpec.
From Verif Require Import Proofs.NDArrayLemmas Proofs.DictLemmas Proofs.ConfigLemmas Proofs.StoreLemmas Proofs.MinimiseLemmas Proofs.FileLemmas.
Local Open Scope string_scope.
Local Open Scope list_scope.

Lemma fit_shape_again l : fit_shape (map (fun ke => cp_par (ge_par (snd ke))) (map (again_entry false) l)) =
  fit_shape (map (fun ke : string * gentry => cp_par (ge_par (snd ke))) l).
Proof. unfold fit_shape. now rewrite !map_map. Qed.
Lemma app_neq (a b : list nat) : b <> [] -> idx_eqb (a ++ b) a = false.
Proof.
  intro N. destruct (idx_eqb (a ++ b) a) eqn:E; [|reflexivity]. exfalso. apply idx_eqb_eq in E. apply N.
  rewrite <- (app_nil_r a) in E at 2. now apply app_inv_head in E.
Qed.
Lemma dget_member_put k h r : ~ In k (dkeys (r_members r)) -> dget k (r_members (put k h r)) = Some h.
Proof. intro N. rewrite member_put. apply dget_none in N. now rewrite N. Qed.

Lemma fit_results_l e f fr append f' : dump_fit_results f fr append = (f', None) ->
  consistent fr -> good_config (fr_fit fr) -> get_spectra_pars (fr_fit fr) <> [] -> sbuilt (fr_spec fr) -> fr_spec fr <> [] ->
  exists fr', load_fit_results e f' = Ok fr' /\
    gs_name (fr_search fr') = gs_name (fr_search fr) /\ gs_resets (fr_search fr') = gs_resets (fr_search fr) /\
    gs_per_bin (fr_search fr') = gs_per_bin (fr_search fr) /\ gs_stats (fr_search fr') = gs_stats (fr_search fr) /\
    gs_pen (fr_search fr') = gs_pen (fr_search fr) /\ fr_spec fr' = fr_spec fr /\ fr_spec_name fr' = fr_spec_name fr /\
    gc_pars (fr_fit fr') = map (again_entry false) (gc_pars (fr_fit fr)) /\ consistent fr'.
Proof.
  intros D (C1 & C2 & C3 & C4) (G1 & G2 & G3) SP SB SN.
  unfold dump_fit_results in D. destruct (str_in _ _) eqn:I; [discriminate|]. apply str_in_false in I.
  destruct (gs_name (fr_search fr)) as [name|] eqn:NM; [|discriminate].
  destruct (gc_roundtrip e false (fr_fit fr) (gc_name (fr_fit fr)) G1 G2 SP) as (dg & ds & g' & GD & GL & GP).
  rewrite GD in D. destruct (create_datasets [] _) as [m [x|]] eqn:CD; [discriminate|]. injection D as <-.
  assert (M : m = [("penalty_terms", HData (gs_pen (fr_search fr))); ("stats", HData (gs_stats (fr_search fr)))]).
  { cbn in CD. destruct (filterable _); [|discriminate]. cbn in CD. destruct (filterable _); [|discriminate]. now injection CD as <-. }
  subst m. red in G3. rewrite G3 in GP.
  assert (FS : fit_shape (gc_fpars g') = fit_shape (gs_pars (fr_search fr))).
  { rewrite C1. unfold gc_fpars. rewrite GP. apply fit_shape_again. }
  assert (SS : spec_shape (fr_spec fr) <> []).
  { unfold spec_shape, get_shape. destruct (fr_spec fr); [congruence|discriminate]. }
  assert (PB : (if idx_eqb (ashape (gs_stats (fr_search fr))) (fit_shape (gc_fpars g')) then Ok false
       else if idx_eqb (ashape (gs_stats (fr_search fr))) (fit_shape (gc_fpars g') ++ spec_shape (fr_spec fr)) then Ok true
       else Err EValueError) = Ok (gs_per_bin (fr_search fr))).
  { rewrite FS, C4, C2. destruct (gs_per_bin (fr_search fr)).
    - rewrite (app_neq _ _ SS), idx_eqb_refl. reflexivity.
    - now rewrite idx_eqb_refl. }
  unfold load_fit_results. unfold get_group, dlookup. rewrite (dget_member_put _ _ _ I). cbn [rbind fst snd].
  unfold attr_str, attr_json, attr_json2, attr_int, attr, dlookup, get_data, dlookup.
  cbn [app dget String.eqb Ascii.eqb Bool.eqb rbind fst snd].
  rewrite (sc_roundtrip _ SN (sbuilt_nodup _ SB)). cbn [rbind]. rewrite GL. cbn [rbind]. rewrite PB. cbn [rbind].
  unfold new_results, set_stats. cbn [fr_search new_search gs_stats ashape azeros].
  assert (SE : shape_eqb (ashape (gs_stats (fr_search fr)))
      (if gs_per_bin (fr_search fr) then fit_shape (gc_fpars g') ++ spec_shape (fr_spec fr) else fit_shape (gc_fpars g')) = true).
  { rewrite C4, FS, C2. apply idx_eqb_refl. }
  unfold shape_eqb in *. rewrite SE. unfold gs_with. cbn [rbind gs_pars gs_name gs_resets gs_per_bin gs_use_numpy gs_spec gs_stats gs_pen new_search]. unfold set_penalty_terms, shape_eqb. cbn [gs_pars].
  rewrite C3, FS, idx_eqb_refl. cbn [rbind]. eexists. split; [reflexivity|].
  unfold consistent, gs_with_resets, gs_with. cbn [fr_search fr_fit fr_spec fr_spec_name gs_pars gs_name gs_resets gs_per_bin gs_use_numpy gs_spec gs_stats gs_pen].
  rewrite Nat2Z.id. repeat split; auto.
  - now rewrite FS.
  - now rewrite C4, FS, C2.
Qed.
Lemma fit_no_name_l f fr append : gs_name (fr_search fr) = None -> exists x, snd (dump_fit_results f fr append) = Some x.
Proof. intro N. unfold dump_fit_results. destruct (str_in _ _); [eexists; reflexivity|]. rewrite N. eexists; reflexivity. Qed.
Lemma fit_no_spectral_l e f fr append f' : dump_fit_results f fr append = (f', None) -> sbuilt (fr_spec fr) ->
  Forall well_named_entry (gc_pars (fr_fit fr)) -> NoDup (dkeys (gc_pars (fr_fit fr))) ->
  get_spectra_pars (fr_fit fr) = [] -> load_fit_results e f' = Err EKeyError.
Proof.
  intros D SB W N SP. unfold dump_fit_results in D. destruct (str_in _ _) eqn:I; [discriminate|]. apply str_in_false in I.
  destruct (gs_name (fr_search fr)) as [name|] eqn:NM; [|discriminate].
  destruct (gc_dump false (fr_fit fr)) as [[dg ds]|] eqn:GD; [|discriminate].
  destruct (create_datasets [] _) as [m [x|]] eqn:CD; [discriminate|]. injection D as <-.
  unfold load_fit_results. unfold get_group, dlookup. rewrite (dget_member_put _ _ _ I). cbn [rbind fst snd].
  unfold attr_str, attr_json, attr_json2, attr_int, attr, dlookup, get_data, dlookup.
  cbn [app dget String.eqb Ascii.eqb Bool.eqb rbind fst snd].
  destruct (fr_spec fr) as [|sp0 spc] eqn:SN; [reflexivity|].
  rewrite sc_roundtrip by (try discriminate; now apply sbuilt_nodup). cbn [rbind].
  pose proof (globals_only_l e false (fr_fit fr) (dg, ds) SP GD W N (gc_name (fr_fit fr))) as X. cbn [fst snd] in X. now rewrite X.
Qed.

(** ** Limit results *)
Lemma create_ok : forall l m m', create_datasets m l = (m', None) -> m' = m ++ map (fun ka => (fst ka, HData (snd ka))) l.
Proof.
  induction l as [|[k a] l IH]; intros m m' H; cbn in H.
  - injection H as <-. now rewrite app_nil_r.
  - destruct (filterable a); [|discriminate]. apply IH in H. rewrite H, <- app_assoc. reflexivity.
Qed.
Lemma aany_false a : aany a = false -> same_array a (azeros (ashape a)).
Proof.
  intro H. split; [reflexivity|]. intros i V. cbn. unfold aany in H.
  assert (I : In i (c_order (ashape a))) by (rewrite c_order_all; now apply all_idx_valid).
  destruct (qeq (aget a i) 0) eqn:E.
  - now apply Qc_eq_bool_correct in E.
  - exfalso. assert (X : existsb (fun i => negb (qeq (aget a i) 0)) (c_order (ashape a)) = true).
    { apply existsb_exists. exists i. split; [exact I|]. now rewrite E. }
    congruence.
Qed.
Lemma dget_app {A} k (a b : dict A) : dget k (a ++ b) = match dget k a with Some v => Some v | None => dget k b end.
Proof. induction a as [|[k' v] a IH]; cbn; [reflexivity|]. destruct (String.eqb k k'); auto. Qed.

Lemma globals_alone_list e b g n : NoDup (dkeys (gc_pars g)) -> Forall well_named_entry (gc_pars g) -> get_spectra_pars g = [] ->
  exists dg ds g', gc_dump b g = Ok (dg, ds) /\ gc_load e dg None n = Ok g' /\
    gc_pars g' = map (again_entry b) (by_dimension (gc_pars g)).
Proof.
  intros N W SP. destruct (parts _ W) as (A & B & C & P).
  assert (NG := globals_nodup g N).
  unfold gc_dump. rewrite global_pars_eq, (dump_globals_ok b _ A NG). cbn [rbind].
  do 2 eexists. unfold gc_load.
  assert (LD := load_dims_ok e b (globals (gc_pars g)) A (distinct [] (map dim_of (globals (gc_pars g)))) n [] (distinct_nodup _ _)).
  fold (dims_group (globals (gc_pars g))) in LD. cbn [app] in LD.
  assert (PG : Permutation.Permutation (dims_group (globals (gc_pars g))) (globals (gc_pars g))).
  { apply dims_group_perm. eapply Forall_impl; [|exact A]. intros x (_ & dim & syst & _ & D & _). unfold gpar in D. congruence. }
  assert (NDG : NoDup (dkeys (dims_group (globals (gc_pars g))))).
  { apply (Permutation.Permutation_NoDup (l := map fst (globals (gc_pars g)))); [|exact NG]. apply Permutation.Permutation_sym. now apply Permutation.Permutation_map. }
  assert (ND : NoDup (dkeys (@nil (string * gentry)) ++ map fst (dims_group (globals (gc_pars g))))) by exact NDG.
  specialize (LD ND).
  eexists. split; [reflexivity|]. cbn [dget]. rewrite String.eqb_refl. cbn [jobj rbind]. unfold jdict, dict in LD |- *. rewrite LD. cbn [rbind fst snd].
  split; [reflexivity|]. cbn [gc_pars]. rewrite by_dim_eq.
  rewrite spectra_pars_eq in SP. apply map_eq_nil in SP. rewrite SP, app_nil_r.
  apply map_ext_in. intros ke H. apply (Permutation.Permutation_in _ PG) in H. apply filter_In in H as [_ H]. unfold again_entry. now rewrite H.
Qed.
Lemma limit_config_l e g n : good_config g ->
  exists dg ds sp g', gc_dump false g = Ok (dg, ds) /\ dlookup "spectral_fit_parameters" ds = Ok sp /\
    gc_load e dg (match sp with JObj [] => None | _ => Some ds end) n = Ok g' /\
    gc_pars g' = map (again_entry false) (gc_pars g).
Proof.
  intros (N & W & O). red in O. destruct (get_spectra_pars g) as [|c l] eqn:SP.
  - destruct (globals_alone_list e false g n N W SP) as (dg & ds & g' & D & L & P). exists dg, ds, (JObj []), g'.
    rewrite O in P. repeat split; auto. unfold gc_dump in D. destruct (dump_globals _ _ _); [|discriminate]. cbn [rbind] in D.
    injection D as _ <-. rewrite SP. reflexivity.
  - destruct (gc_roundtrip e false g n N W) as (dg & ds & g' & D & L & P); [now rewrite SP|]. rewrite O in P.
    unfold gc_dump in D. destruct (dump_globals false [] (get_global_pars g)) as [d|] eqn:DG; [|discriminate]. cbn [rbind] in D.
    injection D as E1 E2. exists dg, ds, (JObj (dump_spectral false (get_spectra_pars g))), g'. split.
    { unfold gc_dump. rewrite DG. cbn [rbind]. now rewrite <- E1, <- E2. }
    split; [now rewrite <- E2|]. split; [|exact P].
    destruct (dump_spectral false (get_spectra_pars g)) eqn:DS; [|exact L].
    exfalso. rewrite <- E2 in L. unfold gc_load in L. destruct (dget _ dg); [|discriminate]. destruct (jobj j); [|discriminate]. cbn [rbind] in L.
    destruct (load_dims e (n, []) a); [|discriminate]. cbn in L. discriminate.
Qed.
(** [set_best] changes nothing but best fits. *)
Lemma set_best_drop row g : map drop_best (gc_pars (set_best row g)) = map drop_best (gc_pars g).
Proof.
  unfold set_best. cbn [gc_pars]. rewrite map_map. generalize 0%nat as s. induction (gc_pars g) as [|[k en] l IH]; intro s; [reflexivity|].
  cbn [length seq combine map]. rewrite IH. f_equal.
Qed.
Lemma set_best_length row g : length (gc_pars (set_best row g)) = length (gc_pars g).
Proof. pose proof (f_equal (@length _) (set_best_drop row g)) as H. now rewrite !map_length in H. Qed.
Lemma set_best_nth row g j p : nth_error (gc_fpars (set_best row g)) j = Some p -> fp_best p = Some (nth j row 0%Qc) /\ (j < length (gc_pars g))%nat.
Proof.
  unfold gc_fpars, set_best. cbn [gc_pars]. rewrite map_map.
  assert (G : forall l s i, nth_error (map (fun x : nat * (string * gentry) =>
      cp_par (ge_par (snd (let '(j, (k, e)) := x in (k, GE (CPar (cp_class (ge_par e)) (set_best_fit (nth j row 0%Qc) (cp_par (ge_par e)))) (ge_global e))))))
      (combine (seq s (length l)) l)) i = Some p -> fp_best p = Some (nth (s + i) row 0%Qc) /\ (i < length l)%nat).
  { induction l as [|[k en] l IH]; intros s i H; [destruct i; discriminate|]. cbn [length seq combine map] in H. destruct i as [|i].
    - cbn in H. injection H as <-. rewrite Nat.add_0_r. split; [reflexivity|cbn; lia].
    - cbn [nth_error] in H. apply IH in H as [H1 H2]. rewrite Nat.add_succ_comm in H1. split; [exact H1|cbn; lia]. }
  intro H. apply (G _ 0%nat) in H. exact H.
Qed.

(** The groups of the fit results. *)
Definition one_fit (o : option gsearch) : hobj :=
  match o with
  | None => HGroup [("exists", ANum 0)] []
  | Some gs => HGroup [("exists", ANum 1); ("resets", AInt (Z.of_nat (gs_resets gs)))]
                 [("penalty_terms", HData (gs_pen gs)); ("stats", HData (gs_stats gs))]
  end.
Lemma fit_groups_ok dec : forall l i m, fit_groups dec i l = Ok m -> (forall i j, dec i = dec j -> i = j) ->
  forall k o, nth_error l k = Some o -> dget (dec (i + k)) m = Some (one_fit o).
Proof.
  induction l as [|o l IH]; intros i m H D k o' K; [destruct k; discriminate|]. cbn [fit_groups] in H.
  assert (X : exists r, fit_groups dec (S i) l = Ok r /\ m = (dec i, one_fit o) :: r).
  { destruct o as [gs|].
    - destruct (create_datasets [] _) as [mm [x|]] eqn:CD; [discriminate|]. apply create_ok in CD. cbn [rbind] in H.
      destruct (fit_groups dec (S i) l) as [r|]; [|discriminate]. cbn [rbind] in H. injection H as <-. exists r. split; [reflexivity|]. now rewrite CD.
    - cbn [rbind] in H. destruct (fit_groups dec (S i) l) as [r|]; [|discriminate]. cbn [rbind] in H. injection H as <-. eauto. }
  destruct X as (r & R & ->). destruct k as [|k]; cbn [nth_error] in K.
  - injection K as ->. rewrite Nat.add_0_r. cbn. now rewrite String.eqb_refl.
  - cbn [dget]. destruct (String.eqb_spec (dec (i + S k)) (dec i)) as [E|_]; [apply D in E; lia|].
    rewrite Nat.add_succ_r, <- Nat.add_succ_l. now apply (IH (S i) r R D).
Qed.
Lemma load_fits_ok dec m best c n fname (fits : list (option gsearch)) :
  length fits = n -> (forall i o, nth_error fits i = Some o -> dget (dec i) m = Some (one_fit o)) ->
  forall is g, (forall i, In i is -> (i < n)%nat) -> hd 0%nat (ashape best) = n -> nth 1 (ashape best) 0%nat = length (gc_pars g) ->
  exists g' r, load_fits dec m best c n fname is g = Ok (g', r) /\
    map drop_best (gc_pars g') = map drop_best (gc_pars g) /\
    forall i, In i is -> match nth_error fits i with
      | None => False
      | Some o => fit_again_at best i o (match find (fun ig => Nat.eqb (fst ig) i) r with Some ig => Some (snd ig) | None => None end)
      end.
Proof.
  intros Ln Hm. induction is as [|i is IH]; intros g Hi H0 H1.
  - exists g, []. split; [reflexivity|]. split; [reflexivity|]. intros i [].
  - assert (Li : (i < n)%nat) by (apply Hi; now left). cbn [load_fits].
    destruct (nth_error fits i) as [o|] eqn:Eo; [|apply nth_error_None in Eo; lia].
    unfold get_group, dlookup. rewrite (Hm i o Eo). destruct o as [gs|]; cbn [one_fit rbind fst snd].
    + unfold attr_num, attr_int, attr, dlookup, get_data, dlookup. cbn [dget String.eqb Ascii.eqb Bool.eqb rbind].
      replace (qeq 1 1) with true by reflexivity. cbn iota.
      set (g1 := set_best (row best i) g).
      replace ((0 <? length (gc_pars g))%nat && ((hd 0%nat (ashape best) <=? i)%nat || (nth 1 (ashape best) 0%nat <? length (gc_pars g))%nat))%bool with false.
      2: { symmetry. apply andb_false_intro2. apply orb_false_intro; [apply Nat.leb_gt|apply Nat.ltb_ge]; lia. }
      destruct (Nat.leb_spec n i); [lia|].
      destruct (IH g1) as (g' & r & L & Dg & F); [intros; apply Hi; now right|exact H0|unfold g1; now rewrite set_best_length|].
      rewrite L. cbn [rbind fst snd]. do 2 eexists. split; [reflexivity|]. split; [rewrite Dg; apply set_best_drop|].
      intros i' I'. cbn [find fst]. destruct (Nat.eqb_spec i i') as [<-|N].
      * rewrite Eo. cbn [snd fit_again_at]. unfold gs_with_resets, gs_with. cbn [gs_stats gs_pen gs_resets gs_pars new_search].
        rewrite Nat2Z.id. repeat split. intros j p Hp. cbn in Hp. fold (gc_fpars (set_best (row best i) g)) in Hp.
        apply set_best_nth in Hp as [P1 P2]. exists (aget best [i; j]). split; [|reflexivity]. rewrite P1. f_equal.
        unfold row. rewrite (nth_indep _ 0%Qc (aget best [i; 0%nat])) by (rewrite map_length, seq_length; lia).
        rewrite (map_nth (fun j => aget best [i; j])), seq_nth by lia. reflexivity.
      * destruct I' as [|I']; [congruence|]. now apply F.
    + unfold attr_num, attr, dlookup. cbn [dget String.eqb Ascii.eqb Bool.eqb rbind].
      replace (qeq 0 1) with false by reflexivity. cbn iota.
      destruct (IH g) as (g' & r & L & Dg & F); [intros; apply Hi; now right|exact H0|exact H1|].
      exists g', r. split; [exact L|]. split; [exact Dg|]. intros i' [<-|I']; [|now apply F].
      rewrite Eo. destruct (In_dec Nat.eq_dec i is) as [I|NI]; [specialize (F i I); now rewrite Eo in F|].
      destruct (find _ r) as [ig|] eqn:Fi; [|exact I]. exfalso.
      apply find_some in Fi as [F1 F2]. apply Nat.eqb_eq in F2.
      assert (K : forall is g g' r, load_fits dec m best c n fname is g = Ok (g', r) -> forall ig, In ig r -> In (fst ig) is).
      { clear. induction is as [|i is IH]; intros g g' r H ig I; cbn in H; [injection H as _ <-; destruct I|].
        destruct (get_group _ _); [|discriminate]. cbn [rbind] in H. destruct (attr_num _ _); [|discriminate]. cbn [rbind] in H.
        destruct (qeq _ _); [|right; eapply IH; eauto].
        repeat (match type of H with context [rbind ?x _] => destruct x eqn:?; cbn [rbind] in H; [|discriminate] | context [if ?b then _ else _] => destruct b; [discriminate|] end).
        all: try discriminate.
        injection H as _ <-. destruct I as [<-|I]; [now left|]. right.
        match goal with X : load_fits _ _ _ _ _ _ _ _ = Ok ?p |- _ => destruct p as [g2 r2]; eapply IH; [exact X|exact I] end. }
      apply NI. rewrite <- F2. eapply K; eauto.
Qed.
Lemma fit_groups_keys dec : forall l i m, fit_groups dec i l = Ok m -> forall k', In k' (dkeys m) -> exists j, k' = dec j.
Proof.
  induction l as [|o l IH]; intros i m H k' K; cbn in H; [injection H as <-; destruct K|].
  match type of H with rbind ?x _ = _ => destruct x; [|discriminate] end. cbn [rbind] in H.
  destruct (fit_groups dec (S i) l) eqn:F; [|discriminate]. cbn [rbind] in H. injection H as <-. destruct K as [<-|K]; [exists i; reflexivity|eapply IH; eauto].
Qed.
Lemma place_nth n r i : (i < n)%nat -> nth_error (place n r) i = Some (match find (fun ig => Nat.eqb (fst ig) i) r with Some ig => Some (snd ig) | None => None end).
Proof. intro H. unfold place. rewrite nth_error_map. replace (nth_error (seq 0 n) i) with (Some i); [reflexivity|].
  symmetry. rewrite (nth_error_nth' _ 0%nat) by (now rewrite seq_length). now rewrite seq_nth. Qed.
Lemma place_length n r : length (place n r) = n.
Proof. unfold place. now rewrite map_length, seq_length. Qed.
Lemma same_refl a : same_array a a. Proof. split; auto. Qed.

Lemma limit_results_l dec e f lr append f' : dump_limit_results dec f lr append = (f', None) ->
  limit_consistent lr -> good_config (lr_fit lr) -> good_dec dec -> sbuilt (lr_spec lr) -> lr_spec lr <> [] ->
  NoDup (dkeys (sf_pars (lr_limit lr))) -> Forall rate_entry (sf_pars (lr_limit lr)) ->
  exists lr', load_limit_results dec e f' = Ok lr' /\
    lr_name lr' = lr_name lr /\ lr_spec lr' = lr_spec lr /\ lr_spec_name lr' = lr_spec_name lr /\
    lr_limit lr' = SFC (sf_name (lr_limit lr)) (sf_spectra (lr_limit lr)) (map (fun kp => (fst kp, again false (fst kp) (snd kp))) (sf_pars (lr_limit lr))) /\
    map drop_best (gc_pars (lr_fit lr')) = map drop_best (map (again_entry false) (gc_pars (lr_fit lr))) /\
    lr_stats lr' = lr_stats lr /\ same_array (lr_pen lr) (lr_pen lr') /\ same_array (lr_best lr) (lr_best lr') /\
    length (lr_fits lr') = length (lr_fits lr) /\
    forall i o o', nth_error (lr_fits lr) i = Some o -> nth_error (lr_fits lr') i = Some o' -> fit_again_at (lr_best lr') i o o'.
Proof.
  intros D [(rate & n & sub & R & En & S1 & S2 & S3 & S4) _] GC_ [DI DN] SB SN LN LR_.
  unfold dump_limit_results in D. destruct (str_in _ _) eqn:I; [discriminate|]. apply str_in_false in I.
  destruct (limit_group dec lr) as [h|] eqn:LG; [|discriminate]. injection D as <-.
  unfold limit_group in LG.
  destruct (limit_config_l e (lr_fit lr) (gc_name (lr_fit lr)) GC_) as (dg & ds & sp & g' & GD & SP & GL & GP).
  rewrite GD in LG. cbn [rbind fst snd] in LG.
  set (l := (if aany (lr_pen lr) then [("penalty_terms", lr_pen lr)] else []) ++
            (if aany (lr_best lr) then [("best_fits", lr_best lr)] else []) ++ [("stats", lr_stats lr)]) in *.
  destruct (create_datasets [] l) as [m [x|]] eqn:CD; [discriminate|]. apply create_ok in CD. cbn [app] in CD.
  assert (LNE : sf_pars (lr_limit lr) <> []) by (destruct (sf_pars (lr_limit lr)); [discriminate|congruence]).
  assert (SL := sf_roundtrip e false (lr_limit lr) LNE LN LR_).
  assert (NL : forall g c cn nm, gc_get_pars g = gc_get_pars (lr_fit lr) ->
     new_limit_results g c cn (SFC (sf_name (lr_limit lr)) (sf_spectra (lr_limit lr)) (map (fun kp => (fst kp, again false (fst kp) (snd kp))) (sf_pars (lr_limit lr)))) nm =
     Ok (LR nm g c cn (SFC (sf_name (lr_limit lr)) (sf_spectra (lr_limit lr)) (map (fun kp => (fst kp, again false (fst kp) (snd kp))) (sf_pars (lr_limit lr))))
           (azeros [n]) (azeros (ashape (lr_pen lr))) (azeros (ashape (lr_best lr))) (repeat None n))).
  { intros g c cn nm Eg. unfold new_limit_results, dlookup. cbn [sf_pars].
    assert (X : forall d : dict cpar, dget "rate" (map (fun kp => (fst kp, again false (fst kp) (snd kp))) d) = option_map (again false "rate") (dget "rate" d)).
    { induction d as [|[k v] d IH]; [reflexivity|]. cbn [map dget fst snd].
      destruct (String.eqb_spec "rate" k) as [<-|]; [reflexivity|exact IH]. }
    rewrite X, R. cbn [option_map rbind again cp_par cp_class reread fp_bins]. rewrite Eg, S2, S3, En. reflexivity. }
  assert (EP : gc_get_pars g' = gc_get_pars (lr_fit lr)).
  { unfold gc_get_pars, dkeys. rewrite GP, map_map. reflexivity. }
  assert (D1 : get_data "stats" m = Ok (lr_stats lr) /\ same_array (lr_pen lr) (data_or "penalty_terms" m (azeros (ashape (lr_pen lr)))) /\
               same_array (lr_best lr) (data_or "best_fits" m (azeros (ashape (lr_best lr))))).
  { subst m l. destruct (aany (lr_pen lr)) eqn:A1, (aany (lr_best lr)) eqn:A2; unfold data_or, get_data, dlookup; cbn;
      (split; [reflexivity|split; (apply same_refl || now apply aany_false)]). }
  assert (HM : exists fe subs, h = HGroup ([("name", AStr (lr_name lr)); ("spectra_config", AJson (JObj (sc_dump (lr_spec lr))));
            ("spectra_config_name", AStr (lr_spec_name lr));
            ("fit_config", AJson2 dg ds); ("fit_config_name", AStr (gc_name (lr_fit lr)));
            ("limit_config", AJson (JObj (sf_dump false (lr_limit lr))));
            ("limit_config_name", AStr (sf_name (lr_limit lr)));
            ("limit_config_spectra_name", AStr (sf_spectra (lr_limit lr)))] ++ [("fits_exist", ANum (if fe : bool then 1 else 0)%Qc)]) (m ++ subs) /\
          (if fe then (forall k, In k (dkeys subs) -> exists j, k = dec j) /\
                   forall i o, nth_error (lr_fits lr) i = Some o -> dget (dec i) subs = Some (one_fit o) else
             subs = [] /\ forall o, In o (lr_fits lr) -> o = None)).
  { destruct (existsb _ (lr_fits lr)) eqn:EX.
    - destruct (fit_groups dec 0 (lr_fits lr)) as [subs|] eqn:FG; [|discriminate]. cbn [rbind] in LG. injection LG as <-.
      exists true, subs. split; [reflexivity|]. split; [exact (fit_groups_keys dec _ _ _ FG)|]. intros i o H. exact (fit_groups_ok dec _ 0 _ FG DI i o H).
    - injection LG as <-. exists false, []. rewrite app_nil_r. split; [reflexivity|]. split; [reflexivity|]. intros o H.
      destruct o; [|reflexivity]. exfalso. assert (X : existsb (fun o : option gsearch => match o with Some _ => true | None => false end) (lr_fits lr) = true).
      { apply existsb_exists. eexists. split; [exact H|reflexivity]. } congruence. }
  destruct HM as (fe & subs & -> & HS). destruct D1 as (D1 & D2 & D3).
  assert (DK : forall k, dget k m <> None -> dget k (m ++ subs) = dget k m) by (intros k H; rewrite dget_app; destruct (dget k m); congruence).
  assert (DKo : forall k d, (k = "penalty_terms" \/ k = "best_fits") -> data_or k (m ++ subs) d = data_or k m d).
  { intros k d Hk. unfold data_or, get_data, dlookup. rewrite dget_app. destruct (dget k m) eqn:Ek; [reflexivity|].
    assert (Hs : dget k subs = None).
    { destruct fe; [|destruct HS as [-> _]; reflexivity].
      apply dget_none. intro Q. destruct HS as [HS _]. destruct (HS _ Q) as [j Ej]. destruct (DN j) as (N1 & N2 & N3). destruct Hk; congruence. }
    now rewrite Hs. }
  assert (DKs : get_data "stats" (m ++ subs) = Ok (lr_stats lr)).
  { unfold get_data, dlookup in *. rewrite DK; [exact D1|]. intro Z. rewrite Z in D1. discriminate. }
  unfold load_limit_results. unfold get_group, dlookup. rewrite (dget_member_put _ _ _ I). cbn [rbind fst snd].
  unfold attr_str, attr_json, attr_json2, attr_num, attr. unfold dlookup at 1 2 3 4 5.
  cbn [app dget String.eqb Ascii.eqb Bool.eqb rbind fst snd].
  rewrite (sc_roundtrip _ SN (sbuilt_nodup _ SB)). cbn [rbind]. unfold dlookup in SP. rewrite SP. cbn [rbind]. rewrite GL. cbn [rbind].
  unfold dlookup. cbn [app dget String.eqb Ascii.eqb Bool.eqb rbind fst snd].
  rewrite SL. cbn [rbind]. rewrite NL by exact EP. cbn [rbind lr_pen lr_best lr_fits].
  rewrite DKs, !DKo by auto. cbn [rbind]. rewrite repeat_length.
  set (best := data_or "best_fits" m (azeros (ashape (lr_best lr)))) in *.
  assert (B0 : ashape best = [n; length (gc_pars g')]).
  { destruct D3 as [D3 _]. rewrite <- D3, S3. unfold gc_get_pars, dkeys. rewrite map_length. apply (f_equal (@length _)) in GP. rewrite map_length in GP. now rewrite GP. }
  destruct fe.
  - replace (qeq 1 1) with true by reflexivity. cbn iota. rewrite S1.
    assert (HSm : forall i o, nth_error (lr_fits lr) i = Some o -> dget (dec i) (m ++ subs) = Some (one_fit o)).
    { intros i o H. rewrite dget_app. replace (dget (dec i) m) with (@None hobj); [now apply (proj2 HS)|]. symmetry.
      destruct (DN i) as (N1 & N2 & N3). apply dget_none. intro Q. subst m l. apply in_map_iff in Q as ([k v] & Q1 & Q2). cbn in Q1. subst k.
      apply in_map_iff in Q2 as ([k v'] & Q1 & Q2). cbn in Q1. injection Q1 as -> _. 
      destruct (aany (lr_pen lr)), (aany (lr_best lr)); cbn in Q2; intuition congruence. }
    destruct (load_fits_ok dec (m ++ subs) best (lr_spec lr) n (gc_name (lr_fit lr)) (lr_fits lr) S4 HSm (seq 0 n) g') as (g2 & r & L & Dg & F).
    { intros i Hi. apply in_seq in Hi. lia. } { now rewrite B0. } { now rewrite B0. }
    rewrite L. cbn [rbind fst snd]. eexists. split; [reflexivity|]. cbn [lr_name lr_spec lr_spec_name lr_limit lr_fit lr_stats lr_pen lr_best lr_fits].
    repeat split; auto; try apply D2; try apply D3; try (rewrite Dg, GP; reflexivity).
    { now rewrite place_length. }
    intros i o o' H1 H2. assert (Hi : (i < n)%nat) by (rewrite <- S4; apply nth_error_Some; congruence).
    rewrite place_nth in H2 by exact Hi. injection H2 as <-. specialize (F i). rewrite H1 in F. apply F. apply in_seq. lia.
  - replace (qeq 0 1) with false by reflexivity. cbn [rbind fst snd]. eexists. split; [reflexivity|].
    cbn [lr_name lr_spec lr_spec_name lr_limit lr_fit lr_stats lr_pen lr_best lr_fits].
    repeat split; auto; try apply D2; try apply D3; try (rewrite GP; reflexivity).
    { now rewrite place_length. }
    intros i o o' H1 H2. assert (Hi : (i < n)%nat) by (rewrite <- S4; apply nth_error_Some; congruence).
    rewrite place_nth in H2 by exact Hi. injection H2 as <-. destruct HS as [_ HS]. rewrite (HS o) by (eapply nth_error_In; eauto). exact Logic.I.
Qed.

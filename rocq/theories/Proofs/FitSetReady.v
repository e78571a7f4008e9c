(** A fit that has been made meets the hypotheses of C52. *)
From Coq Require Import Lia Permutation.
From Verif Require Import Model.Base Model.PyStr Model.NDArray Model.Param Model.Config Model.Spectra Model.Smear Model.Shift Model.Heap Model.Minimise Model.Fit Model.FitPrepare.
From Verif Require Import Spec.AxisSpec Spec.ArraySpec Spec.SpectraSpec Spec.ShrinkSpec Spec.HeapSpec Spec.FitRunSpec Spec.FitSetSpec.
From Verif Require Import Proofs.QcLemmas Proofs.NDArrayLemmas Proofs.StrLemmas Proofs.DictLemmas Proofs.ParamLemmas
  Proofs.ShrinkProps Proofs.OpsLemmas Proofs.ExtLemmas Proofs.HeapLemmas Proofs.FitLemmas Proofs.FitPrep Proofs.RoiLemmas Proofs.FitSetLemmas.

Lemma region_ready roi d d' s s' : restrictable roi d -> restrictable roi s -> alike roi (s_cfg d) (s_cfg s) -> in_region roi d d' -> in_region roi s s' -> fit_ready d' s'.
Proof.
  intros Rd Rs L Id Is. pose proof (region_restrictable roi s s' Rs Is) as (W & (Ne & Al & N & T) & _). split; [exact W|]. split; [exact Ne|]. split; [exact Al|].
  split; [|split; [exact N|exact T]]. destruct Id as (Wd & Kd & _), Is as (_ & Ks & _).
  apply (fits_cut roi (s_cfg d') (s_cfg s)); [apply Wd|apply W|exact (alike_fits roi _ _ _ L Kd)|exact Ks].
Qed.
Lemma bg_same s s' : s_name s' = s_name s -> s_bg s' = s_bg s -> snd (get_background_name s') = snd (get_background_name s).
Proof.
  intros E1 E2. unfold get_background_name. rewrite E1, E2. destruct (s_bg s) as [[|a b]|]; repeat match goal with |- context [if ?b then _ else _] => destruct b end; reflexivity.
Qed.
Lemma restricted_name roi h h' r : restricted roi h h' r -> bg_name h' r = bg_name h r.
Proof.
  intros (s & s' & A & A' & (_ & _ & st & _ & B)). unfold bg_name, name_of. cbn. rewrite A, A'. destruct B as (_ & _ & E1 & E2 & _). now rewrite (bg_same s s' E1 E2).
Qed.
Lemma parts_refs l owns pss : length owns = length l -> length pss = length l -> map pt_ref (map (fun x : nat * list nat * list string => Part (fst (fst x)) (snd (fst x)) (snd x)) (combine (combine l owns) pss)) = l.
Proof.
  revert owns pss. induction l as [|r l IH]; intros [|o owns] [|ps pss] H K; try discriminate; [reflexivity|]. cbn. f_equal. apply IH; cbn in *; congruence.
Qed.
Lemma name_ref h p : name_of h p = bg_name h (pt_ref p).
Proof. reflexivity. Qed.
Lemma names_refs h l : map (name_of h) l = map (bg_name h) (map pt_ref l).
Proof. rewrite map_map. reflexivity. Qed.

Lemma ready_l roi h z d fixed floating signal str pars owns dp :
  fit_made roi h (Some d) fixed floating signal z -> z_data z = Some (d, dp) -> floating <> [] -> length owns = length floating ->
  NoDup (cfgs_of h (d :: map fst fixed ++ floating ++ ol signal)) -> Forall (can roi h) (d :: map fst fixed ++ floating ++ ol signal) ->
  (forall sd s r, abs h d = Some sd -> In r (floating ++ ol signal) -> abs h r = Some s -> alike roi (s_cfg sd) (s_cfg s)) ->
  (forall r s, signal = Some r -> abs h r = Some s -> s_decays s <> 0%Qc) ->
  (forall i p, nth_error pars i = Some p -> In i (global_from 0 pars) -> exists f, q_kind p = KDerive f) ->
  (forall p, In p pars -> sees (q_kind p)) ->
  NoDup (map (bg_name h) (floating ++ ol signal)) -> ~ In None (map (bg_name h) (floating ++ ol signal)) ->
  prepared (fit_of str pars owns z d dp) (z_heap z).
Proof.
  intros [F1 F2 F3 F4 F5 F6] Ed Nf Lo Own Can Al Dec Gl Se Nm Nn.
  assert (FL : exists pss, z_floating z = Some (floating, pss) /\ Forall2 (fun r ps => one_made roi h (z_heap z) (Some r) (Some (r, ps))) floating pss) by (destruct floating; [congruence|exact F5]).
  destruct FL as (pss & Efl & Ffl). clear F5.
  assert (Rf : forall r, In r floating -> restricted roi h (z_heap z) r).
  { clear - Ffl. induction Ffl as [|r ps l l' H F IH]; intros r' I; [destruct I|]. destruct I as [<-|I]; [destruct H as (? & ? & _ & R & _); exact R|now apply IH]. }
  pose proof (parts_refs floating owns pss Lo (Forall2_len _ _ _ Ffl)) as Refs.
  assert (Erefs : map pt_ref (ft_floating (fit_of str pars owns z d dp)) = floating) by (cbn; rewrite Efl; exact Refs).
  assert (Rs : forall r, signal = Some r -> exists ps, z_signal z = Some (r, ps) /\ restricted roi h (z_heap z) r).
  { intros r ->. destruct F6 as (ps & s' & Y1 & Y2 & _). eauto. }
  assert (Sg : forall p, ft_signal (fit_of str pars owns z d dp) = Some p -> signal = Some (pt_ref p)).
  { intros p H. cbn in H. destruct signal as [r|]; [|cbn in F6; rewrite F6 in H; discriminate]. destruct (Rs r eq_refl) as (ps & E & _). rewrite E in H. injection H as <-. reflexivity. }
  destruct F3 as (dp' & sd' & Ed' & Rd & Ad & _). rewrite Forall_forall in Can.
  destruct Rd as (sd & u & Ad0 & Y & Id). assert (u = sd') as -> by congruence. clear Y. destruct (Can d (or_introl eq_refl)) as (y & Y1 & Rsd). assert (y = sd) as -> by congruence. clear Y1.
  assert (use : forall r, In r (floating ++ ol signal) -> restricted roi h (z_heap z) r -> exists s', abs (z_heap z) r = Some s' /\ fit_ready sd' s').
  { intros r I (s & s' & A & A' & Is). exists s'. split; [exact A'|]. destruct (Can r) as (y & Y1 & Y2). { right. apply in_or_app. now right. } assert (y = s) as -> by congruence.
    exact (region_ready roi sd sd' s s' Rsd Y2 (Al sd s r Ad0 I A) Id Is). }
  assert (own2 : NoDup (floating ++ ol signal)). { inversion Own as [|a b _ N]; subst. unfold cfgs_of in N. rewrite map_app in N. apply nodup_app_r in N. exact (NoDup_map_inv _ _ N). }
  assert (dout : ~ In d (floating ++ ol signal)). { intro I. inversion Own as [|a b N _]; subst. apply N. unfold cfgs_of. apply in_map. apply in_or_app. now right. }
  constructor.
  - exact F2.
  - cbn. rewrite Efl. intro E. apply (f_equal (map pt_ref)) in E. rewrite Refs in E. cbn in E. congruence.
  - exists sd'. split; [exact Ad|]. split; [apply Id|]. intros p [I|[_ I]].
    + apply (in_map pt_ref) in I. rewrite Erefs in I. apply use; [apply in_or_app; now left|now apply Rf].
    + apply Sg in I. destruct (Rs _ I) as (ps & _ & R). apply use; [|exact R]. apply in_or_app. right. rewrite I. now left.
  - intros r ps H. cbn in H. destruct fixed as [|x l]; [congruence|]. destruct F4 as (t & ps' & T & Y1 & _ & Y2 & _). exists T. congruence.
  - intros p H. apply Sg in H. destruct (Rs _ H) as (ps & _ & (s & s' & A & A' & (_ & _ & st & _ & B))). exists s'. split; [exact A'|]. intros _.
    destruct B as (_ & _ & _ & _ & Ed2 & _). rewrite Ed2. exact (Dec _ s H A).
  - rewrite Erefs. exact (nodup_app_l _ _ own2).
  - rewrite Erefs. intro I. apply dout. apply in_or_app. now left.
  - intros r ps H. rewrite Erefs. cbn in H. intro I. destruct (Can r) as (s & A & _). { right. apply in_or_app. right. apply in_or_app. now left. }
    apply abs_lt in A. destruct fixed as [|x l]; [congruence|]. destruct F4 as (t & ps' & T & Y1 & Y2 & _). assert (r = t) as -> by congruence. lia.
  - intros p H. rewrite Erefs. apply Sg in H. intro I. rewrite H in own2. cbn in own2. apply (disjoint_app _ _ own2 _ I). now left.
  - intros i p I H. exact (Gl i p H I).
  - exact Se.
  - intros _. assert (E : map (name_of (z_heap z)) (all_parts (fit_of str pars owns z d dp)) = map (bg_name h) (floating ++ ol signal)).
    { rewrite names_refs. unfold all_parts. rewrite map_app, Erefs. assert (Es : map pt_ref (match ft_signal (fit_of str pars owns z d dp) with Some p => [p] | None => [] end) = ol signal).
      { destruct (ft_signal _) as [p|] eqn:Es; [now rewrite (Sg p eq_refl)|]. cbn in Es. destruct signal as [r|]; [|reflexivity]. destruct (Rs r eq_refl) as (ps & E & _). rewrite E in Es. discriminate. }
      rewrite Es. apply map_ext_in. intros r I. apply restricted_name with (roi := roi). apply in_app_or in I as [I|I]; [now apply Rf|]. destruct signal as [r'|]; [|destruct I].
      destruct I as [<-|[]]. destruct (Rs _ eq_refl) as (ps & _ & R). exact R. }
    rewrite E. auto.
Qed.

(** What make_fixed_background leaves of the spectra it was given, and of all others. *)
Lemma originals_l roi h h' l r n : wf_heap h -> kept (fun i => In (Some i) (cfgs_in h l)) (fun _ => False) (fun _ => False) h h' ->
  Forall (fun rn => recut roi h h' (fst rn)) l -> In (r, n) l ->
  exists s s', abs h r = Some s /\ abs h' r = Some s' /\ only_config s s' /\ cut_axes roi (s_cfg s) (s_cfg s').
Proof.
  intros W K F I. rewrite Forall_forall in F. destruct (F _ I) as (s & x & c1 & A & X & Cu & Nx). cbn [fst] in *. apply cfg_of_obj in X as (o & O & <-).
  destruct (kept_abs_cfg _ _ _ h h' r o s c1 K O ltac:(tauto) ltac:(tauto) Nx A) as (s' & A' & Oc & <-). exists s, s'. auto.
Qed.
Lemma axis_eq1 p q : wf_axis p -> sp_low q = sp_low p -> sp_high q = sp_high p -> bin_width q = bin_width p -> q = p.
Proof.
  intros W L H B. pose proof (width_pos p W) as P. apply axis_eq; [|exact W|exact L|exact H|exact B]. split; [rewrite L, H; apply W|].
  destruct (Z.lt_trichotomy 0 (sp_bins q)) as [X|[X|X]]; [exact X| |].
  - exfalso. rewrite <- B in P. unfold bin_width in P. rewrite <- X in P. change (zq 0) with 0%Qc in P. replace ((sp_high q - sp_low q) / 0)%Qc with 0%Qc in P; [qlra|].
    unfold Qcdiv. replace (/ 0)%Qc with 0%Qc by (apply Qc_is_canon; reflexivity). ring.
  - exfalso. rewrite <- B in P. unfold bin_width in P. rewrite L, H in P. destruct W as [W _].
    assert (N : (zq (sp_bins q) < zq 0)%Qc) by (apply (proj1 (zq_lt _ _)); exact X). rewrite zq_0 in N. assert (Nz : zq (sp_bins q) <> 0%Qc) by (intro E; rewrite E in N; qlra).
    set (w := ((sp_high p - sp_low p) / zq (sp_bins q))%Qc) in *. assert (E : (w * zq (sp_bins q) = sp_high p - sp_low p)%Qc) by (unfold w; field; exact Nz). qnra.
Qed.
Lemma uncut1 roi c c' : Forall (fun kp => wf_axis (snd kp)) c -> cut_axes roi c c -> cut_axes roi c c' -> c' = c.
Proof.
  intros W. revert c'. induction c as [|[v p] c IH]; intros c' K K'; inversion K as [|? ? ? ? (A & B & C & D) K1]; inversion K' as [|? [v' p'] ? ? (A' & B' & C' & D') K1']; subst; [reflexivity|].
  inversion W; subst. cbn in *. f_equal; [|now apply IH]. f_equal; [congruence|]. apply axis_eq1; congruence.
Qed.
Lemma check_spectra_close roi c : check_spectra roi c = None -> forall d lo hi, In (d, (lo, hi)) roi ->
  exists v p, In (v, p) c /\ get_dim v = d /\ close lo (sp_low p) /\ close hi (sp_high p).
Proof.
  induction roi as [|[d0 [lo0 hi0]] roi IH]; intros H d lo hi I; [destruct I|]. cbn [check_spectra] in H.
  destruct (get_dim_type c d0) as [t|] eqn:T; [|discriminate]. cbn [rbind] in H. destruct (get_par c (d0 ++ "_" ++ t)%string) as [p|] eqn:P; [|discriminate].
  destruct (isclose lo0 (sp_low p)) eqn:E1; [|discriminate]. destruct (isclose hi0 (sp_high p)) eqn:E2; [|discriminate]. cbn in H.
  destruct I as [I|I]; [|exact (IH H d lo hi I)]. injection I as <- <- <-. exists (d0 ++ "_" ++ t)%string, p.
  split. { unfold get_par in P. apply dlookup_ok, dget_In in P. exact P. }
  split. { apply get_dim_join. clear - T. unfold get_dim_type in T. induction (str_sort (get_pars c)) as [|v l IH]; [discriminate|]. cbn in T. destruct (String.eqb (get_dim v) d0); [|now apply IH].
    injection T as <-. apply last_nochar. }
  unfold isclose in *. apply qle_iff in E1, E2. split; assumption.
Qed.

Lemma binning_l roi h d fixed floating signal z sd :
  fit_made roi h (Some d) fixed floating signal z -> abs h d = Some sd ->
  Forall (can roi h) (d :: map fst fixed ++ floating ++ ol signal) ->
  (forall r s, In r (map fst fixed ++ floating ++ ol signal) -> abs h r = Some s -> alike roi (s_cfg sd) (s_cfg s)) ->
  exists d', abs (z_heap z) d = Some d' /\ cut_axes roi (s_cfg sd) (s_cfg d') /\
    (forall r, In r (floating ++ ol signal) -> exists s', abs (z_heap z) r = Some s' /\ same_dims (s_cfg d') (s_cfg s')) /\
    (forall t ps, z_fixed z = Some (t, ps) -> exists T, abs (z_heap z) t = Some T /\ same_dims (s_cfg d') (s_cfg T)).
Proof.
  intros [F1 F2 F3 F4 F5 F6] Ad Can Al. destruct F3 as (dp & d' & Ed & (u & u' & Y1 & Y2 & Id) & Ad' & _). assert (u = sd) as -> by congruence. assert (u' = d') as -> by congruence.
  exists d'. split; [exact Ad'|]. split; [apply Id|]. rewrite Forall_forall in Can.
  assert (use : forall r, In r (floating ++ ol signal) -> restricted roi h (z_heap z) r -> exists s', abs (z_heap z) r = Some s' /\ same_dims (s_cfg d') (s_cfg s')).
  { intros r I (s & s' & A & A' & Is). exists s'. split; [exact A'|]. pose proof (Al r s (in_or_app _ _ _ (or_intror I)) A) as L.
    destruct Id as (Wd & Kd & _), Is as (Ws & Ks & _). exact (fits_cut roi _ _ _ (proj2 (proj1 Wd)) (proj2 (proj1 Ws)) (alike_fits roi _ _ _ L Kd) Ks). }
  split.
  - intros r I. apply use; [exact I|]. apply in_app_or in I as [I|I].
    + destruct floating as [|r0 l0] eqn:E; [destruct I|]. rewrite <- E in *. destruct F5 as (pss & _ & F). clear - F I. induction F as [|a b l l' H F IH]; [destruct I|].
      destruct I as [<-|I]; [destruct H as (? & ? & _ & R & _); exact R|now apply IH].
    + destruct signal as [r'|]; [|destruct I]. destruct I as [<-|[]]. destruct F6 as (? & ? & _ & R & _). exact R.
  - intros t ps E. destruct fixed as [|[r n] l]; [congruence|]. destruct F4 as (t' & ps' & T & Y3 & _ & Y4 & (parts & _ & _ & _ & _ & WT & s1 & A1 & Cu) & _). rewrite E in Y3. injection Y3 as <- <-.
    exists T. split; [exact Y4|]. pose proof (Al r s1 (or_introl eq_refl) A1) as L. destruct Id as (Wd & Kd & _).
    exact (fits_cut roi _ _ _ (proj2 (proj1 Wd)) (proj2 (proj1 WT)) (alike_fits roi _ _ _ L Kd) Cu).
Qed.

Lemma cfgs_in_of h l : cfgs_in h l = map (cfg_of h) (map fst l).
Proof. unfold cfgs_in. now rewrite map_map. Qed.
Lemma fixed_thm_l z c l : l <> [] -> wf_heap (z_heap z) -> Forall (fixes (the_roi z) c (z_heap z)) l -> own_configs (z_heap z) (map fst l) ->
  exists z' t ps T, make_fixed_background l true z = (z', None) /\ z_fixed z' = Some (t, ps) /\ wf_heap (z_heap z') /\
    abs (z_heap z') t = Some T /\ is_total (the_roi z) (z_heap z) l T /\ roi_axes (the_roi z) (s_cfg T) ps /\
    (forall r n, In (r, n) l -> exists s s', abs (z_heap z) r = Some s /\ abs (z_heap z') r = Some s' /\ only_config s s' /\ cut_axes (the_roi z) (s_cfg s) (s_cfg s')) /\
    (forall r s, abs (z_heap z) r = Some s -> ~ In (cfg_of (z_heap z) r) (map (cfg_of (z_heap z)) (map fst l)) -> abs (z_heap z') r = Some s).
Proof.
  intros Ne W F [O _]. destruct l as [|[r n] l]; [congruence|]. rewrite <- cfgs_in_of in *.
  destruct (fixed_l z c r n l W F O) as (h' & T & ps & parts & E & W' & AT & RT & FT & PT & XT & K & Re & Fp & Ct & De & Na & Cu).
  eexists. exists (length (h_objs (z_heap z))), ps, T. split; [exact E|]. split; [reflexivity|]. cbn [z_heap z_with_fixed z_with_heap]. split; [exact W'|]. split; [exact AT|].
  split. { exists parts. split; [exact Fp|]. split; [exact Ct|]. split; [exact De|]. split; [exact Na|]. split; [apply RT|exact Cu]. }
  split. { destruct (restrictable_pars _ T RT) as (ps' & Y1 & Y2). rewrite PT in Y1. injection Y1 as <-. exact Y2. }
  split. { intros r' n' I. exact (originals_l _ _ _ _ r' n' W K Re I). }
  intros r' s A N. apply (same_here _ _ _ _ r' s K A); [tauto|]. intros x X. now rewrite X in N.
Qed.
Lemma originals_thm_l z c l z' : wf_heap (z_heap z) -> Forall (fixes (the_roi z) c (z_heap z)) l -> own_configs (z_heap z) (map fst l) ->
  make_fixed_background l true z = (z', None) ->
  (forall r s, In r (map fst l) -> abs (z_heap z) r = Some s -> cut_axes (the_roi z) (s_cfg s) (s_cfg s)) ->
  forall r s, abs (z_heap z) r = Some s -> abs (z_heap z') r = Some s.
Proof.
  intros W F O E U r s A. destruct l as [|[r0 n0] l]; [discriminate|]. destruct O as [O _]. rewrite <- cfgs_in_of in O.
  destruct (fixed_l z c r0 n0 l W F O) as (h' & T & ps & parts & E' & W' & AT & RT & FT & PT & XT & K & Re & Fp & _). rewrite E in E'. injection E' as ->. cbn [z_heap z_with_fixed z_with_heap].
  destruct (abs_cfg_of _ r s A) as (x & X). destruct (In_dec (fun a b : option nat => ltac:(decide equality; apply Nat.eq_dec)) (Some x) (cfgs_in (z_heap z) ((r0, n0) :: l))) as [I|N].
  2:{ apply (same_here _ _ _ _ r s K A); [tauto|]. intros y Y. rewrite X in Y. injection Y as <-. exact N. }
  unfold cfgs_in in I. apply in_map_iff in I as ((r1 & n1) & X1 & I). cbn [fst] in X1.
  destruct (obj_of _ r s A) as (o & Oo). rewrite Forall_forall in Re. destruct (Re _ I) as (s1 & x1 & c1 & A1 & X1' & Cu & Nx). cbn [fst] in *.
  assert (x1 = x) as -> by congruence. assert (Ox : o_cfg o = x) by (unfold cfg_of in X; rewrite Oo in X; cbn in X; congruence).
  assert (Ec : nth_error (h_cfgs (z_heap z)) x = Some (s_cfg s1)) by exact (cfg_of_abs _ r1 x s1 X1 A1).
  assert (W1 : Forall (fun kp => wf_axis (snd kp)) (s_cfg s1)). { rewrite Forall_forall in F. destruct (F _ I) as (y & B1 & (Wy & _) & _). cbn [fst] in B1. assert (y = s1) as -> by congruence. apply Wy. }
  pose proof (U r1 s1 (in_map fst _ _ I) A1) as Us.
  assert (Wc : c1 = s_cfg s1).
  { (* axes with the same bounds and width are the same *)
    exact (uncut1 _ _ _ W1 Us Cu). }
  destruct (kept_abs_cfg _ _ _ _ h' r o s (s_cfg s1) K Oo ltac:(tauto) ltac:(tauto)) as (s' & A' & Oc & Es'); [rewrite Ox, <- Wc; exact Nx|exact A|].
  rewrite A'. f_equal. pose proof (cfg_of_abs _ r x s X A) as Es. destruct Oc as (P1 & P2 & P3 & P4 & P5 & P6 & P7). destruct s, s'. cbn in *. congruence.
Qed.
Lemma check_thm_l config z : check_all_spectra config z = None ->
  exists d dp, z_data z = Some (d, dp) /\
    forall x r ps, In x [z_data z; z_fixed z; z_signal z] -> x = Some (r, ps) ->
      exists s, abs (z_heap z) r = Some s /\
        forall dim lo hi, In (dim, (lo, hi)) (the_roi z) -> exists v p, In (v, p) (s_cfg s) /\ get_dim v = dim /\ close lo (sp_low p) /\ close hi (sp_high p).
Proof.
  intro H. unfold check_all_spectra in H. destruct (z_data z) as [[d dp]|] eqn:D; [|discriminate]. exists d, dp. split; [reflexivity|].
  assert (G : forall l x, first_error l = None -> In x l -> x = None). { induction l as [|[e|] l IH]; intros x E I; [destruct I|discriminate|]. destruct I as [<-|I]; [reflexivity|exact (IH x E I)]. }
  intros x r ps I Ex. assert (P : check_part (the_roi z) (z_heap z) x = None).
  { apply (G _ _ H). destruct I as [<-|[<-|[<-|[]]]]; cbn; auto 10. }
  rewrite Ex in P. cbn in P. destruct ps; [discriminate|]. unfold check_obj in P. destruct (abs (z_heap z) r) as [s'|] eqn:A; [|discriminate]. exists s'. split; [reflexivity|].
  exact (check_spectra_close _ _ P).
Qed.

(** The methods of a fit that take spectra. *)
From Coq Require Import Lia Permutation.
From Verif Require Import Model.Base Model.PyStr Model.NDArray Model.Param Model.Config Model.Spectra Model.Smear Model.Shift Model.Heap Model.Minimise Model.Fit Model.FitPrepare.
From Verif Require Import Spec.AxisSpec Spec.ArraySpec Spec.SpectraSpec Spec.ShrinkSpec Spec.HeapSpec Spec.FitRunSpec Spec.FitSetSpec Spec.FitMethodSpec.
From Verif Require Import Proofs.QcLemmas Proofs.NDArrayLemmas Proofs.StrLemmas Proofs.DictLemmas Proofs.ParamLemmas
  Proofs.ShrinkProps Proofs.OpsLemmas Proofs.ExtLemmas Proofs.HeapLemmas Proofs.FitLemmas Proofs.FitPrep Proofs.FitRun Proofs.RoiLemmas Proofs.FitSetLemmas Proofs.FitSetReady.

Lemma with_heap_same z : z_with_heap z (z_heap z) = z.
Proof. now destruct z. Qed.
Lemma same_fit_heap z h : same_fit z (z_with_heap z h).
Proof. repeat split. Qed.

(** ** set_data, set_fixed_background, set_signal *)
Lemma slot_set k r b : exists put old, set_slot k r b = set_one (match k with Signal => false | _ => true end) b put old r /\
  forall z x, z_heap (put z x) = z_heap z /\ in_slot k (put z x) = x /\ other_slots k z (put z x).
Proof.
  destruct k; eexists; eexists; (split; [reflexivity|]); intros z x; (split; [reflexivity|]; split; [reflexivity|]; split; [reflexivity|]; split; [reflexivity|]);
    intros [| |] H; try reflexivity; now elim H.
Qed.
Lemma slots_heap k z h z' : other_slots k (z_with_heap z h) z' -> other_slots k z z'.
Proof. intros (A & B & C). split; [exact A|]. split; [exact B|]. intros j J. rewrite (C j J). now destruct j. Qed.
Lemma set_l k r z s : wf_heap (z_heap z) -> abs (z_heap z) r = Some s -> restrictable (the_roi z) s ->
  exists z' s' ps, set_slot k r true z = (z', None) /\ in_slot k z' = Some (r, ps) /\ other_slots k z z' /\ wf_heap (z_heap z') /\
    abs (z_heap z') r = Some s' /\ in_region (the_roi z) s s' /\ roi_axes (the_roi z) (s_cfg s') ps /\ others_same (z_heap z) (z_heap z') [r].
Proof.
  intros W A R. destruct (abs_cfg_of _ _ _ A) as (x & X). destruct (slot_set k r true) as (put & old & -> & P).
  destruct (set_one_l (match k with Signal => false | _ => true end) put old r z s x W A R X) as (h' & s' & ps & E & W' & A' & I & F & K).
  destruct (P (z_with_heap z h') (Some (r, ps))) as (P1 & P2 & P3).
  eexists. exists s', ps. split; [exact E|]. split; [exact P2|]. split; [exact (slots_heap _ _ _ _ P3)|]. rewrite P1. cbn [z_heap z_with_heap].
  split; [exact W'|]. split; [exact A'|]. split; [exact I|]. split; [exact F|].
  intros r' t A1 N1 N2. apply (same_here _ _ _ _ r' t K A1); [intros ->; apply N1; now left|]. intros y Y ->. apply N2. left. congruence.
Qed.

Lemma dim_type_missing c d : ~ has_dim c d -> get_dim_type c d = Err EIndexError.
Proof.
  intro H. unfold get_dim_type. assert (G : forall v, In v (str_sort (get_pars c)) -> get_dim v <> d).
  { intros v I E. apply (Permutation_in v (str_sort_perm (get_pars c))) in I. unfold get_pars in I. apply in_map_iff in I as ([v' p] & <- & I). apply H. exists v', p. auto. }
  induction (str_sort (get_pars c)) as [|v l IH]; [reflexivity|]. cbn. destruct (String.eqb_spec (get_dim v) d) as [E|E]; [elim (G v (or_introl eq_refl) E)|].
  apply IH. intros u I. apply G. now right.
Qed.

Lemma dim_type_cases c d : (exists t, get_dim_type c d = Ok t) \/ get_dim_type c d = Err EIndexError.
Proof.
  unfold get_dim_type. induction (str_sort (get_pars c)) as [|v l IH]; [now right|]. cbn. destruct (String.eqb (get_dim v) d); [left; eauto|exact IH].
Qed.
Lemma keywords_missing roi c : (exists d, In d (map fst roi) /\ ~ has_dim c d) -> forall kw, roi_keywords roi c kw = Err EIndexError.
Proof.
  induction roi as [|[d [lo hi]] roi IH]; intros (d' & I & M) kw; [destruct I|]. cbn [roi_keywords].
  destruct (dim_type_cases c d) as [(t & T)|T]; rewrite T; [|reflexivity]. cbn [rbind]. apply IH. exists d'. split; [|exact M].
  destruct I as [I|I]; [|exact I]. cbn in I. subst d'. rewrite (dim_type_missing c d M) in T. discriminate.
Qed.
Lemma shrink_missing roi r h s : abs h r = Some s -> (exists d, In d (map fst roi) /\ ~ has_dim (s_cfg s) d) -> shrink_spectra roi r h = (h, Some EIndexError).
Proof. intros A M. unfold shrink_spectra. now rewrite A, (keywords_missing _ _ M). Qed.
Lemma set_missing_l k r z s : abs (z_heap z) r = Some s -> (exists d, In d (map fst (the_roi z)) /\ ~ has_dim (s_cfg s) d) ->
  set_slot k r true z = (z, Some EIndexError).
Proof.
  intros A M. destruct (slot_set k r true) as (put & old & -> & _). unfold set_one. rewrite (shrink_missing _ _ _ _ A M). now rewrite with_heap_same.
Qed.

(** ** The bounds are checked *)
Lemma check_within roi c : named_axes c -> within roi c -> check_spectra roi c = None.
Proof.
  intros [N T]. induction roi as [|[d [lo hi]] roi IH]; intro H; [reflexivity|]. cbn [check_spectra].
  destruct (H d lo hi (or_introl eq_refl)) as (v & p & I & D & L & U). rewrite <- D. rewrite (dim_type_of c v p N I). cbn [rbind].
  rewrite Forall_forall in T. rewrite <- (typed_decompose v (T _ I)). unfold get_par. rewrite (proj2 (dlookup_ok v c p) (In_dget v p c (names_nodup _ N) I)).
  assert (isclose lo (sp_low p) = true) as -> by (unfold isclose; now apply qle_iff). assert (isclose hi (sp_high p) = true) as -> by (unfold isclose; now apply qle_iff).
  cbn [negb]. apply IH. intros d' lo' hi' I'. apply H. now right.
Qed.
Lemma check_kind roi c e : named_axes c -> check_spectra roi c = Some e ->
  e = EValueError \/ (e = EIndexError /\ exists d, In d (map fst roi) /\ ~ has_dim c d).
Proof.
  intros [N T]. induction roi as [|[d [lo hi]] roi IH]; intro H; [discriminate|]. cbn [check_spectra] in H.
  assert (Dc : has_dim c d \/ ~ has_dim c d).
  { unfold has_dim. clear. induction c as [|[v p] c IH]; [right; intros (v & p & [] & _)|]. destruct (String.eqb_spec (get_dim v) d) as [E|E].
    - left. exists v, p. split; [now left|exact E].
    - destruct IH as [(v' & p' & I & D)|M]; [left; exists v', p'; split; [now right|exact D]|]. right. intros (v' & p' & [I|I] & D); [congruence|]. apply M. eauto. }
  destruct Dc as [(v & p & I & D)|M].
  - rewrite <- D in H. rewrite (dim_type_of c v p N I) in H. cbn [rbind] in H.
    rewrite Forall_forall in T. rewrite <- (typed_decompose v (T _ I)) in H. unfold get_par in H. rewrite (proj2 (dlookup_ok v c p) (In_dget v p c (names_nodup _ N) I)) in H.
    destruct (negb (isclose lo (sp_low p))); [left; congruence|]. destruct (negb (isclose hi (sp_high p))); [left; congruence|].
    destruct (IH H) as [->|(-> & d' & I' & M)]; [now left|right]. split; [reflexivity|]. exists d'. split; [now right|exact M].
  - rewrite (dim_type_missing c d M) in H. cbn in H. right. split; [congruence|]. exists d. split; [now left|exact M].
Qed.
Lemma within_has roi c : within roi c -> forall d lh, In (d, lh) roi -> exists v p, In (v, p) c /\ get_dim v = d.
Proof. intros H d [lo hi] I. destruct (H d lo hi I) as (v & p & V & D & _). eauto. Qed.
Lemma checked_l k r z s : k <> Signal -> abs (z_heap z) r = Some s -> named_axes (s_cfg s) ->
  (within (the_roi z) (s_cfg s) -> exists z' ps, set_slot k r false z = (z', None) /\ in_slot k z' = Some (r, ps) /\ other_slots k z z' /\
     z_heap z' = z_heap z /\ roi_axes (the_roi z) (s_cfg s) ps) /\
  (~ within (the_roi z) (s_cfg s) -> exists e, set_slot k r false z = (z, Some e) /\
     (e = EValueError \/ e = EIndexError /\ exists d, In d (map fst (the_roi z)) /\ ~ has_dim (s_cfg s) d)).
Proof.
  intros Hk A Nm. destruct (slot_set k r false) as (put & old & E & P). assert (Ck : (match k with Signal => false | _ => true end) = true) by (destruct k; congruence).
  rewrite Ck in E. rewrite E. unfold set_one, check_obj. rewrite A. split; intro Wi.
  - rewrite (check_within _ _ Nm Wi). unfold pars_of. rewrite A. destruct (roi_pars_ok (the_roi z) (s_cfg s) (proj1 Nm) (proj2 Nm) (within_has _ _ Wi)) as (ps & -> & F).
    destruct (P (z_with_heap z (z_heap z)) (Some (r, ps))) as (P1 & P2 & P3). eexists. exists ps. split; [reflexivity|]. split; [exact P2|]. split; [exact (slots_heap _ _ _ _ P3)|].
    split; [exact P1|exact F].
  - destruct (check_spectra (the_roi z) (s_cfg s)) as [e|] eqn:C; [|elim Wi; intros d lo hi I; exact (check_spectra_close _ _ C d lo hi I)].
    exists e. rewrite with_heap_same. split; [reflexivity|exact (check_kind _ _ _ Nm C)].
Qed.

(** ** set_floating_backgrounds *)
Lemma floating_l config l z : wf_heap (z_heap z) -> Forall (can (the_roi z) (z_heap z)) l -> own_configs (z_heap z) l -> (forall r, In r l -> config r = None) ->
  exists z' pss, set_floating_backgrounds config l true z = (z', None) /\ z_floating z' = Some (l, pss) /\
    (z_roi z' = z_roi z /\ forall k, in_slot k z' = in_slot k z) /\ wf_heap (z_heap z') /\
    Forall2 (fun r ps => one_made (the_roi z) (z_heap z) (z_heap z') (Some r) (Some (r, ps))) l pss /\ others_same (z_heap z) (z_heap z') l.
Proof.
  intros W F [N _] C. destruct (float_each_l config (the_roi z) l (z_heap z) W F N C) as (h' & pss & E & W' & Re & Ps & K).
  unfold set_floating_backgrounds. rewrite E. eexists. exists pss. split; [reflexivity|]. split; [reflexivity|]. split; [split; [reflexivity|now intros [| |]]|].
  cbn [z_heap z_with_floating z_with_heap]. split; [exact W'|]. split.
  - rewrite Forall_forall in Re. apply (Forall2_in _ _ _ _ Ps). intros r ps I (s' & A & R). cbn. exists ps, s'. auto.
  - intros r s A N1 N2. apply (same_here _ _ _ _ r s K A); [exact N1|]. intros x X I. apply N2. rewrite X. exact I.
Qed.
Lemma float_each_app config shrink roi : forall a b h, float_each config shrink roi (a ++ b) h =
  match float_each config shrink roi a h with
  | (h1, Err e) => (h1, Err e)
  | (h1, Ok ps) => let (h2, x) := float_each config shrink roi b h1 in (h2, rmap (fun q => (ps ++ q)%list) x)
  end.
Proof.
  induction a as [|r a IH]; intros b h; cbn [app float_each].
  - destruct (float_each config shrink roi b h) as [h2 [x|]]; reflexivity.
  - destruct (config r); [reflexivity|]. destruct (if shrink then _ else _) as [h1 [e|]]; [reflexivity|]. destruct (pars_of roi r h1) as [ps|]; [|reflexivity].
    rewrite IH. destruct (float_each config shrink roi a h1) as [h2 [x|]]; [|reflexivity]. destruct (float_each config shrink roi b h2) as [h3 [y|]]; reflexivity.
Qed.
Lemma floating_stop_l config a r b z e : wf_heap (z_heap z) -> Forall (can (the_roi z) (z_heap z)) a -> own_configs (z_heap z) (a ++ [r]) -> (forall r, In r a -> config r = None) ->
  (config r = Some e \/ config r = None /\ e = EIndexError /\ exists s d, abs (z_heap z) r = Some s /\ In d (map fst (the_roi z)) /\ ~ has_dim (s_cfg s) d) ->
  exists z', set_floating_backgrounds config (a ++ r :: b) true z = (z', Some e) /\ same_fit z z' /\ Forall (restricted (the_roi z) (z_heap z) (z_heap z')) a /\
    others_same (z_heap z) (z_heap z') a.
Proof.
  intros W F [N _] C X. assert (Na : NoDup (map (cfg_of (z_heap z)) a)) by (rewrite map_app in N; now apply nodup_app_l in N).
  destruct (float_each_l config (the_roi z) a (z_heap z) W F Na C) as (h' & pss & E & W' & Re & Ps & K).
  unfold set_floating_backgrounds. rewrite float_each_app, E.
  assert (Os : others_same (z_heap z) h' a).
  { intros r' s A N1 N2. apply (same_here _ _ _ _ r' s K A); [exact N1|]. intros x Y I. apply N2. rewrite Y. exact I. }
  assert (float_each config true (the_roi z) (r :: b) h' = (h', Err e)) as ->.
  { cbn [float_each]. destruct X as [->|(-> & -> & s & d & A & I & M)]; [reflexivity|].
    assert (A' : abs h' r = Some s).
    { apply Os; [exact A| |].
      - intro Ir. rewrite map_app in N. apply (disjoint_app _ _ N (cfg_of (z_heap z) r)); [now apply in_map|now left].
      - intro Ir. rewrite map_app in N. apply (disjoint_app _ _ N (cfg_of (z_heap z) r)); [exact Ir|now left]. }
    rewrite (shrink_missing (the_roi z) r h' s A'); [reflexivity|]. eauto. }
  eexists. split; [reflexivity|]. split; [apply same_fit_heap|]. split; [exact Re|exact Os].
Qed.

(** ** append_fixed_background *)
Lemma append_l z t ps T l : wf_heap (z_heap z) -> z_fixed z = Some (t, ps) -> abs (z_heap z) t = Some T -> wf_spectra T ->
  cut_axes (the_roi z) (s_cfg T) (s_cfg T) -> Forall (fixes (the_roi z) (s_cfg T) (z_heap z)) l -> own_configs (z_heap z) (t :: map fst l) ->
  (forall r, In r (map fst l) -> own_array (z_heap z) t r) ->
  exists z' T' parts, append_fixed_background l true z = (z', None) /\ same_fit z z' /\ wf_heap (z_heap z') /\
    abs (z_heap z') t = Some T' /\ wf_spectra T' /\ s_cfg T' = s_cfg T /\ s_name T' = s_name T /\
    Forall2 (fixed_part (the_roi z) (z_heap z)) l parts /\
    (forall i, valid_idx (cfg_shape (s_cfg T)) i -> aget (s_data T') i = (aget (s_data T) i + qsum (map (fun p => scaled_content p i) parts))%Qc) /\
    s_decays T' = (s_decays T + qsum (map snd l))%Qc /\
    (forall r n, In (r, n) l -> exists s s', abs (z_heap z) r = Some s /\ abs (z_heap z') r = Some s' /\ only_config s s' /\ cut_axes (the_roi z) (s_cfg s) (s_cfg s')) /\
    (forall r s, abs (z_heap z) r = Some s -> own_array (z_heap z) t r -> ~ In (cfg_of (z_heap z) r) (map (cfg_of (z_heap z)) (map fst l)) -> abs (z_heap z') r = Some s).
Proof.
  intros W Fx A WT Cu F [N _] Ow. set (h := z_heap z) in *. set (roi := the_roi z) in *. destruct (abs_cfg_of _ _ _ A) as (x & X). destruct (obj_of _ _ _ A) as (ot & Ot).
  cbn [map] in N. rewrite <- cfgs_in_of in N. rewrite X in N. inversion N as [|y y' N1 N2]; subst y y'.
  set (P := fun i => i = o_buf ot \/ length (h_bufs h) <= i). set (R := fun r => r = t \/ length (h_objs h) <= r).
  destruct (add_each_l roi (s_cfg T) h t x P R (or_introl eq_refl) (fun i Y => or_intror Y) l h T (eq x)) as (h' & T' & parts & E & W' & A' & WT' & CT & K & Re & Fp & Ct & De & Na).
  - exact W.
  - exact A.
  - exact WT.
  - reflexivity.
  - exists ot. split; [exact Ot|now left].
  - exact X.
  - apply kept_refl.
  - reflexivity.
  - eapply Forall_impl; [|exact F]. intros rn (s & Y1 & Y2 & Y3 & Y4). exists s. split; [exact Y1|]. split; [exact Y2|]. split; [exact Y3|]. now apply (alike_fits roi (s_cfg T)).
  - intros r o I O. destruct (Ow r I) as (O1 & O2). pose proof (wf_buf h r o W O) as L. specialize (O2 ot o Ot O). pose proof (nth_some_lt _ _ _ O).
    split; [intros [Y|Y]; [congruence|lia]|intros [Y|Y]; [congruence|lia]].
  - exact N2.
  - intros i I <-. contradiction.
  - unfold append_fixed_background. rewrite Fx. fold h roi. rewrite E. eexists. exists T', parts. split; [reflexivity|]. split; [apply same_fit_heap|]. cbn [z_heap z_with_heap].
    split; [exact W'|]. split; [exact A'|]. split; [exact WT'|]. split; [exact CT|]. split; [exact Na|]. split; [exact Fp|]. split; [exact Ct|]. split; [exact De|].
    assert (Ap : forall r o, own_array h t r -> nth_error (h_objs h) r = Some o -> ~ R r /\ ~ P (o_buf o)).
    { intros r o (O1 & O2) O. pose proof (wf_buf h r o W O) as L. specialize (O2 ot o Ot O). pose proof (nth_some_lt _ _ _ O).
      split; [intros [Y|Y]; [congruence|lia]|intros [Y|Y]; [congruence|lia]]. }
    split.
    + intros r n I. rewrite Forall_forall in Re. destruct (Re _ I) as (s & y & c1 & Y1 & Y2 & Y3 & Y4). cbn [fst] in *. apply cfg_of_obj in Y2 as (o & O & <-).
      destruct (Ap r o (Ow r (in_map fst _ _ I)) O) as (B1 & B2).
      destruct (kept_abs_cfg _ _ _ h h' r o s c1 K O B1 B2 Y4 Y1) as (s' & Z1 & Z2 & <-). exists s, s'. auto.
    + intros r s Ar Or Nr. destruct (obj_of _ _ _ Ar) as (o & O). destruct (Ap r o Or O) as (B1 & B2). apply (kept_abs _ _ _ h h' r o s K O B1); [|exact B2|exact Ar].
      intro I. apply Nr. rewrite <- cfgs_in_of. unfold cfg_of at 1. rewrite O. exact I.
Qed.
Lemma append_none_l z r n l s : wf_heap (z_heap z) -> z_fixed z = None -> abs (z_heap z) r = Some s -> restrictable (the_roi z) s -> s_decays s <> 0%Qc ->
  exists z' s', append_fixed_background ((r, n) :: l) true z = (z', Some EAttributeError) /\ same_fit z z' /\
    abs (z_heap z') r = Some s' /\ only_config s s' /\ cut_axes (the_roi z) (s_cfg s) (s_cfg s').
Proof.
  intros W Fx A R D. destruct (abs_cfg_of _ _ _ A) as (x & X).
  destruct (copy_scaled_l (the_roi z) r n (z_heap z) s x W A R D X) as (h1 & s' & s2 & E1 & W1 & I1 & A1 & Ws2 & C2 & Sh2 & De2 & Ra2 & Na2 & Ct2 & X1 & Cx1 & K1 & _).
  unfold append_fixed_background. rewrite Fx, E1. apply cfg_of_obj in X as (o & O & <-).
  destruct (kept_abs_cfg _ _ _ (z_heap z) h1 r o s (s_cfg s') K1 O) as (s3 & Z1 & Z2 & Z3); [tauto|tauto|exact Cx1|exact A|].
  eexists. exists s3. split; [reflexivity|]. split; [apply same_fit_heap|]. cbn [z_heap z_with_heap]. split; [exact Z1|]. split; [exact Z2|]. rewrite Z3. apply I1.
Qed.

(** ** set_roi *)
Lemma check_roi_wrong old g : (exists d l, In (d, l) g /\ length l <> 2%nat) -> exists e, snd (check_roi old g) = Err e /\
  (old = None -> e = EAttributeError) /\ (forall o, old = Some o -> e = ECompatibilityError \/ e = EKeyError) /\
  (forall o, old = Some o -> (forall d l, In (d, l) g -> dget d o <> None) -> e = ECompatibilityError).
Proof.
  induction g as [|[d l] g IH]; intros (d' & l' & I & L); [destruct I|].
  assert (H : length l <> 2%nat -> exists e, snd (check_roi old ((d, l) :: g)) = Err e /\
    (old = None -> e = EAttributeError) /\ (forall o, old = Some o -> e = ECompatibilityError \/ e = EKeyError) /\
    (forall o, old = Some o -> (forall d0 l0, In (d0, l0) ((d, l) :: g) -> dget d0 o <> None) -> e = ECompatibilityError)).
  { intro Ll. assert (E : snd (check_roi old ((d, l) :: g)) = Err (match old with None => EAttributeError | Some o => match dget d o with Some _ => ECompatibilityError | None => EKeyError end end)).
    { destruct l as [|a [|b [|c l]]]; try reflexivity. now elim Ll. }
    rewrite E. eexists. split; [reflexivity|]. destruct old as [o|]; (split; [intro; try discriminate; reflexivity|]).
    - split; [intros o' E'; injection E' as <-; destruct (dget d o); auto|]. intros o' E' Hd. injection E' as <-. specialize (Hd d l (or_introl eq_refl)). destruct (dget d o); [reflexivity|congruence].
    - split; intros; discriminate. }
  destruct (Nat.eq_dec (length l) 2) as [E2|E2]; [|exact (H E2)].
  destruct l as [|a [|b [|c l]]]; try discriminate E2. clear H E2. destruct I as [I|I]; [injection I as <- <-; now elim L|].
  destruct IH as (e & E & H1 & H2 & H3); [eauto|]. exists e. cbn [check_roi]. destruct (check_roi old g) as [g' x]. cbn [snd] in E |- *. rewrite E. split; [reflexivity|].
  split; [exact H1|]. split; [exact H2|]. intros o O Hd. apply (H3 o O). intros d0 l0 I0. apply (Hd d0 l0). now right.
Qed.
Lemma set_roi_wrong_l g z : (exists d l, In (d, l) g /\ length l <> 2%nat) -> exists e, set_roi g z = (z, Some e) /\
  (z_roi z = None -> e = EAttributeError) /\ (forall o, z_roi z = Some o -> e = ECompatibilityError \/ e = EKeyError) /\
  (forall o, z_roi z = Some o -> (forall d l, In (d, l) g -> dget d o <> None) -> e = ECompatibilityError).
Proof. intro H. destruct (check_roi_wrong (z_roi z) g H) as (e & E & R). exists e. unfold set_roi. rewrite E. auto. Qed.
Lemma set_roi_l g z : (forall d l, In (d, l) g -> length l = 2%nat) -> exists roi z', set_roi g z = (z', None) /\ z_roi z' = Some roi /\ z_heap z' = z_heap z /\
  (forall k, in_slot k z' = in_slot k z) /\ z_floating z' = z_floating z /\
  Forall2 (fun g x => fst x = fst g /\ exists a b, snd g = [a; b] /\ ordered_pair a b (snd x)) g roi.
Proof.
  intro H. destruct (check_roi_l (z_roi z) g H) as (roi & E & F). exists roi. unfold set_roi. rewrite E. eexists. split; [reflexivity|]. split; [reflexivity|].
  split; [reflexivity|]. split; [now intros [| |]|]. split; [reflexivity|exact F].
Qed.

(** ** fit without floating backgrounds *)
Lemma flat_is b x : flat b x = contents b x.
Proof. apply flat_ext. split; reflexivity. Qed.
Lemma fit_fixed_l stat sb z d dp f fp sd sf o e : z_data z = Some (d, dp) -> z_fixed z = Some (f, fp) -> abs (z_heap z) d = Some sd -> abs (z_heap z) f = Some sf ->
  nd_project dp sd = Ok o -> nd_project fp sf = Ok e ->
  (z_signal z = None -> fit_fixed stat sb z = stat (contents sb o) (contents sb e)) /\
  (forall s sp ss a, z_signal z = Some (s, sp) -> abs (z_heap z) s = Some ss -> nd_project sp ss = Ok a ->
     (ashape a = ashape e -> exists x, ashape x = ashape e /\ (forall i, valid_idx (ashape x) i -> aget x i = (aget e i + aget a i)%Qc) /\
        fit_fixed stat sb z = stat (contents sb o) (contents sb x)) /\
     (ashape a <> ashape e -> fit_fixed stat sb z = Err EValueError)).
Proof.
  intros D Fx Ad Af Po Pe. unfold fit_fixed. rewrite D, Fx, Ad, Af, Po, Pe. cbn [rbind]. split.
  - intros ->. cbn [rbind]. now rewrite !flat_is.
  - intros s sp ss a -> -> ->. cbn [rbind add_to]. split; intro S.
    + destruct (list_eq_dec Nat.eq_dec (ashape e) (ashape a)) as [_|N]; [|congruence]. cbn [rbind]. rewrite !flat_is. exists (aplus e a). split; [reflexivity|]. split; [|reflexivity]. intros i V. reflexivity.
    + destruct (list_eq_dec Nat.eq_dec (ashape e) (ashape a)) as [Y|N]; [congruence|reflexivity].
Qed.
Lemma fit_none_l stat sb z : z_data z = None \/ z_fixed z = None -> fit_fixed stat sb z = Err EAttributeError.
Proof. unfold fit_fixed. intros [-> | ->]; [reflexivity|]. now destruct (z_data z) as [[d dp]|]. Qed.

(** ** Exceptions of the constructor *)
Lemma new_wrong_roi_l config values g data fixed floating signal shrink h : (exists d l, In (d, l) g /\ length l <> 2%nat) ->
  exists z, new_fit config values g data fixed floating signal shrink h = (z, Some EAttributeError) /\ z_heap z = h.
Proof.
  intro H. destruct (set_roi_wrong_l g (FitSet h None None None None None) H) as (e & E & R & _). rewrite (R eq_refl) in E. unfold new_fit. rewrite E. cbn. eexists. split; reflexivity.
Qed.
Lemma new_missing_l config values g roi d fixed floating signal shrink h s : snd (check_roi None g) = Ok roi -> abs h d = Some s ->
  (exists dim, In dim (map fst roi) /\ ~ has_dim (s_cfg s) dim) ->
  exists z, new_fit config values g (Some d) fixed floating signal shrink h = (z, Some EIndexError) /\ z_heap z = h.
Proof.
  intros G A M. unfold new_fit. unfold set_roi at 1. cbn [z_roi]. rewrite G. cbn [z_with_roi z_heap z_data z_fixed z_floating z_signal].
  set (z0 := FitSet h (Some roi) None None None None). rewrite (chain_ok (z0, None) z0 _ eq_refl). cbn [if_given].
  pose proof (set_missing_l Data d z0 s A M) as E. cbn [set_slot] in E. rewrite E. cbn. eexists. split; reflexivity.
Qed.

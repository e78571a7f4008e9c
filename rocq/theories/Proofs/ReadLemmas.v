(** Proofs for C83. *)
From Coq Require Import Lia.
From Verif Require Import Model.Base Model.PyStr Model.Param Model.Config Model.FitParam Model.FitConfig Spec.ConfigSpec Spec.ReadSpec Proofs.ConfigLemmas.
Local Open Scope string_scope.
Local Open Scope list_scope.

Lemma str_in_iff k l : str_in k l = true <-> In k l.
Proof.
  unfold str_in. rewrite existsb_exists. split.
  - intros (x & I & E). apply String.eqb_eq in E. now subst.
  - intro I. exists k. split; [assumption|apply String.eqb_refl].
Qed.
Lemma known_ok names kw : kw_known names kw = Ok tt <-> only names kw.
Proof.
  unfold kw_known, only. destruct (forallb _ _) eqn:E.
  - split; [|reflexivity]. intros _ k I. rewrite forallb_forall in E. apply str_in_iff. now apply E.
  - split; [discriminate|]. intro H. rewrite (proj2 (forallb_forall _ _)) in E; [discriminate|]. intros k I. apply str_in_iff. now apply H.
Qed.
Lemma known_no names kw : ~ only names kw -> kw_known names kw = Err ETypeError.
Proof.
  intro H. unfold kw_known. destruct (forallb _ _) eqn:E; [|reflexivity]. exfalso. apply H.
  intros k I. rewrite forallb_forall in E. apply str_in_iff. now apply E.
Qed.
Lemma jfloat_as j x : jfloat j = Ok x <-> as_number j = Some x.
Proof. destruct j as [|[]| | | |]; cbn; split; congruence. Qed.
Lemma jfloat_no j x : jfloat j = Err x <-> not_number j = Some x.
Proof. destruct j as [|[]| | | |]; cbn; split; congruence. Qed.
Lemma jint_as j z : jint j = Ok z <-> as_count j = Some z.
Proof. destruct j as [|[]| | | |]; cbn; split; congruence. Qed.
Lemma jint_no j x : jint j = Err x <-> not_number j = Some x.
Proof. destruct j as [|[]| | | |]; cbn; split; congruence. Qed.
Lemma bind_ok {A B} (r : res A) (k : A -> res B) y : rbind r k = Ok y <-> exists x, r = Ok x /\ k x = Ok y.
Proof. destruct r; cbn; split; [eauto|intros (? & E & ?)|discriminate|intros (? & E & ?)]; congruence. Qed.
Lemma required_ok k kw j : kw_required k kw = Ok j <-> dget k kw = Some j.
Proof. unfold kw_required. destruct (dget k kw); split; congruence. Qed.

Lemma axis_ok kw p : load_spar kw = Ok p <-> describes_axis kw p.
Proof.
  unfold load_spar, describes_axis, number_at, count_at. split.
  - intro H. apply bind_ok in H as ([] & K & H). apply known_ok in K.
    apply bind_ok in H as (l & L & H). apply required_ok in L. apply bind_ok in H as (h & Hh & H). apply required_ok in Hh.
    apply bind_ok in H as (b & B & H). apply required_ok in B.
    apply bind_ok in H as (l' & L' & H). apply jfloat_as in L'. apply bind_ok in H as (h' & H' & H). apply jfloat_as in H'.
    apply bind_ok in H as (b' & B' & H). apply jint_as in B'. injection H as <-. cbn. eauto 10.
  - destruct p as [lo hi n]. cbn. intros (K & (l & L & L') & (h & Hh & H') & (b & B & B')).
    apply known_ok in K. apply required_ok in L, Hh, B. apply jfloat_as in L', H'. apply jint_as in B'.
    rewrite K. cbn [rbind]. rewrite L, Hh, B. cbn [rbind]. rewrite L', H'. cbn [rbind]. now rewrite B'.
Qed.

Lemma maybe_def k kw d dj o : jopt dj = Ok d -> (jopt (kw_default k dj kw) = Ok o <-> maybe_at kw k d o).
Proof.
  intro D. unfold kw_default, maybe_at. destruct (dget k kw) as [[]|]; cbn; rewrite ?D; split; try congruence; tauto.
Qed.
Lemma maybe_req k kw d o j : dget k kw = Some j -> (jopt j = Ok o <-> maybe_at kw k d o).
Proof. intro E. unfold maybe_at. rewrite E. destruct j; cbn; split; try congruence; tauto. Qed.
Lemma text_def k kw o : jstr (kw_default k JNull kw) = Ok o <-> text_at kw k o.
Proof.
  unfold kw_default, text_at. destruct (dget k kw) as [[]|]; cbn; destruct o; split; intro H; try congruence; try tauto;
    try (destruct H; congruence).
Qed.
Lemma flag_def k kw o : jflag (kw_default k JNull kw) = Ok o <->
  (o = Some true /\ flag_on kw k) \/ (o <> Some true /\ flag_off kw k /\ match dget k kw with Some (JBool b) => o = Some b | _ => o = None end).
Proof.
  unfold kw_default, flag_on, flag_off. destruct (dget k kw) as [[|[]| | | |]|]; cbn; split; intro H;
    repeat match goal with H : Ok _ = Ok _ |- _ => injection H as <- end; try discriminate;
    try (left; split; congruence); try (right; repeat split; [congruence|tauto]);
    try (destruct H as [[? ?]|(? & ? & ?)]; try congruence).
  all: destruct H0 as [|[|]]; discriminate.
Qed.
Lemma flag_off_def k kw : flag_off kw k -> exists o, jflag (kw_default k JNull kw) = Ok o /\ truthy o = false /\ o <> Some true.
Proof. unfold flag_off, kw_default. intros [E|[E|E]]; rewrite E; cbn; eexists; (split; [reflexivity|]; split; [reflexivity|congruence]). Qed.
Lemma flag_on_def k kw : flag_on kw k -> jflag (kw_default k JNull kw) = Ok (Some true).
Proof. unfold flag_on, kw_default. intros ->. reflexivity. Qed.
Lemma flag_cases k kw o : jflag (kw_default k JNull kw) = Ok o -> o = Some true /\ flag_on kw k \/ truthy o = false /\ flag_off kw k.
Proof.
  intro H. apply flag_def in H as [H|(N & F & _)]; [now left|]. right. split; [|assumption]. destruct o as [[]|]; try reflexivity. now elim N.
Qed.

Section Fit.
Variable e : Qc.
Lemma dim_ok dim kw o K : kw_known (match dim with Some _ => fp_keywords | None => "dimension" :: fp_keywords end) kw = Ok K ->
  (match dim with Some d => Ok (Some d) | None => jstr (kw_default "dimension" JNull kw) end = Ok o <->
   match dim with Some d => only fit_keys kw /\ o = Some d | None => only ("dimension" :: fit_keys) kw /\ text_at kw "dimension" o end).
Proof.
  destruct K. intro H. apply known_ok in H. destruct dim as [d|].
  - split; [intro E; split; [exact H|congruence]|intros [_ ->]; reflexivity].
  - rewrite text_def. split; [intro E; split; [exact H|exact E]|tauto].
Qed.
Lemma fit_ok name dim kw p : load_fpar e name dim kw = Ok p <-> describes_fit e name dim kw p.
Proof.
  unfold load_fpar, describes_fit, number_at, count_at. split.
  - intro H. apply bind_ok in H as ([] & K & H).
    apply bind_ok in H as (pr & Pr & H). apply required_ok in Pr. apply bind_ok in H as (sg & Sg & H). apply required_ok in Sg.
    apply bind_ok in H as (l & L & H). apply required_ok in L. apply bind_ok in H as (h & Hh & H). apply required_ok in Hh.
    apply bind_ok in H as (b & B & H). apply required_ok in B.
    apply bind_ok in H as (l' & L' & H). apply jfloat_as in L'. apply bind_ok in H as (h' & H' & H). apply jfloat_as in H'.
    apply bind_ok in H as (b' & B' & H). apply jint_as in B'. apply bind_ok in H as (pr' & Pr' & H). apply jfloat_as in Pr'.
    apply bind_ok in H as (sg' & Sg' & H). apply (maybe_req "sigma" kw None) in Sg'; [|assumption].
    apply bind_ok in H as (d & D & H). apply (dim_ok _ _ _ _ K) in D.
    apply bind_ok in H as (cu & Cu & H). apply (maybe_def _ _ None) in Cu; [|reflexivity].
    apply bind_ok in H as (pe & Pe & H). apply (maybe_def _ _ None) in Pe; [|reflexivity].
    apply bind_ok in H as (be & Be & H). apply (maybe_def _ _ None) in Be; [|reflexivity].
    apply bind_ok in H as (ls & Ls & H). apply flag_cases in Ls.
    apply bind_ok in H as (ba & Ba & H). apply (maybe_def _ _ (Some e)) in Ba; [|reflexivity].
    apply bind_ok in H as (ld & Ld & H). apply flag_cases in Ld.
    unfold new_fpar in H. destruct Ls as [[-> Ls]|[T Ls]].
    + cbn [truthy] in H. destruct ba as [ba|]; [|discriminate]. injection H as <-. cbn.
      repeat (split; [first [assumption | reflexivity | eexists; split; eassumption | split; [congruence|assumption]]|]).
      split; [destruct Ld as [[_ ?]|[_ ?]]; tauto|]. left. repeat (split; [first [assumption|reflexivity|congruence]|]). assumption.
    + rewrite T in H. injection H as <-. cbn.
      repeat (split; [first [assumption | reflexivity | eexists; split; eassumption | split; [congruence|assumption]]|]).
      split; [destruct Ld as [[_ ?]|[_ ?]]; tauto|]. right. repeat (split; [first [assumption|reflexivity|congruence|eexists; eassumption]|]).
      destruct Ld as [[-> ?]|[-> ?]]; cbn; [left|right]; split; (assumption || reflexivity).
  - destruct p as [nm pr sg lo hi n di va cu be pe ls ba ld]. cbn.
    intros (<- & D & (prj & Pr & Pr') & [S0 S1] & (lj & L & L') & (hj & Hh & H') & (bj & B & B') & -> & Cu & Pe & Be & LD & LS).
    assert (K : kw_known (match dim with Some _ => fp_keywords | None => "dimension" :: fp_keywords end) kw = Ok tt).
    { apply known_ok. destruct dim; apply D. }
    apply (dim_ok _ _ _ _ K) in D. rewrite K. cbn [rbind]. apply required_ok in Pr, L, Hh, B. apply jfloat_as in Pr', L', H'. apply jint_as in B'.
    destruct (dget "sigma" kw) as [sj|] eqn:SJ; [|congruence]. apply (maybe_req _ _ _ _ _ SJ) in S1. apply required_ok in SJ.
    apply (maybe_def _ _ None JNull) in Cu; [|reflexivity]. apply (maybe_def _ _ None JNull) in Pe; [|reflexivity]. apply (maybe_def _ _ None JNull) in Be; [|reflexivity].
    assert (LD' : exists o, jflag (kw_default "logscale_deviation" JNull kw) = Ok o /\
      (flag_on kw "logscale_deviation" -> o = Some true) /\ (flag_off kw "logscale_deviation" -> truthy o = false)).
    { destruct LD as [F|F].
      - exists (Some true). split; [now apply flag_on_def|]. split; [reflexivity|]. intros [G|[G|G]]; unfold flag_on in F; congruence.
      - destruct (flag_off_def _ _ F) as (o & O1 & O2 & O3). exists o. split; [assumption|]. split; [|auto].
        intro G. unfold flag_on in G. destruct F as [F|[F|F]]; congruence. }
    destruct LD' as (o & O & On & Off).
    rewrite Pr, SJ, L, Hh, B. cbn [rbind]. rewrite L', H'. cbn [rbind]. rewrite B', Pr'. cbn [rbind]. rewrite S1. cbn [rbind]. rewrite D. cbn [rbind].
    rewrite Cu, Pe, Be. cbn [rbind].
    destruct LS as [(F & -> & -> & N & M)|(F & -> & -> & (b & M) & LS)].
    + rewrite (flag_on_def _ _ F). cbn [rbind]. apply (maybe_def _ _ (Some e) (JNum e)) in M; [|reflexivity]. rewrite M. cbn [rbind]. rewrite O. cbn [rbind].
      unfold new_fpar. cbn [truthy]. destruct ba; [reflexivity|congruence].
    + destruct (flag_off_def _ _ F) as (l & O1 & O2 & O3). rewrite O1. cbn [rbind].
      apply (maybe_def _ _ (Some e) (JNum e)) in M; [|reflexivity]. rewrite M. cbn [rbind]. rewrite O. cbn [rbind].
      unfold new_fpar. rewrite O2. destruct LS as [[G ->]|[G ->]].
      * rewrite (On G). reflexivity.
      * rewrite (Off G). reflexivity.
Qed.
End Fit.

(** ** Lists of entries *)
Lemma NoDup_left {A} (l r : list A) : NoDup (l ++ r) -> NoDup l.
Proof.
  induction l as [|a l IH]; cbn; intro N; [constructor|]. inversion N as [|x y I N']; subst. constructor; [|auto]. intro H. apply I. apply in_or_app. now left.
Qed.
Lemma Forall2_impl {A B} (P Q : A -> B -> Prop) l c : (forall a b, P a b -> Q a b) -> Forall2 P l c -> Forall2 Q l c.
Proof. intros H F. induction F; constructor; auto. Qed.
Lemma load_all_iff {A} (f : string -> jval -> res A) : forall l acc r, NoDup (dkeys acc ++ map fst l) ->
  (load_all f acc l = Ok r <-> exists c, r = acc ++ c /\
     Forall2 (fun w kp => fst kp = fst w /\ f (fst w) (snd w) = Ok (snd kp)) l c).
Proof.
  induction l as [|[k j] l IH]; intros acc r N; cbn [load_all].
  - split.
    + intro H. injection H as <-. exists []. split; [now rewrite app_nil_r|constructor].
    + intros (c & -> & F). inversion F. now rewrite app_nil_r.
  - assert (K : ~ In k (dkeys acc)).
    { cbn [map fst] in N. apply NoDup_remove_2 in N. intro I. apply N. apply in_or_app. now left. }
    assert (N' : forall p, NoDup (dkeys (acc ++ [(k, p)]) ++ map fst l)).
    { intro p. unfold dkeys in *. rewrite map_app, <- app_assoc. exact N. }
    split.
    + intro H. apply bind_ok in H as (p & P & H). rewrite dset_fresh in H by assumption.
      apply IH in H as (c & -> & F); [|apply N']. exists ((k, p) :: c). split; [now rewrite <- app_assoc|]. constructor; [|assumption].
      cbn. split; [reflexivity|assumption].
    + intros (c & -> & F). inversion F as [|w [k' p] l' c' (E & P) F']; subst. cbn [fst snd] in *. subst. rewrite P. cbn [rbind].
      rewrite dset_fresh by assumption. apply IH; [apply N'|]. exists c'. split; [now rewrite <- app_assoc|assumption].
Qed.
Lemma load_all_err {A} (f : string -> jval -> res A) k j x post : forall pre acc,
  Forall (fun w => exists p, f (fst w) (snd w) = Ok p) pre -> f k j = Err x ->
  load_all f acc (pre ++ (k, j) :: post) = Err x.
Proof.
  induction pre as [|[k' j'] pre IH]; intros acc F E; cbn [load_all app].
  - now rewrite E.
  - inversion F as [|w l (p & P) F']; subst. cbn [fst snd] in *. rewrite P. cbn [rbind]. now apply IH.
Qed.
Lemma axis_entry j p : (do kw <- jobj j; load_spar kw) = Ok p <-> exists kw, j = JObj kw /\ describes_axis kw p.
Proof.
  rewrite bind_ok. split.
  - intros (kw & J & P). exists kw. split; [destruct j; try discriminate; now injection J as ->|now apply axis_ok].
  - intros (kw & -> & P). exists kw. split; [reflexivity|now apply axis_ok].
Qed.
Lemma rate_load e syst j c : load_rate e syst j = Ok c <->
  contains "rate" syst = true /\ cp_class c = PRate /\ exists kw, j = JObj kw /\ describes_fit e syst None kw (cp_par c).
Proof.
  unfold load_rate. destruct (contains "rate" syst); [|split; [discriminate|intros [H _]; discriminate]]. rewrite bind_ok. split.
  - intros (kw & J & P). destruct (load_fpar e syst None kw) as [p|] eqn:Q; [|discriminate]. cbn in P. injection P as <-.
    split; [reflexivity|]. split; [reflexivity|]. exists kw. split; [destruct j; try discriminate; now injection J as ->|now apply fit_ok].
  - intros (_ & C & kw & -> & P). exists kw. split; [reflexivity|]. apply fit_ok in P. rewrite P. cbn. destruct c. cbn in *. now subst.
Qed.
Lemma section_ok key config d : dget key config = Some (JObj d) -> d <> [] -> section key config = Ok d.
Proof. unfold section. intros ->. destruct d; [congruence|reflexivity]. Qed.
Lemma section_no key config : no_section key config -> section key config = Err EKeyError.
Proof. unfold section. intros [E|[E|E]]; now rewrite E. Qed.

Lemma read_spectra_l config d c : dget "parameters" config = Some (JObj d) -> d <> [] -> NoDup (map fst d) ->
  (sc_load config = Ok c <-> Forall2 (fun w kp => fst kp = fst w /\ exists kw, snd w = JObj kw /\ describes_axis kw (snd kp)) d c).
Proof.
  intros D N U. unfold sc_load. rewrite (section_ok _ _ _ D N). cbn [rbind]. split.
  - intro L. apply load_all_iff in L as (c' & -> & F); [|exact U]. cbn [app]. eapply Forall2_impl; [|exact F].
    intros w kp (E & P). split; [assumption|]. now apply axis_entry.
  - intro F. apply load_all_iff; [exact U|]. exists c. split; [reflexivity|]. eapply Forall2_impl; [|exact F]. intros w kp (E & P). split; [assumption|]. now apply axis_entry.
Qed.
Lemma read_fit_l e config d sn n r : dget "spectral_fit_parameters" config = Some (JObj d) -> d <> [] -> NoDup (map fst d) ->
  (sf_load e config sn n = Ok r <-> sf_name r = n /\ sf_spectra r = sn /\ Forall2 (describes_rate e) d (sf_pars r)).
Proof.
  intros D N U. unfold sf_load. rewrite (section_ok _ _ _ D N). cbn [rbind]. rewrite bind_ok. split.
  - intros (ps & L & H). injection H as <-. cbn. split; [reflexivity|]. split; [reflexivity|].
    apply load_all_iff in L as (c & -> & F); [|exact U]. cbn [app]. eapply Forall2_impl; [|exact F]. intros w kp (E & P).
    apply rate_load in P. unfold describes_rate. tauto.
  - intros (E1 & E2 & F). destruct r as [n' sn' ps]. cbn in *. subst. exists ps. split; [|reflexivity]. apply load_all_iff; [exact U|].
    exists ps. split; [reflexivity|]. eapply Forall2_impl; [|exact F]. intros w kp P. unfold describes_rate in P. split; [tauto|]. apply rate_load. tauto.
Qed.

(** ** Global configurations *)
Lemma class_iff syst c : class_of syst = Ok c <-> systematic syst c.
Proof.
  unfold class_of, systematic. destruct (String.eqb_spec syst "resolution") as [->|N1]; cbn [orb].
  { destruct c; split; intro H; try congruence; try (now left); try discriminate; now destruct H. }
  destruct (String.eqb_spec syst "resolution_ly") as [->|N2].
  { destruct c; split; intro H; try congruence; try (now right); try discriminate; now destruct H. }
  destruct (String.eqb_spec syst "shift") as [->|N3].
  { destruct c; split; intro H; try congruence; try discriminate; try contradiction. destruct H; congruence. }
  destruct (String.eqb_spec syst "scale") as [->|N4].
  { destruct c; split; intro H; try congruence; try discriminate; try contradiction. destruct H; congruence. }
  destruct c; split; intro H; try congruence; try discriminate; try contradiction. destruct H; congruence.
Qed.
Lemma load_dim_iff e dim : forall l st r, NoDup (dkeys (snd st) ++ map (fun s => (dim ++ "_" ++ fst s)%string) l) ->
  ((exists n, load_dim e dim st l = Ok (n, r)) <-> exists c, r = snd st ++ c /\ Forall2 (describes_global e) (map (fun s => (dim, fst s, snd s)) l) c).
Proof.
  induction l as [|[s j] l IH]; intros [nm acc] r N; cbn [load_dim map fst snd] in *.
  - split.
    + intros [n H]. injection H as <- <-. exists []. split; [now rewrite app_nil_r|constructor].
    + intros (c & -> & F). inversion F. rewrite app_nil_r. eexists; reflexivity.
  - set (k := (dim ++ "_" ++ s)%string) in *.
    assert (K : ~ In k (dkeys acc)). { apply NoDup_remove_2 in N. intro I. apply N. apply in_or_app. now left. }
    assert (N' : forall p, NoDup (dkeys (acc ++ [(k, p)]) ++ map (fun s => (dim ++ "_" ++ fst s)%string) l)).
    { intro p. unfold dkeys in *. rewrite map_app, <- app_assoc. exact N. }
    split.
    + intros [n H]. apply bind_ok in H as (cl & C & H). apply bind_ok in H as (kw & J & H). apply bind_ok in H as (p & P & H). rewrite dset_fresh in H by assumption.
      destruct (proj1 (IH (k, acc ++ [(k, GE (CPar cl p) true)]) r (N' _)) (ex_intro _ n H)) as (c & -> & F). cbn [snd].
      exists ((k, GE (CPar cl p) true) :: c). split; [now rewrite <- app_assoc|]. constructor; [|assumption].
      cbn. split; [reflexivity|]. split; [reflexivity|]. split; [now apply class_iff|]. exists kw. split; [destruct j; try discriminate; now injection J as ->|]. now apply fit_ok.
    + intros (c & -> & F). inversion F as [|w [k' [[cl p] g]] l' c' W F']; subst. cbn in W. destruct W as (-> & -> & C & kw & -> & P).
      apply class_iff in C. rewrite C. cbn [rbind jobj]. change (describes_fit e k (Some dim) kw p) in P. apply fit_ok in P. rewrite P. cbn [rbind]. rewrite dset_fresh by assumption.
      apply IH; [apply N'|]. exists c'. cbn [snd]. split; [now rewrite <- app_assoc|assumption].
Qed.
Lemma Forall2_split_l {A B} (P : A -> B -> Prop) l1 l2 c : Forall2 P (l1 ++ l2) c -> exists c1 c2, c = c1 ++ c2 /\ Forall2 P l1 c1 /\ Forall2 P l2 c2.
Proof. intro H. apply Forall2_app_inv_l in H as (c1 & c2 & H1 & H2 & ->). eauto. Qed.
Lemma describes_keys e ws c : Forall2 (describes_global e) ws c -> dkeys c = map w_name ws.
Proof.
  induction 1 as [|[[d s] j] ke ws c W F IH]; [reflexivity|]. cbn. f_equal; [apply W|exact IH].
Qed.
Lemma load_dims_iff e : forall d st r, all_objects d -> NoDup (dkeys (snd st) ++ map w_name (written d)) ->
  ((exists n, load_dims e st d = Ok (n, r)) <-> exists c, r = snd st ++ c /\ Forall2 (describes_global e) (written d) c).
Proof.
  induction d as [|[dim j] d IH]; intros st r O N; cbn [load_dims].
  - split.
    + intros [n H]. injection H as H. exists []. rewrite H. split; [cbn; now rewrite app_nil_r|constructor].
    + intros (c & -> & F). inversion F. rewrite app_nil_r. exists (fst st). now destruct st.
  - inversion O as [|x y [l L] O']; subst. cbn [snd] in L. subst j. cbn [jobj rbind written flat_map fst snd] in *. fold (written d) in *.
    rewrite map_app, map_map in N. assert (N1 : NoDup (dkeys (snd st) ++ map (fun s => (dim ++ "_" ++ fst s)%string) l)).
    { rewrite app_assoc in N. apply NoDup_left in N. exact N. }
    split.
    + intros [n H]. apply bind_ok in H as ([n1 r1] & H1 & H2).
      destruct (proj1 (load_dim_iff e dim l st r1 N1) (ex_intro _ n1 H1)) as (c1 & -> & F1).
      assert (N2 : NoDup (dkeys (snd st ++ c1) ++ map w_name (written d))).
      { unfold dkeys in *. rewrite map_app. change (map fst c1) with (dkeys c1). rewrite (describes_keys _ _ _ F1), map_map, <- app_assoc. exact N. }
      destruct (proj1 (IH (n1, snd st ++ c1) r O' N2) (ex_intro _ n H2)) as (c2 & -> & F2). exists (c1 ++ c2). cbn [snd]. split; [now rewrite app_assoc|]. now apply Forall2_app.
    + intros (c & -> & F). apply Forall2_split_l in F as (c1 & c2 & -> & F1 & F2).
      destruct (proj2 (load_dim_iff e dim l st (snd st ++ c1) N1)) as [n1 H1]; [eauto|].
      assert (N2 : NoDup (dkeys (snd st ++ c1) ++ map w_name (written d))).
      { unfold dkeys in *. rewrite map_app. change (map fst c1) with (dkeys c1). rewrite (describes_keys _ _ _ F1), map_map, <- app_assoc. exact N. }
      destruct (proj2 (IH (n1, snd st ++ c1) ((snd st ++ c1) ++ c2) O' N2)) as [n H2]; [exists c2; auto|]. exists n. rewrite H1. cbn [rbind]. now rewrite app_assoc.
Qed.
Lemma load_spectral_iff e : forall l acc r, NoDup (dkeys acc ++ map fst l) ->
  (load_spectral e acc l = Ok r <-> exists c, r = acc ++ c /\ Forall2 (describes_spectral e) l c).
Proof.
  induction l as [|[k j] l IH]; intros acc r N; cbn [load_spectral].
  - split.
    + intro H. injection H as <-. exists []. split; [now rewrite app_nil_r|constructor].
    + intros (c & -> & F). inversion F. now rewrite app_nil_r.
  - assert (K : ~ In k (dkeys acc)).
    { cbn [map fst] in N. apply NoDup_remove_2 in N. intro I. apply N. apply in_or_app. now left. }
    assert (N' : forall p, NoDup (dkeys (acc ++ [(k, p)]) ++ map fst l)).
    { intro p. unfold dkeys in *. rewrite map_app, <- app_assoc. exact N. }
    split.
    + destruct (contains "rate" k) eqn:R; [|discriminate]. intro H. apply bind_ok in H as (kw & J & H). apply bind_ok in H as (p & P & H).
      rewrite dset_fresh in H by assumption. apply IH in H as (c & -> & F); [|apply N']. exists ((k, GE (CPar PRate p) false) :: c).
      split; [now rewrite <- app_assoc|]. constructor; [|assumption]. split; [reflexivity|]. split; [reflexivity|]. split; [assumption|]. split; [reflexivity|].
      exists kw. split; [cbn; destruct j; try discriminate; now injection J as ->|]. now apply fit_ok.
    + intros (c & -> & F). inversion F as [|w [k' [[cl p] g]] l' c' W F']; subst. destruct W as (G & E & R & C & kw & J & P). cbn in *. subst.
      rewrite R. cbn [jobj rbind]. apply fit_ok in P. rewrite P. cbn [rbind]. rewrite dset_fresh by assumption.
      apply IH; [apply N'|]. exists c'. split; [now rewrite <- app_assoc|assumption].
Qed.
Lemma read_global_l e config d n pars : dget "global_fit_parameters" config = Some (JObj d) -> all_objects d -> NoDup (map w_name (written d)) ->
  ((exists m, gc_load e config None n = Ok (GC m pars)) <-> Forall2 (describes_global e) (written d) pars).
Proof.
  intros D O N. unfold gc_load. rewrite D. cbn [jobj rbind]. pose proof (load_dims_iff e d (n, []) pars O N) as H. cbn [snd app] in H. split.
  - intros [m E]. apply bind_ok in E as ([m' r] & E & X). injection X as -> ->. destruct (proj1 H (ex_intro _ _ E)) as (c & -> & F). exact F.
  - intro F. destruct (proj2 H) as [m E]; [eauto|]. exists m. rewrite E. reflexivity.
Qed.
Lemma read_both_l e config d sc s n pars : dget "global_fit_parameters" config = Some (JObj d) -> all_objects d ->
  dget "spectral_fit_parameters" sc = Some (JObj s) -> s <> [] -> NoDup (map w_name (written d) ++ map fst s) ->
  ((exists m, gc_load e config (Some sc) n = Ok (GC m pars)) <->
   exists g r, pars = g ++ r /\ Forall2 (describes_global e) (written d) g /\ Forall2 (describes_spectral e) s r).
Proof.
  intros D O S S0 N. unfold gc_load. rewrite D. cbn [jobj rbind]. rewrite (section_ok _ _ _ S S0). cbn [rbind].
  pose proof (NoDup_left _ _ N) as N1. split.
  - intros [m E]. apply bind_ok in E as ([m' g] & E & X). cbn [snd] in X. apply bind_ok in X as (ps & X & Y). injection Y as -> ->.
    destruct (proj1 (load_dims_iff e d (n, []) g O N1) (ex_intro _ _ E)) as (c & -> & F). cbn [snd app] in *.
    apply load_spectral_iff in X as (r & -> & G); [eauto|]. now rewrite (describes_keys _ _ _ F).
  - intros (g & r & -> & F & G). destruct (proj2 (load_dims_iff e d (n, []) g O N1)) as [m E]; [exists g; auto|]. exists m. rewrite E. cbn [rbind snd fst].
    rewrite (proj2 (load_spectral_iff e s g (g ++ r) ltac:(now rewrite (describes_keys _ _ _ F)))); [reflexivity|]. eauto.
Qed.

(** ** Wrong ones *)
Lemma required_no k kw : dget k kw = None -> kw_required k kw = Err ETypeError.
Proof. unfold kw_required. now intros ->. Qed.
Lemma number_cases j : (exists x, jfloat j = Ok x) /\ (exists z, jint j = Ok z) /\ not_number j = None \/ exists x, jfloat j = Err x /\ jint j = Err x /\ not_number j = Some x.
Proof. destruct j as [|[]| | | |]; cbn; eauto 10. Qed.
Lemma axis_no kw x : wrong_axis kw x -> load_spar kw = Err x.
Proof.
  unfold load_spar. intros [[N ->]|[K H]]; [now rewrite (known_no _ _ N)|]. apply known_ok in K. rewrite K. cbn [rbind].
  destruct H as [[(k & I & E) ->]|(l & h & b & L & Hh & B & W)].
  - destruct I as [<-|[<-|[<-|[]]]]; unfold kw_required; rewrite E; destruct (dget "low" kw), (dget "high" kw); reflexivity.
  - unfold kw_required. rewrite L, Hh, B. cbn [rbind]. unfold first_wrong in W. cbn [fold_right] in W.
    destruct (number_cases l) as [[(? & ->) [_ E]]|(y & -> & _ & E)]; rewrite E in W; cbn [rbind]; [|congruence].
    destruct (number_cases h) as [[(? & ->) [_ E']]|(y & -> & _ & E')]; rewrite E' in W; cbn [rbind]; [|congruence].
    destruct (number_cases b) as [[_ [(? & ->) E2]]|(y & _ & -> & E2)]; rewrite E2 in W; cbn [rbind]; congruence.
Qed.
Lemma fit_no e name dim kw x : wrong_fit (match dim with Some _ => fit_keys | None => "dimension" :: fit_keys end) kw x -> load_fpar e name dim kw = Err x.
Proof.
  unfold load_fpar. change fp_keywords with fit_keys. intros [[N ->]|[K H]]; [now rewrite (known_no _ _ N)|]. apply known_ok in K. rewrite K. cbn [rbind].
  destruct H as [[(k & I & E) ->]|(l & h & b & p & L & Hh & B & P & Sg & W)].
  - destruct I as [<-|[<-|[<-|[<-|[<-|[]]]]]]; unfold kw_required; rewrite E; destruct (dget "prior" kw), (dget "sigma" kw), (dget "low" kw), (dget "high" kw); reflexivity.
  - unfold kw_required. rewrite L, Hh, B, P. destruct (dget "sigma" kw); [|congruence]. cbn [rbind]. unfold first_wrong in W. cbn [fold_right] in W.
    destruct (number_cases l) as [[(? & ->) [_ E]]|(y & -> & _ & E)]; rewrite E in W; cbn [rbind]; [|congruence].
    destruct (number_cases h) as [[(? & ->) [_ E']]|(y & -> & _ & E')]; rewrite E' in W; cbn [rbind]; [|congruence].
    destruct (number_cases b) as [[_ [(? & ->) E2]]|(y & _ & -> & E2)]; rewrite E2 in W; cbn [rbind]; [|congruence].
    destruct (number_cases p) as [[(? & ->) [_ E3]]|(y & -> & _ & E3)]; rewrite E3 in W; cbn [rbind]; congruence.
Qed.
Lemma entry_no {A} (wrong : jdict -> exn -> Prop) (f : jdict -> res A) j x : (forall kw y, wrong kw y -> f kw = Err y) -> wrong_entry wrong j x -> (do kw <- jobj j; f kw) = Err x.
Proof. intros H W. destruct j; cbn in *; try congruence. now apply H. Qed.
Lemma spectra_no_l config pre k j post x : dget "parameters" config = Some (JObj (pre ++ (k, j) :: post)) ->
  Forall (fun w => exists kw p, snd w = JObj kw /\ describes_axis kw p) pre -> wrong_entry wrong_axis j x -> sc_load config = Err x.
Proof.
  intros D F W. unfold sc_load. rewrite (section_ok _ _ _ D ltac:(now destruct pre)). cbn [rbind]. apply load_all_err.
  - eapply Forall_impl; [|exact F]. intros w (kw & p & J & P). exists p. apply axis_entry. eauto.
  - apply entry_no with wrong_axis; [exact axis_no|assumption].
Qed.
Lemma fit_no_l e config sn n pre k j post x : dget "spectral_fit_parameters" config = Some (JObj (pre ++ (k, j) :: post)) ->
  Forall (fun w => exists c, describes_rate e w c) pre ->
  (contains "rate" k = true /\ wrong_entry (wrong_fit ("dimension" :: fit_keys)) j x \/ contains "rate" k = false /\ x = EIndexError) ->
  sf_load e config sn n = Err x.
Proof.
  intros D F W. unfold sf_load. rewrite (section_ok _ _ _ D ltac:(now destruct pre)). cbn [rbind].
  rewrite (load_all_err _ k j x post pre); [reflexivity| |].
  - eapply Forall_impl; [|exact F]. intros w [c C]. exists (snd c). apply rate_load. unfold describes_rate in C. tauto.
  - unfold load_rate. destruct W as [[R W]|(R & ->)]; rewrite R; [|reflexivity].
    apply entry_no with (wrong_fit ("dimension" :: fit_keys)); [|assumption]. intros kw y Y. rewrite (fit_no e k None kw y Y). reflexivity.
Qed.
(** A prefix of good global entries, then a bad one. *)
Lemma load_dim_err e dim s j x post : forall pre st,
  Forall (fun w => exists c, describes_global e (dim, fst w, snd w) c) pre ->
  (forall c, systematic s c -> wrong_entry (wrong_fit fit_keys) j x) -> ((forall c, ~ systematic s c) -> x = EIndexError) ->
  load_dim e dim st (pre ++ (s, j) :: post) = Err x.
Proof.
  induction pre as [|[s' j'] pre IH]; intros st F W X; cbn [app load_dim].
  - destruct (class_of s) as [c|y] eqn:C; cbn [rbind].
    + apply class_iff in C. pose proof (entry_no (wrong_fit fit_keys) (load_fpar e (dim ++ "_" ++ s)%string (Some dim)) j x (fun kw y => fit_no e (dim ++ "_" ++ s)%string (Some dim) kw y) (W c C)) as E.
      destruct (jobj j); cbn [rbind] in *; [now rewrite E|congruence].
    + rewrite X; [|intros c H; apply class_iff in H; congruence]. unfold class_of in C.
      repeat match type of C with context [if ?b then _ else _] => destruct b end; congruence.
  - inversion F as [|w l [[k [[cl p] g]] G] F']; subst. cbn in G. destruct G as (-> & -> & C & kw & -> & P). apply class_iff in C. rewrite C. cbn [rbind jobj].
    change (describes_fit e (dim ++ "_" ++ s')%string (Some dim) kw p) in P. apply fit_ok in P. rewrite P. cbn [rbind]. now apply IH.
Qed.
Lemma load_dim_total e dim : forall l st, Forall (fun w => exists c, describes_global e (dim, fst w, snd w) c) l -> exists st', load_dim e dim st l = Ok st'.
Proof.
  induction l as [|[s j] l IH]; intros st F; cbn [load_dim]; [eauto|]. inversion F as [|w l' [[k [[cl p] g]] G] F']; subst. cbn in G. destruct G as (-> & -> & C & kw & -> & P).
  apply class_iff in C. rewrite C. cbn [rbind jobj]. change (describes_fit e (dim ++ "_" ++ s)%string (Some dim) kw p) in P. apply fit_ok in P. rewrite P. cbn [rbind]. now apply IH.
Qed.
Lemma globals_map e dim l : Forall (fun w => exists c, describes_global e w c) (map (fun s : string * jval => (dim, fst s, snd s)) l) ->
  Forall (fun w => exists c, describes_global e (dim, fst w, snd w) c) l.
Proof. induction l as [|a l IH]; cbn [map]; intro F; inversion F; subst; constructor; auto. Qed.
Lemma load_dims_err e dim spre s j spost x post : forall pre st,
  all_objects pre -> Forall (fun w => exists c, describes_global e w c) (written (pre ++ [(dim, JObj spre)])) ->
  (forall c, systematic s c -> wrong_entry (wrong_fit fit_keys) j x) -> ((forall c, ~ systematic s c) -> x = EIndexError) ->
  load_dims e st (pre ++ (dim, JObj (spre ++ (s, j) :: spost)) :: post) = Err x.
Proof.
  induction pre as [|[d' j'] pre IH]; intros st O F W X; cbn [app load_dims].
  - cbn [jobj rbind]. rewrite (load_dim_err e dim s j x spost spre st); [reflexivity| |assumption|assumption].
    unfold written in F. cbn [app flat_map snd fst] in F. rewrite app_nil_r in F. apply globals_map in F. exact F.
  - inversion O as [|y z [l L] O']; subst. cbn [snd] in L. subst j'. unfold written in F. cbn [app flat_map snd fst] in F. fold (written (pre ++ [(dim, JObj spre)])) in F.
    apply Forall_app in F as [F1 F2]. apply globals_map in F1. cbn [jobj rbind]. destruct (load_dim_total e d' l st F1) as [st' ->]. cbn [rbind]. now apply IH.
Qed.
Lemma global_no_l e config sc n pre dim spre s j spost post x :
  dget "global_fit_parameters" config = Some (JObj (pre ++ (dim, JObj (spre ++ (s, j) :: spost)) :: post)) ->
  all_objects pre -> Forall (fun w => exists c, describes_global e w c) (written (pre ++ [(dim, JObj spre)])) ->
  (forall c, systematic s c -> wrong_entry (wrong_fit fit_keys) j x) -> ((forall c, ~ systematic s c) -> x = EIndexError) ->
  gc_load e config sc n = Err x.
Proof.
  intros D O F W X. unfold gc_load. rewrite D. cbn [jobj rbind]. now rewrite load_dims_err with (x := x).
Qed.
Lemma load_dims_total e : forall d st, all_objects d -> Forall (fun w => exists c, describes_global e w c) (written d) -> exists st', load_dims e st d = Ok st'.
Proof.
  induction d as [|[d' j'] d IH]; intros st O F; cbn [load_dims]; [eauto|].
  inversion O as [|y z [l L] O']; subst. cbn [snd] in L. subst j'. unfold written in F. cbn [app flat_map snd fst] in F. fold (written d) in F.
  apply Forall_app in F as [F1 F2]. apply globals_map in F1. cbn [jobj rbind]. destruct (load_dim_total e d' l st F1) as [st' ->]. cbn [rbind]. now apply IH.
Qed.
Lemma load_spectral_err e k j x post : forall pre acc, Forall (fun w => exists c, describes_rate e w c) pre ->
  (contains "rate" k = true /\ wrong_entry (wrong_fit ("dimension" :: fit_keys)) j x \/ contains "rate" k = false /\ x = EIndexError) ->
  load_spectral e acc (pre ++ (k, j) :: post) = Err x.
Proof.
  induction pre as [|[k' j'] pre IH]; intros acc F W; cbn [app load_spectral].
  - destruct W as [[R W]|[R ->]]; rewrite R; [|reflexivity].
    pose proof (entry_no (wrong_fit ("dimension" :: fit_keys)) (load_fpar e k None) j x (fun kw y => fit_no e k None kw y) W) as E.
    destruct (jobj j); cbn [rbind] in *; [now rewrite E|congruence].
  - inversion F as [|w l [c (E & R & C & kw & J & P)] F']; subst. cbn [fst snd] in *. subst. rewrite R. cbn [jobj rbind]. apply fit_ok in P. rewrite P. cbn [rbind]. now apply IH.
Qed.
Lemma both_no_l e config d sc n pre k j post x : dget "global_fit_parameters" config = Some (JObj d) -> all_objects d ->
  Forall (fun w => exists c, describes_global e w c) (written d) ->
  dget "spectral_fit_parameters" sc = Some (JObj (pre ++ (k, j) :: post)) -> Forall (fun w => exists c, describes_rate e w c) pre ->
  (contains "rate" k = true /\ wrong_entry (wrong_fit ("dimension" :: fit_keys)) j x \/ contains "rate" k = false /\ x = EIndexError) ->
  gc_load e config (Some sc) n = Err x.
Proof.
  intros D O G S F W. unfold gc_load. rewrite D. cbn [jobj rbind]. destruct (load_dims_total e d (n, []) O G) as [st ->]. cbn [rbind].
  rewrite (section_ok _ _ _ S ltac:(now destruct pre)). cbn [rbind]. now rewrite load_spectral_err with (x := x).
Qed.

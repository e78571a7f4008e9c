(** Spectra.shrink, cut and shrink_to_roi (C12-C16). *)
From Coq Require Import Lia.
From Verif Require Import Model.Base Model.PyStr Model.NDArray Model.Param Model.Config Model.Spectra.
From Verif Require Import Spec.AxisSpec Spec.ArraySpec Spec.SpectraSpec Spec.ShrinkSpec.
From Verif Require Import Proofs.QcLemmas Proofs.NDArrayLemmas Proofs.ParamLemmas Proofs.DictLemmas
  Proofs.StrLemmas Proofs.FillLemmas Proofs.ProjectLemmas Proofs.ShrinkAxis.
Local Open Scope string_scope.
Local Open Scope list_scope.

(** ** Keywords *)
Lemma split_kw_low v : split_kw (v ++ "_low")%string = (v, "low").
Proof.
  unfold split_kw. change "_low" with (String "_"%char "low").
  rewrite split_last by reflexivity. rewrite drop_last_app by reflexivity. reflexivity.
Qed.
Lemma split_kw_high v : split_kw (v ++ "_high")%string = (v, "high").
Proof.
  unfold split_kw. change "_high" with (String "_"%char "high").
  rewrite split_last by reflexivity. rewrite drop_last_app by reflexivity. reflexivity.
Qed.
Lemma split_kw_inv k par hl : split_kw k = (par, hl) -> par <> "" -> k = (par ++ String "_"%char hl)%string.
Proof.
  unfold split_kw. intros H N. injection H as H1 H2.
  destruct (has_char "_"%char k) eqn:E.
  - destruct (split_decompose _ _ E) as (a & Ea & _). rewrite H2 in Ea.
    rewrite H2 in H1. rewrite Ea in H1. rewrite drop_last_app in H1 by (cbn; lia). subst a. exact Ea.
  - rewrite split_none in H1, H2 by exact E. cbn in H1, H2. subst hl. exfalso. apply N. rewrite <- H1.
    unfold drop_last. replace (String.length k - (String.length k + 1)) with 0 by lia. destruct k; reflexivity.
Qed.

Lemma check1_good c k x :
  NoDup (map fst c) ->
  (exists v p, dget v c = Some p /\
      ((k = (v ++ "_low")%string /\ sp_low p <= x) \/ (k = (v ++ "_high")%string /\ x <= sp_high p))%Qc) ->
  shrink_check1 c k x = Ok tt.
Proof.
  intros ND (v & p & G & [[-> H]|[-> H]]); unfold shrink_check1; [rewrite split_kw_low|rewrite split_kw_high].
  - assert (I : str_in v (get_pars c) = true) by (apply str_in_iff; eapply dget_key, G).
    rewrite I. cbn [negb]. assert (E : get_par c v = Ok p) by (apply dlookup_ok, G). rewrite E. cbn [rbind].
    change (String.eqb "low" "low") with true. cbn [negb].
    destruct (isclose x (sp_low p)); [reflexivity|]. destruct (qltP x (sp_low p)); [exfalso; qlra|reflexivity].
  - assert (I : str_in v (get_pars c) = true) by (apply str_in_iff; eapply dget_key, G).
    rewrite I. cbn [negb]. assert (E : get_par c v = Ok p) by (apply dlookup_ok, G). rewrite E. cbn [rbind].
    change (String.eqb "high" "low") with false. change (String.eqb "high" "high") with true.
    destruct (isclose x (sp_high p)); [reflexivity|]. destruct (qltP (sp_high p) x); [exfalso; qlra|reflexivity].
Qed.
Lemma check_good c kw : NoDup (map fst c) -> good_keywords c kw -> shrink_check c kw = Ok tt.
Proof.
  intros ND. unfold good_keywords. induction kw as [|[k x] kw IH]; intro H; [reflexivity|].
  cbn [shrink_check]. rewrite check1_good; [|exact ND|apply H; left; reflexivity]. cbn [rbind].
  apply IH. intros k' x' I. apply H. right. exact I.
Qed.
Lemma check1_err c k x e : shrink_check1 c k x = Err e -> e = EIndexError \/ e = EValueError.
Proof.
  unfold shrink_check1. destruct (split_kw k) as [par hl].
  destruct (str_in par (get_pars c)) eqn:I; cbn [negb]; [|intro H; injection H as <-; auto].
  apply str_in_iff in I. destruct (key_dget par c I) as (p & G).
  assert (E : get_par c par = Ok p) by (apply dlookup_ok, G). rewrite E. cbn [rbind].
  destruct (String.eqb hl "low").
  - destruct (isclose x (sp_low p)); [discriminate|]. destruct (qlt x (sp_low p)); [|discriminate].
    intro H; injection H as <-; auto.
  - destruct (String.eqb hl "high").
    + destruct (isclose x (sp_high p)); [discriminate|]. destruct (qlt (sp_high p) x); [|discriminate].
      intro H; injection H as <-; auto.
    + intro H; injection H as <-; auto.
Qed.
Lemma check_err c kw e : shrink_check c kw = Err e -> e = EIndexError \/ e = EValueError.
Proof.
  induction kw as [|[k x] kw IH]; cbn [shrink_check]; [discriminate|].
  destruct (shrink_check1 c k x) eqn:E; cbn [rbind]; [exact IH|].
  intro H; injection H as <-. eapply check1_err, E.
Qed.
Lemma check_fail_in c kw k x e : In (k, x) kw -> shrink_check1 c k x = Err e -> exists e', shrink_check c kw = Err e'.
Proof.
  induction kw as [|[k' x'] kw IH]; cbn [In shrink_check]; intros H E; [destruct H|].
  destruct (shrink_check1 c k' x') as [u|e'] eqn:E'; cbn [rbind]; [|eauto].
  destruct H as [H|H]; [|apply IH; assumption]. injection H as -> ->. congruence.
Qed.
Lemma check1_unknown c k x :
  ~ In "" (map fst c) ->
  (forall v, In v (map fst c) -> k <> (v ++ "_low")%string /\ k <> (v ++ "_high")%string) ->
  shrink_check1 c k x = Err EIndexError.
Proof.
  intros NE H. unfold shrink_check1. destruct (split_kw k) as [par hl] eqn:S.
  destruct (str_in par (get_pars c)) eqn:I; cbn [negb]; [|reflexivity].
  apply str_in_iff in I.
  assert (Ek : k = (par ++ String "_"%char hl)%string).
  { apply (split_kw_inv k par hl S). intros ->. apply NE, I. }
  destruct (H par I) as [H1 H2]. destruct (key_dget par c I) as (p & G).
  assert (E : get_par c par = Ok p) by (apply dlookup_ok, G). rewrite E. cbn [rbind].
  destruct (String.eqb_spec hl "low") as [->|N1]; [exfalso; apply H1, Ek|].
  destruct (String.eqb_spec hl "high") as [->|N2]; [exfalso; apply H2, Ek|]. reflexivity.
Qed.
(** A bound outside the axis by more than the tolerance of numpy.isclose. *)
Lemma check1_low c v p x :
  dget v c = Some p -> (x < sp_low p)%Qc -> isclose x (sp_low p) = false ->
  shrink_check1 c (v ++ "_low")%string x = Err EValueError.
Proof.
  intros G H I. unfold shrink_check1. rewrite split_kw_low.
  assert (E : str_in v (get_pars c) = true) by (apply str_in_iff; eapply dget_key, G). rewrite E.
  assert (E' : get_par c v = Ok p) by (apply dlookup_ok, G). cbn [negb]. rewrite E'. cbn [rbind].
  change (String.eqb "low" "low") with true. cbn iota. rewrite I.
  destruct (qltP x (sp_low p)); [reflexivity|contradiction].
Qed.
Lemma check1_high c v p x :
  dget v c = Some p -> (sp_high p < x)%Qc -> isclose x (sp_high p) = false ->
  shrink_check1 c (v ++ "_high")%string x = Err EValueError.
Proof.
  intros G H I. unfold shrink_check1. rewrite split_kw_high.
  assert (E : str_in v (get_pars c) = true) by (apply str_in_iff; eapply dget_key, G). rewrite E.
  assert (E' : get_par c v = Ok p) by (apply dlookup_ok, G). cbn [negb]. rewrite E'. cbn [rbind].
  change (String.eqb "high" "low") with false. change (String.eqb "high" "high") with true. cbn iota. rewrite I.
  destruct (qltP (sp_high p) x); [reflexivity|contradiction].
Qed.

Lemma low_high_neq v v' : (v ++ "_low")%string <> (v' ++ "_high")%string.
Proof.
  intro H. pose proof (f_equal split_kw H) as E. rewrite split_kw_low, split_kw_high in E. congruence.
Qed.
Lemma req_bounds c kw v p :
  NoDup (map fst c) -> wf_axis p -> good_keywords c kw -> In (v, p) c ->
  (sp_low p <= req_low kw v p)%Qc /\ (req_high kw v p <= sp_high p)%Qc.
Proof.
  intros ND W G I. assert (Gp : dget v c = Some p) by (apply In_dget; assumption).
  unfold req_low, req_high. split.
  - destruct (dget (v ++ "_low")%string kw) as [x|] eqn:E; [|qlra].
    apply dget_In in E. destruct (G _ _ E) as (v' & p' & Gp' & [[Ev H]|[Ev _]]).
    + apply sapp_inj_r in Ev. subst. assert (p' = p) by congruence. subst. exact H.
    + exfalso. eapply low_high_neq, Ev.
  - destruct (dget (v ++ "_high")%string kw) as [x|] eqn:E; [|qlra].
    apply dget_In in E. destruct (G _ _ E) as (v' & p' & Gp' & [[Ev _]|[Ev H]]).
    + exfalso. symmetry in Ev. eapply low_high_neq, Ev.
    + apply sapp_inj_r in Ev. subst. assert (p' = p) by congruence. subst. exact H.
Qed.

(** ** The loop over the parameters *)
Definition axis_ok (p : spar) (lo hi : Qc) (p' : spar) (sl : Z * Z) : Prop :=
  shrink_axis p lo hi = Ok (p', sl) /\ sp_bins p' = (snd sl - fst sl)%Z /\
  (0 <= fst sl)%Z /\ (snd sl <= sp_bins p)%Z /\ ((0 < sp_bins p')%Z -> wf_axis p').
Lemma shrink_pars_ok kw c :
  Forall (fun vp => wf_axis (snd vp) /\
            (sp_low (snd vp) <= req_low kw (fst vp) (snd vp))%Qc /\
            (req_high kw (fst vp) (snd vp) <= sp_high (snd vp))%Qc) c ->
  exists c' sls, shrink_pars kw c = (c', Ok sls) /\ map fst c' = map fst c /\
    Forall2 (fun vp x => axis_ok (snd vp) (req_low kw (fst vp) (snd vp)) (req_high kw (fst vp) (snd vp))
                           (snd (fst x)) (snd x)) c (combine c' sls) /\
    length sls = length c /\ length c' = length c.
Proof.
  induction c as [|[v p] c IH]; intro H.
  - exists [], []. repeat split; constructor.
  - inversion H as [|? ? (W & L & U) H']; subst. destruct (IH H') as (c' & sls & E & K & F & L1 & L2).
    cbn [fst snd] in *.
    destruct (shrink_axis_general p _ _ W L U) as (nl & nh & lb & hb & Es & A & B & C).
    cbn [shrink_pars]. change (kw_or (v ++ "_low") kw (sp_low p)) with (req_low kw v p).
    change (kw_or (v ++ "_high") kw (sp_high p)) with (req_high kw v p).
    rewrite Es, E. cbn [rmap]. exists ((v, SPar nl nh (hb - lb)) :: c'), ((lb, hb) :: sls).
    split; [reflexivity|]. split; [cbn; rewrite K; reflexivity|].
    split; [|cbn; lia]. cbn [combine]. constructor; [|exact F]. cbn [fst snd].
    split; [exact Es|]. cbn [sp_bins fst snd]. split; [reflexivity|]. split; [exact A|]. split; [exact B|].
    intro G. split; [apply C, G|exact G].
Qed.

(** A slice with bounds inside the axis. *)
Definition slice_start (sl : Z * Z) : nat := Z.to_nat (fst sl).
Definition slice_len (sl : Z * Z) : nat := Z.to_nat (snd sl - fst sl).
Lemma slice_axis_in sl n :
  (0 <= fst sl)%Z -> (snd sl <= Z.of_nat n)%Z -> (0 < snd sl - fst sl)%Z ->
  slice_axis sl n = (slice_start sl, slice_len sl) /\ slice_start sl + slice_len sl <= n.
Proof.
  intros A B C. destruct sl as [l h]. unfold slice_axis, slice_start, slice_len, clip_bound. cbn [fst snd] in *.
  destruct (Z.ltb_spec l 0); [lia|]. destruct (Z.ltb_spec h 0); [lia|].
  split; [f_equal; lia|lia].
Qed.

(** What shrink does to any usable spectrum, provided a bin is left on every axis. *)
Lemma shrink_general s kw :
  wf_spectra s -> s_cfg s <> [] -> good_keywords (s_cfg s) kw ->
  (forall v p, dget v (s_cfg (fst (shrink kw s))) = Some p -> (0 < sp_bins p)%Z) ->
  exists c' sls d, shrink kw s = (with_data (with_cfg s c') d, None) /\
    map fst c' = map fst (s_cfg s) /\ length sls = length (s_cfg s) /\ length c' = length (s_cfg s) /\
    Forall2 (fun vp x => axis_ok (snd vp) (req_low kw (fst vp) (snd vp)) (req_high kw (fst vp) (snd vp))
                           (snd (fst x)) (snd x) /\ (0 < sp_bins (snd (fst x)))%Z) (s_cfg s) (combine c' sls) /\
    wf_spectra (with_data (with_cfg s c') d) /\
    (forall idx, aget d idx = aget (s_data s) (zip_with Nat.add (map slice_start sls) idx)) /\
    ashape d = map slice_len sls /\
    Forall2 (fun sl n => slice_start sl + slice_len sl <= n) sls (ashape (s_data s)).
Proof.
  intros [[NDp Wa] C] NE G Pos. unfold shrink in *. rewrite (check_good _ _ NDp G) in *.
  destruct (shrink_pars_ok kw (s_cfg s)) as (c' & sls & E & K & F & L1 & L2).
  { apply Forall_forall. intros [v p] I. cbn. rewrite Forall_forall in Wa. pose proof (Wa _ I) as W. cbn in W.
    split; [exact W|]. apply (req_bounds (s_cfg s) kw v p NDp W G I). }
  rewrite E in *. destruct sls as [|sl sls].
  { destruct (s_cfg s); [contradiction|discriminate]. }
  unfold aslice in *. assert (Ls : Nat.eqb (length (sl :: sls)) (andim (s_data s)) = true).
  { apply Nat.eqb_eq. unfold andim. rewrite C, cfg_shape_length. exact L1. }
  rewrite Ls in *. cbn [fst s_cfg with_data with_cfg] in Pos.
  remember (sl :: sls) as sls0 eqn:Es0. clear Es0 sl sls Ls.
  assert (Pos' : Forall (fun vp => (0 < sp_bins (snd vp))%Z) c').
  { apply Forall_forall. intros [v p] I. apply (Pos v p). apply In_dget; [|exact I].
    unfold dkeys. rewrite K. exact NDp. }
  set (se := zip_with slice_axis sls0 (ashape (s_data s))).
  assert (X : Forall2 (fun vp x => axis_ok (snd vp) (req_low kw (fst vp) (snd vp)) (req_high kw (fst vp) (snd vp))
                           (snd (fst x)) (snd x) /\ (0 < sp_bins (snd (fst x)))%Z) (s_cfg s) (combine c' sls0)).
  { clear - F Pos' L1 L2. revert c' sls0 F Pos' L1 L2. induction (s_cfg s) as [|vp c IH]; intros c' sls F P L1 L2.
    - destruct c'; [constructor|discriminate].
    - destruct c' as [|x c']; [discriminate|]. destruct sls as [|y sls]; [discriminate|]. cbn [combine] in *.
      inversion F as [|? ? ? ? F1 F2]; subst. inversion P as [|? ? P1 P2]; subst.
      constructor; [split; assumption|]. apply IH; auto. }
  assert (Sl : se = map (fun sl => (slice_start sl, slice_len sl)) sls0 /\
               Forall2 (fun sl n => slice_start sl + slice_len sl <= n) sls0 (ashape (s_data s)) /\
               map slice_len sls0 = cfg_shape c').
  { unfold se. rewrite C. clear - X L1 L2 Wa. unfold cfg_shape.
    revert c' sls0 X L1 L2. induction (s_cfg s) as [|vp c IH]; intros c' sls X L1 L2.
    - destruct c'; [|discriminate]. destruct sls; [|discriminate]. repeat split. constructor.
    - destruct c' as [|x c']; [discriminate|]. destruct sls as [|y sls]; [discriminate|].
      inversion Wa as [|? ? W1 W2]; subst. cbn [combine] in X. inversion X as [|? ? ? ? [X1 X2] X3]; subst.
      destruct (IH W2 c' sls X3) as (E1 & E2 & E3); [cbn in *; lia|cbn in *; lia|].
      cbn [fst snd] in *. destruct X1 as (_ & B & A1 & A2 & _). destruct W1 as [_ Wb].
      destruct (slice_axis_in y (Z.to_nat (sp_bins (snd vp)))) as [S1 S2]; [exact A1|lia|lia|].
      cbn [map zip_with]. rewrite S1, E1, E3. split; [reflexivity|]. split; [constructor; assumption|].
      f_equal. unfold slice_len. rewrite B. reflexivity. }
  destruct Sl as (S1 & S2 & S3).
  exists c', sls0. eexists. split.
  { destruct sls0; [destruct (s_cfg s); [contradiction|discriminate]|reflexivity]. }
  split; [exact K|]. split; [exact L1|]. split; [exact L2|]. split; [exact X|].
  fold se. cbn [aget ashape]. split; [|split; [|split]].
  - split; [split|].
    + cbn. rewrite K. exact NDp.
    + cbn. clear - X L1 L2. revert c' sls0 X L1 L2. induction (s_cfg s) as [|vp c IH]; intros c' sls X L1 L2.
      * destruct c'; [constructor|discriminate].
      * destruct c' as [|x c']; [discriminate|]. destruct sls as [|y sls]; [discriminate|]. cbn [combine] in X.
        inversion X as [|? ? ? ? [X1 X2] X3]; subst. constructor.
        -- destruct X1 as (_ & _ & _ & _ & Wx). apply Wx, X2.
        -- apply (IH c' sls X3); cbn in *; lia.
    + unfold consistent. cbn. rewrite S1, map_map. cbn. exact S3.
  - intro idx. rewrite S1, map_map. reflexivity.
  - rewrite S1, map_map. reflexivity.
  - exact S2.
Qed.

(** ** Rejections *)
Lemma shrink_rejected_l s kw e :
  wf_spectra s -> (forall v, In (v ++ "_low")%string (map fst kw) \/ In (v ++ "_high")%string (map fst kw) -> good_keywords (s_cfg s) kw \/ True) ->
  shrink_check (s_cfg s) kw = Err e ->
  shrink kw s = (s, Some e) /\ (e = EIndexError \/ e = EValueError).
Proof.
  intros _ _ H. unfold shrink. rewrite H. split; [reflexivity|]. eapply check_err, H.
Qed.

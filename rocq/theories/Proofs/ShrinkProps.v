(** Spectra.shrink, cut and shrink_to_roi: the properties (C12-C16). *)
From Coq Require Import Lia.
From Verif Require Import Model.Base Model.PyStr Model.NDArray Model.Param Model.Config Model.Spectra.
From Verif Require Import Spec.AxisSpec Spec.ArraySpec Spec.SpectraSpec Spec.ShrinkSpec.
From Verif Require Import Proofs.QcLemmas Proofs.NDArrayLemmas Proofs.ParamLemmas Proofs.DictLemmas
  Proofs.StrLemmas Proofs.FillLemmas Proofs.ProjectLemmas Proofs.ShrinkAxis Proofs.ShrinkLemmas.
Local Open Scope string_scope.
Local Open Scope list_scope.

Lemma Forall2_nth {A B} (R : A -> B -> Prop) l m k a :
  Forall2 R l m -> nth_error l k = Some a -> exists b, nth_error m k = Some b /\ R a b.
Proof.
  intro F. revert k. induction F as [|x y l m H F IH]; intros [|k] E; cbn in *; try discriminate.
  - injection E as <-. eauto.
  - apply IH, E.
Qed.
Lemma nth_combine {A B} (l : list A) (m : list B) k x :
  nth_error (combine l m) k = Some x -> nth_error l k = Some (fst x) /\ nth_error m k = Some (snd x).
Proof.
  revert m k. induction l as [|a l IH]; intros [|b m] [|k] E; cbn in *; try discriminate.
  - injection E as <-. auto.
  - apply IH, E.
Qed.
Lemma nth_fst {A} (c c' : dict A) k v p v' p' :
  map fst c' = map fst c -> nth_error c k = Some (v, p) -> nth_error c' k = Some (v', p') -> v' = v.
Proof.
  intros E H1 H2. apply (map_nth_error fst) in H1, H2. rewrite E in H2. rewrite H1 in H2. injection H2 as H2. symmetry. exact H2.
Qed.

Lemma shrink_pos s kw :
  wf_spectra s -> s_cfg s <> [] -> good_keywords (s_cfg s) kw ->
  (forall v p p' sl, In (v, p) (s_cfg s) -> shrink_axis p (req_low kw v p) (req_high kw v p) = Ok (p', sl) -> (0 < sp_bins p')%Z) ->
  forall v p, dget v (s_cfg (fst (shrink kw s))) = Some p -> (0 < sp_bins p)%Z.
Proof.
  intros [[NDp Wa] C] NE G H v p. unfold shrink. rewrite (check_good _ _ NDp G).
  destruct (shrink_pars_ok kw (s_cfg s)) as (c' & sls & E & K & F & L1 & L2).
  { apply Forall_forall. intros [v' p'] I. cbn. rewrite Forall_forall in Wa. pose proof (Wa _ I) as W. cbn in W.
    split; [exact W|]. apply (req_bounds (s_cfg s) kw v' p' NDp W G I). }
  rewrite E. intro D. assert (D' : dget v c' = Some p).
  { destruct sls as [|sl sls]; [exact D|]. destruct (aslice (sl :: sls) (s_data s)); exact D. }
  apply dget_In, In_nth_error in D' as (k & D').
  assert (Hk : k < length (s_cfg s)) by (rewrite <- L2; apply nth_error_Some; congruence).
  destruct (nth_error (s_cfg s) k) as [[v0 p0]|] eqn:N; [|apply nth_error_None in N; lia].
  destruct (Forall2_nth _ _ _ _ _ F N) as (x & Nx & A). apply nth_combine in Nx as [N1 N2].
  destruct A as (A & _). cbn [fst snd] in A. apply nth_error_In in N.
  assert (fst x = (v, p)) by congruence. rewrite H0 in A. cbn in A. eapply H; eassumption.
Qed.

Lemma zip_add_valid sls idx sh :
  Forall2 (fun sl n => slice_start sl + slice_len sl <= n) sls sh ->
  valid_idx (map slice_len sls) idx -> valid_idx sh (zip_with Nat.add (map slice_start sls) idx).
Proof.
  unfold valid_idx. intro F. revert idx. induction F as [|sl n sls sh H F IH]; intros idx V; cbn in *.
  - inversion V; subst. constructor.
  - inversion V; subst. cbn. constructor; [lia|]. apply IH. assumption.
Qed.

(** shrink keeps, on aligned axes, exactly the substantially overlapping bins. *)
Lemma shrink_aligned_l s kw :
  wf_spectra s -> s_cfg s <> [] -> Forall (fun vp => aligned (snd vp)) (s_cfg s) ->
  good_keywords (s_cfg s) kw -> some_bin (req_substantial kw) (s_cfg s) ->
  exists s' starts, shrink kw s = (s', None) /\ wf_spectra s' /\
    restricted (req_substantial kw) (s_cfg s) (s_cfg s') starts /\ block_of s s' starts.
Proof.
  intros W NE Al G SB. pose proof W as [[NDp Wa] C].
  assert (A : forall v p, In (v, p) (s_cfg s) -> exists lb hb,
     shrink_axis p (req_low kw v p) (req_high kw v p) = Ok (SPar (edge p lb) (edge p hb) (hb - lb), (lb, hb)) /\
     (forall i, (lb <= i < hb)%Z <-> req_substantial kw v p i)).
  { intros v p I. rewrite Forall_forall in Al, Wa. pose proof (Al _ I) as A. pose proof (Wa _ I) as Wp. cbn in A, Wp.
    destruct (req_bounds _ _ _ _ NDp Wp G I) as [B1 B2]. apply shrink_axis_aligned; assumption. }
  destruct (shrink_general s kw W NE G) as (c' & sls & d & E & K & L1 & L2 & F & Wf & Ag & Sh & Fs).
  { apply shrink_pos; [exact W|exact NE|exact G|]. intros v p p' sl I Es.
    destruct (A v p I) as (lb & hb & Es' & Hi). rewrite Es in Es'. injection Es' as -> ->. cbn.
    destruct (SB v p I) as (i & Hs). apply Hi in Hs. lia. }
  eexists. exists (map slice_start sls). split; [exact E|]. split; [exact Wf|]. split.
  - cbn. split; [exact L2|]. split; [rewrite map_length; exact L1|]. intros k v p N.
    destruct (Forall2_nth _ _ _ _ _ F N) as ([[v' p'] sl] & Nx & (Ax & Pos)). apply nth_combine in Nx as [N1 N2].
    cbn [fst snd] in *. assert (v' = v) by (eapply nth_fst; eassumption). subst v'.
    pose proof (nth_error_In _ _ N) as I. destruct (A v p I) as (lb & hb & Es & Hi).
    destruct Ax as (Ex & B & A1 & A2 & A3). rewrite Es in Ex. injection Ex as <- <-. cbn [fst snd sp_bins] in *.
    exists (SPar (edge p lb) (edge p hb) (hb - lb)), (slice_start (lb, hb)). split; [exact N1|].
    split; [apply map_nth_error, N2|]. unfold slice_start. cbn [fst sp_bins]. rewrite Z2Nat.id by lia. split.
    + unfold sub_axis. cbn [sp_low sp_high sp_bins]. rewrite Z2Nat.id by lia.
      replace (lb + (hb - lb))%Z with hb by lia. repeat split. unfold bin_width. cbn [sp_low sp_high sp_bins].
      unfold edge. rewrite zq_sub. fold (bin_width p).
      assert (NZ : (zq hb - zq lb)%Qc <> 0%Qc).
      { rewrite <- zq_sub. apply Qc_pos_neq, zq_pos. lia. }
      unfold bin_width. field. split; [|exact NZ].
      assert (Wp : wf_axis p) by (rewrite Forall_forall in Wa; apply (Wa _ I)).
      apply Qc_pos_neq, zq_pos, Wp.
    + intro i. rewrite <- Hi. lia.
  - unfold block_of. cbn. split; [apply Wf|]. split; [|repeat split].
    intros idx V. split; [|apply Ag]. apply zip_add_valid; [exact Fs|]. rewrite <- Sh. exact V.
Qed.

(** With bounds on bin edges: exactly the overlapping bins. *)
Lemma restricted_iff (P Q : string -> spar -> Z -> Prop) c c' st :
  (forall v p i, In (v, p) c -> (P v p i <-> Q v p i)) -> restricted P c c' st -> restricted Q c c' st.
Proof.
  intros H (A & B & R). split; [exact A|]. split; [exact B|]. intros k v p N.
  destruct (R k v p N) as (p' & s0 & N1 & N2 & S & I). exists p', s0. repeat split; try assumption; try apply S.
  - apply I, H; [eapply nth_error_In, N|assumption].
  - apply I, H; [eapply nth_error_In, N|assumption].
  - intros. apply H; [eapply nth_error_In, N|]. apply I. assumption.
Qed.
Lemma shrink_edges_l s kw :
  wf_spectra s -> s_cfg s <> [] -> Forall (fun vp => aligned (snd vp)) (s_cfg s) ->
  good_keywords (s_cfg s) kw ->
  (forall v p, In (v, p) (s_cfg s) -> on_edge p (req_low kw v p) /\ on_edge p (req_high kw v p) /\
                                     (req_low kw v p < req_high kw v p)%Qc) ->
  exists s' starts, shrink kw s = (s', None) /\ wf_spectra s' /\
    restricted (req_overlap kw) (s_cfg s) (s_cfg s') starts /\ block_of s s' starts.
Proof.
  intros W NE Al G H. pose proof W as [[NDp Wa] C]. rewrite Forall_forall in Wa.
  assert (Eq : forall v p i, In (v, p) (s_cfg s) -> (req_substantial kw v p i <-> req_overlap kw v p i)).
  { intros v p i I. destruct (H v p I) as (A & B & _). apply substantial_edges; auto. apply (Wa _ I). }
  destruct (shrink_aligned_l s kw W NE Al G) as (s' & st & E & W' & R & B).
  - intros v p I. destruct (H v p I) as ([a Ea] & [b Eb] & L). exists a. apply Eq; [exact I|].
    pose proof (Wa _ I) as Wp. cbn in Wp. unfold req_overlap, overlaps. rewrite Ea, Eb in *.
    split; [apply edge_lt; [exact Wp|lia]|exact L].
  - exists s', st. split; [exact E|]. split; [exact W'|]. split; [|exact B].
    eapply restricted_iff; [|exact R]. exact Eq.
Qed.

(** ** C13 *)
Lemma edge_on_low p : on_edge p (sp_low p). Proof. exists 0%Z. symmetry. apply edge_0. Qed.
Lemma edge_on_high p : wf_axis p -> on_edge p (sp_high p).
Proof. intro W. exists (sp_bins p). symmetry. apply edge_bins, W. Qed.
Lemma current_req c kw v p :
  NoDup (map fst c) -> current_bounds c kw -> In (v, p) c -> req_low kw v p = sp_low p /\ req_high kw v p = sp_high p.
Proof.
  intros ND H I. assert (Gp : dget v c = Some p) by (apply In_dget; assumption). unfold req_low, req_high. split.
  - destruct (dget (v ++ "_low")%string kw) as [x|] eqn:E; [|reflexivity]. apply dget_In in E.
    destruct (H _ _ E) as (v' & p' & G & [[Ev Ex]|[Ev Ex]]).
    + apply sapp_inj_r in Ev. subst. congruence.
    + exfalso. eapply low_high_neq, Ev.
  - destruct (dget (v ++ "_high")%string kw) as [x|] eqn:E; [|reflexivity]. apply dget_In in E.
    destruct (H _ _ E) as (v' & p' & G & [[Ev Ex]|[Ev Ex]]).
    + exfalso. symmetry in Ev. eapply low_high_neq, Ev.
    + apply sapp_inj_r in Ev. subst. congruence.
Qed.
Lemma block_identity l m : length l = length m -> (forall k x, nth_error l k = Some x -> x = 0) -> zip_with Nat.add l m = m.
Proof.
  revert m. induction l as [|a l IH]; intros [|b m] L H; cbn in *; try lia; [reflexivity|].
  f_equal; [rewrite (H 0 a eq_refl); reflexivity|]. apply IH; [lia|]. intros k. apply (H (S k)).
Qed.
Lemma shrink_identity_l s kw :
  wf_spectra s -> s_cfg s <> [] -> Forall (fun vp => aligned (snd vp)) (s_cfg s) ->
  current_bounds (s_cfg s) kw ->
  exists s', shrink kw s = (s', None) /\ same_spectra s' s.
Proof.
  intros W NE Al H. pose proof W as [[NDp Wa] C]. rewrite Forall_forall in Wa.
  destruct (shrink_edges_l s kw W NE Al) as (s' & st & E & W' & (R1 & R2 & R) & (B1 & B2 & B3)).
  - intros k x I. destruct (H k x I) as (v & p & G & [[-> ->]|[-> ->]]); exists v, p; (split; [exact G|]).
    + left. split; [reflexivity|qlra].
    + right. split; [reflexivity|qlra].
  - intros v p I. destruct (current_req _ _ _ _ NDp H I) as [-> ->]. pose proof (Wa _ I) as Wp. cbn in Wp.
    split; [apply edge_on_low|]. split; [apply edge_on_high, Wp|apply Wp].
  - exists s'. split; [exact E|].
    assert (X : forall k v p, nth_error (s_cfg s) k = Some (v, p) ->
              nth_error (s_cfg s') k = Some (v, p) /\ nth_error st k = Some 0).
    { intros k v p N. destruct (R k v p N) as (p' & s0 & N1 & N2 & (S1 & S2 & S3) & I).
      pose proof (nth_error_In _ _ N) as In_. pose proof (Wa _ In_) as Wp. cbn in Wp.
      destruct (current_req _ _ _ _ NDp H In_) as [E1 E2].
      assert (Hp : (0 < sp_bins p)%Z) by apply Wp.
      assert (Io : forall i, req_overlap kw v p i <-> (0 <= i < sp_bins p)%Z).
      { intro i. unfold req_overlap, overlaps. rewrite E1, E2. rewrite <- (edge_0 p) at 1.
        rewrite <- (edge_bins p Wp). split.
        - intros [G1 G2]. apply edge_lt_inv in G1; [|exact Wp]. apply edge_lt_inv in G2; [|exact Wp]. lia.
        - intros [G1 G2]. split; apply edge_lt; auto; lia. }
      assert (I' : forall i, (0 <= i < sp_bins p)%Z <-> (Z.of_nat s0 <= i < Z.of_nat s0 + sp_bins p')%Z).
      { intro i. rewrite <- Io. apply I. }
      pose proof (proj1 (I' 0%Z)). pose proof (proj1 (I' (sp_bins p - 1)%Z)).
      assert (0 < sp_bins p')%Z by lia.
      pose proof (proj2 (I' (Z.of_nat s0))). pose proof (proj2 (I' (Z.of_nat s0 + sp_bins p' - 1)%Z)).
      assert (s0 = 0) by lia. subst s0. assert (Eb : sp_bins p' = sp_bins p) by lia.
      split; [|exact N2]. rewrite N1. f_equal. f_equal. destruct p' as [l h b]. cbn in *. subst b.
      change (Z.of_nat 0) with 0%Z in *. rewrite S1, S2, edge_0, edge_bins by exact Wp. destruct p; reflexivity. }
    assert (Ec : s_cfg s' = s_cfg s).
    { clear - X R1. revert X R1. generalize (s_cfg s') as c', (s_cfg s) as c. intros c' c. revert c' st.
      induction c as [|[v p] c IH]; intros [|x c'] st X L; cbn in L; try lia; [reflexivity|].
      destruct (X 0 v p eq_refl) as [X0 X0']. cbn in X0. injection X0 as ->. f_equal.
      destruct st as [|s0 st]; [discriminate|]. apply (IH c' st); [|lia]. intros k. apply (X (S k)). }
    assert (Esh : ashape (s_data s') = ashape (s_data s)) by (rewrite B1, C, Ec; reflexivity).
    destruct B3 as (? & ? & ? & ? & ? & ?).
    split; [repeat split; assumption|]. intros idx V. destruct (B2 idx V) as [_ ->]. f_equal.
    apply block_identity.
    + rewrite R2. apply valid_length in V. rewrite V, Esh, C, cfg_shape_length. reflexivity.
    + intros k x N. assert (Hk : k < length (s_cfg s)) by (rewrite <- R2; apply nth_error_Some; congruence).
      destruct (nth_error (s_cfg s) k) as [[v p]|] eqn:Ek; [|apply nth_error_None in Ek; lia].
      destruct (X k v p Ek) as [_ X2]. congruence.
Qed.

(** ** C14 *)
Lemma shrink_axis_total p lo hi : wf_axis p -> exists r, shrink_axis p lo hi = Ok r.
Proof.
  intro W. unfold shrink_axis. rewrite get_width_ok by exact W. cbn [rbind].
  rewrite !qdiv_ok by (apply width_neq, W). cbn [rbind].
  repeat (rewrite sp_round_ok by exact W; cbn [rbind]).
  match goal with |- context [if ?b then _ else Ok (qceil _, _)] => destruct b end;
    try (rewrite sp_round_ok by exact W); cbn [rbind];
    match goal with |- context [let (_, _) := (if ?b then _ else _) in _] => destruct b end; eauto.
Qed.
Lemma shrink_pars_total kw c :
  Forall (fun vp => wf_axis (snd vp)) c -> exists c' sls, shrink_pars kw c = (c', Ok sls) /\ length sls = length c.
Proof.
  induction c as [|[v p] c IH]; intro H; [exists [], []; split; reflexivity|].
  inversion H as [|? ? W H']; subst. destruct (IH H') as (c' & sls & E & L). cbn [shrink_pars].
  destruct (shrink_axis_total p (kw_or (v ++ "_low") kw (sp_low p)) (kw_or (v ++ "_high") kw (sp_high p)) W) as ([p' sl] & Es).
  rewrite Es, E. cbn [rmap]. exists ((v, p') :: c'), (sl :: sls). split; [reflexivity|cbn; lia].
Qed.
Lemma shrink_raise_l s kw e s' :
  wf_spectra s -> s_cfg s <> [] -> shrink kw s = (s', Some e) -> s' = s /\ (e = EIndexError \/ e = EValueError).
Proof.
  intros [[NDp Wa] C] NE. unfold shrink. destruct (shrink_check (s_cfg s) kw) as [u|e'] eqn:Ec.
  - destruct (shrink_pars_total kw (s_cfg s) Wa) as (c' & sls & E & L). rewrite E.
    destruct sls as [|sl sls]; [destruct (s_cfg s); [contradiction|discriminate]|].
    unfold aslice. assert (Ls : Nat.eqb (length (sl :: sls)) (andim (s_data s)) = true).
    { apply Nat.eqb_eq. unfold andim. rewrite C, cfg_shape_length. exact L. }
    rewrite Ls. discriminate.
  - intro H. injection H as <- <-. split; [reflexivity|]. eapply check_err, Ec.
Qed.
Lemma shrink_unknown_l s kw k x :
  ~ In "" (map fst (s_cfg s)) -> In (k, x) kw ->
  (forall v, In v (map fst (s_cfg s)) -> k <> (v ++ "_low")%string /\ k <> (v ++ "_high")%string) ->
  exists e, shrink kw s = (s, Some e) /\ (e = EIndexError \/ e = EValueError).
Proof.
  intros NE I H. destruct (check_fail_in _ kw k x _ I (check1_unknown (s_cfg s) k x NE H)) as (e & E).
  exists e. unfold shrink. rewrite E. split; [reflexivity|]. eapply check_err, E.
Qed.
Lemma shrink_unknown_index_l s kw k x :
  NoDup (map fst (s_cfg s)) -> ~ In "" (map fst (s_cfg s)) -> In (k, x) kw ->
  (forall v, In v (map fst (s_cfg s)) -> k <> (v ++ "_low")%string /\ k <> (v ++ "_high")%string) ->
  (forall k' x', In (k', x') kw -> k' <> k -> good_keywords (s_cfg s) [(k', x')]) ->
  shrink kw s = (s, Some EIndexError).
Proof.
  intros ND NE I H G.
  assert (E : shrink_check (s_cfg s) kw = Err EIndexError).
  { induction kw as [|[k' x'] kw IH]; [destruct I|]. cbn [shrink_check].
    destruct (String.eqb_spec k' k) as [->|N].
    - rewrite (check1_unknown (s_cfg s) k x' NE H). reflexivity.
    - rewrite check1_good; [|exact ND|].
      + cbn [rbind]. destruct I as [I|I]; [congruence|]. apply IH; [exact I|].
        intros k2 x2 I2. apply G. right. exact I2.
      + apply (G k' x' (or_introl eq_refl) N k' x' (or_introl eq_refl)). }
  unfold shrink. rewrite E. reflexivity.
Qed.
Lemma shrink_outside_l s kw k x v p :
  In (k, x) kw -> dget v (s_cfg s) = Some p ->
  (k = (v ++ "_low")%string /\ (x < sp_low p)%Qc /\ isclose x (sp_low p) = false) \/
  (k = (v ++ "_high")%string /\ (sp_high p < x)%Qc /\ isclose x (sp_high p) = false) ->
  exists e, shrink kw s = (s, Some e) /\ (e = EIndexError \/ e = EValueError) /\ (length kw = 1 -> e = EValueError).
Proof.
  intros I G H.
  assert (E1 : shrink_check1 (s_cfg s) k x = Err EValueError).
  { destruct H as [(-> & L & N)|(-> & L & N)]; [eapply check1_low|eapply check1_high]; eassumption. }
  destruct (check_fail_in _ kw k x _ I E1) as (e & E). exists e. unfold shrink. rewrite E. split; [reflexivity|].
  split; [eapply check_err, E|]. intro L. destruct kw as [|kx [|]]; try discriminate.
  destruct I as [->|[]]. cbn [shrink_check] in E. rewrite E1 in E. cbn in E. congruence.
Qed.

(** ** Sums of slices *)
Lemma qsumn_slice_le st len n f :
  (st + len <= n)%nat -> (forall i, (i < n)%nat -> 0 <= f i)%Qc -> (qsumn len (fun i => f (st + i)%nat) <= qsumn n f)%Qc.
Proof.
  intros L H. replace n with (st + (len + (n - st - len))) by lia. rewrite !qsumn_plus.
  assert (0 <= qsumn st f)%Qc by (apply qsumn_nonneg; intros; apply H; lia).
  assert (0 <= qsumn (n - st - len) (fun i => f (st + (len + i))%nat))%Qc by (apply qsumn_nonneg; intros; apply H; lia).
  qlra.
Qed.
Lemma slice_axis_bounds sl n : fst (slice_axis sl n) + snd (slice_axis sl n) <= n.
Proof. unfold slice_axis, clip_bound. destruct sl as [l h]. cbn [fst snd]. lia. Qed.
Lemma sum_slice_le sls sh f :
  length sls = length sh -> (forall idx, valid_idx sh idx -> 0 <= f idx)%Qc ->
  let se := zip_with slice_axis sls sh in
  (sum_over (map snd se) (fun idx => f (zip_with Nat.add (map fst se) idx)) <= sum_over sh f)%Qc.
Proof.
  cbv zeta. revert f sh. induction sls as [|sl sls IH]; intros f [|n sh] L H; cbn in L; try lia; [cbn; qlra|].
  cbn [zip_with map sum_over]. pose proof (slice_axis_bounds sl n) as B. set (x := slice_axis sl n) in *.
  assert (St : (qsumn (snd x) (fun i => sum_over sh (fun idx => f ((fst x + i)%nat :: idx))) <=
           qsumn n (fun i => sum_over sh (fun idx => f (i :: idx))))%Qc).
  { apply (qsumn_slice_le (fst x) (snd x) n (fun i => sum_over sh (fun idx => f (i :: idx)))); [exact B|].
    intros i Hi. apply sum_over_nonneg. intros idx V. apply H. constructor; assumption. }
  eapply Qcle_trans; [|exact St]. apply qsumn_le. intros i Hi.
  apply (IH (fun idx => f ((fst x + i)%nat :: idx)) sh); [lia|].
  intros idx V. apply H. constructor; [lia|exact V].
Qed.
Lemma slice_valid sls sh idx :
  length sls = length sh -> valid_idx (map snd (zip_with slice_axis sls sh)) idx ->
  valid_idx sh (zip_with Nat.add (map fst (zip_with slice_axis sls sh)) idx).
Proof.
  unfold valid_idx. revert sh idx. induction sls as [|sl sls IH]; intros [|n sh] idx L V; cbn in L; try lia.
  - inversion V; subst. constructor.
  - cbn [zip_with map] in *. pose proof (slice_axis_bounds sl n) as B. destruct (slice_axis sl n) as [u w].
    cbn [fst snd] in *. inversion V; subst. cbn [zip_with].
    constructor; [lia|]. apply IH; [lia|assumption].
Qed.
(** Whatever slices it uses, an accepted shrink keeps nonnegativity and does not increase
    the total. *)
Lemma shrink_sum_l s kw s' :
  nonneg s -> shrink kw s = (s', None) ->
  nonneg s' /\ (0 <= s_sum s')%Qc /\ (s_sum s' <= s_sum s)%Qc.
Proof.
  intros P H. unfold shrink in H. destruct (shrink_check (s_cfg s) kw); [|discriminate].
  destruct (shrink_pars kw (s_cfg s)) as [c' [sls|e]]; [|discriminate].
  destruct sls as [|sl sls]; [discriminate|]. unfold aslice in H.
  destruct (Nat.eqb_spec (length (sl :: sls)) (andim (s_data s))) as [L|L]; [|discriminate].
  remember (sl :: sls) as sls0. injection H as <-. unfold nonneg, s_sum, asum in *.
  cbn [s_data with_data with_cfg ashape aget]. split; [|split].
  - intros idx V. apply P, slice_valid; assumption.
  - apply sum_over_nonneg. intros idx V. apply P, slice_valid; assumption.
  - apply sum_slice_le; [exact L|]. exact P.
Qed.

(** ** C15, C16 *)
Lemma shrink_meta_l s kw s' :
  shrink kw s = (s', None) ->
  s_name s' = s_name s /\ s_bg s' = s_bg s /\ s_decays s' = s_decays s /\ s_raw s' = s_raw s /\
  s_bipo s' = s_bipo s /\ s_rois s' = s_rois s.
Proof.
  intro H. unfold shrink in H. destruct (shrink_check (s_cfg s) kw); [|discriminate].
  destruct (shrink_pars kw (s_cfg s)) as [c' [sls|e]]; [|discriminate].
  destruct sls as [|sl sls]; [discriminate|].
  destruct (aslice (sl :: sls) (s_data s)); [|discriminate]. injection H as <-. repeat split.
Qed.
Lemma qdiv_inv x y r : qdiv x y = Ok r -> y <> 0%Qc /\ r = (x / y)%Qc.
Proof. unfold qdiv. destruct (qeqP y 0); [discriminate|]. intro H; injection H as <-. auto. Qed.
Lemma Qcdiv_0 x : (0 / x = 0)%Qc.
Proof. unfold Qcdiv. ring. Qed.
Lemma Qcmul_neq x y : (x <> 0 -> y <> 0 -> x * y <> 0)%Qc.
Proof. intros A B H. apply Qcmult_integral in H as [H|H]; auto. Qed.
Lemma Qcdiv_neq x y : (x <> 0 -> y <> 0 -> x / y <> 0)%Qc.
Proof.
  intros A B H. apply A. rewrite <- (Qcdiv_mul_id x y B), H. ring.
Qed.
Lemma cut_l s kw s' :
  cut kw s = (s', None) ->
  exists s1, shrink kw s = (s1, None) /\ s_cfg s' = s_cfg s1 /\ s_data s' = s_data s1 /\
    s_name s' = s_name s /\ s_raw s' = s_raw s /\ s_rois s' = s_rois s /\ s_sum s <> 0%Qc /\
    s_decays s' = (s_decays s * (s_sum s' / s_sum s))%Qc.
Proof.
  unfold cut. destruct (shrink kw s) as [s1 [e|]] eqn:E; [discriminate|].
  destruct (qdiv (s_sum s1) (s_sum s)) as [f|e] eqn:F; [|discriminate]. intro H. injection H as <-.
  apply qdiv_inv in F as [NZ ->]. destruct (shrink_meta_l _ _ _ E) as (M1 & M2 & M3 & M4 & M5 & M6).
  exists s1. unfold s_sum. cbn. repeat split; try assumption. rewrite M3. reflexivity.
Qed.
Lemma cut_ratio_l s kw s' :
  cut kw s = (s', None) -> s_decays s <> 0%Qc -> s_sum s' <> 0%Qc ->
  s_decays s' <> 0%Qc /\ (s_sum s' / s_decays s' = s_sum s / s_decays s)%Qc /\
  forall n, exists s2, scale n s' = (s2, None) /\ s_sum s2 = (n * (s_sum s / s_decays s))%Qc.
Proof.
  intros H D S. destruct (cut_l _ _ _ H) as (s1 & _ & _ & _ & _ & _ & _ & NZ & E).
  assert (ND : s_decays s' <> 0%Qc) by (rewrite E; apply Qcmul_neq; [exact D|apply Qcdiv_neq; assumption]).
  assert (R : (s_sum s' / s_decays s' = s_sum s / s_decays s)%Qc).
  { rewrite E. field. repeat split; assumption. }
  split; [exact ND|]. split; [exact R|]. intro n.
  unfold scale. rewrite qdiv_ok by exact ND. eexists. split; [reflexivity|].
  unfold s_sum at 1, asum. cbn [s_data with_decays with_data amap ashape aget]. rewrite sum_over_scale.
  change (sum_over (ashape (s_data s')) (aget (s_data s'))) with (s_sum s'). rewrite <- R. field. exact ND.
Qed.
Lemma cut_empty_l s kw s1 :
  s_sum s = 0%Qc -> shrink kw s = (s1, None) -> cut kw s = (s1, Some EZeroDivisionError).
Proof.
  intros Z E. unfold cut. rewrite E. unfold qdiv. destruct (qeqP (s_sum s) 0); [reflexivity|contradiction].
Qed.
Lemma roi_l s lo hi d s' :
  nonneg s -> shrink_to_roi lo hi d s = (s', None) ->
  exists s1 p, shrink [((d ++ "_low")%string, lo); ((d ++ "_high")%string, hi)] s = (s1, None) /\
    s_cfg s' = s_cfg s1 /\ s_data s' = s_data s1 /\ s_decays s' = s_decays s /\
    dget d (s_cfg s') = Some p /\
    get_roi d s' = Ok (ROI (sp_low p) (sp_high p) (s_sum s' / s_sum s)%Qc) /\
    (0 < s_sum s)%Qc /\ (0 <= s_sum s' / s_sum s)%Qc /\ (s_sum s' / s_sum s <= 1)%Qc /\
    (forall d', d' <> d -> dget d' (s_rois s') = dget d' (s_rois s)).
Proof.
  intros P. unfold shrink_to_roi. destruct (shrink _ s) as [s1 [e|]] eqn:E; [discriminate|].
  destruct (qdiv (s_sum s1) (s_sum s)) as [f|e] eqn:F; [|discriminate].
  destruct (get_par (s_cfg s1) d) as [p|e] eqn:G; [|discriminate]. intro H. injection H as <-.
  apply qdiv_inv in F as [NZ ->]. destruct (shrink_meta_l _ _ _ E) as (M1 & M2 & M3 & M4 & M5 & M6).
  destruct (shrink_sum_l _ _ _ P E) as (_ & S1 & S2).
  assert (Pos : (0 < s_sum s)%Qc).
  { destruct (Qclt_le_dec 0 (s_sum s)) as [L|L]; [exact L|]. exfalso. apply NZ. qlra. }
  exists s1, p.
  match goal with |- context [s_sum (with_rois s1 ?r)] => change (s_sum (with_rois s1 r)) with (s_sum s1) end.
  cbn [s_data with_rois s_cfg s_decays s_rois].
  split; [reflexivity|]. split; [reflexivity|]. split; [reflexivity|]. split; [exact M3|].
  split; [apply dlookup_ok, G|]. split.
  { unfold get_roi, dlookup. cbn. rewrite dget_dset_same. reflexivity. }
  split; [exact Pos|]. split; [apply Qcdiv_nonneg; assumption|]. split.
  { apply Qcdiv_le_iff; [exact Pos|]. qlra. }
  intros d' N. rewrite dget_dset_other by exact N. rewrite M6. reflexivity.
Qed.

(** ** Refutations on an axis whose lower bound is not a multiple of the width *)
Definition mis : spectra :=
  Spec "x" None [("energy_mc", SPar (qq 1 2) (qq 21 2) 10)] (ND [10] (fun _ => 1%Qc)) 1 0 0 [].
Lemma mis_wf : wf_spectra mis.
Proof.
  split; [split|reflexivity].
  - repeat constructor. intros [].
  - constructor; [|constructor]. split; vm_compute; reflexivity.
Qed.
Lemma shrink_identity_refuted_l :
  exists s s', wf_spectra s /\ shrink [] s = (s', None) /\ s_cfg s' <> s_cfg s.
Proof.
  assert (E : snd (shrink [] mis) = None) by (vm_compute; reflexivity).
  exists mis, (fst (shrink [] mis)). split; [exact mis_wf|].
  split; [rewrite <- E; apply surjective_pairing|]. clear E.
  intro H. apply (f_equal (map (fun vp => this (sp_low (snd vp))))) in H. vm_compute in H. discriminate.
Qed.
Lemma shrink_exact_refuted_l :
  exists s s' v p p', wf_spectra s /\ shrink [((v ++ "_low")%string, sp_low p)] s = (s', None) /\
    dget v (s_cfg s) = Some p /\ dget v (s_cfg s') = Some p' /\ ~ (exists k, sp_low p' = edge p k).
Proof.
  pose (kw := [(("energy_mc" ++ "_low")%string, qq 1 2)]).
  assert (E : snd (shrink kw mis) = None) by (vm_compute; reflexivity).
  assert (F : match dget "energy_mc" (s_cfg (fst (shrink kw mis))) with Some p' => this (sp_low p') | None => 0%Q end = this (zq 1))
    by (vm_compute; reflexivity).
  destruct (dget "energy_mc" (s_cfg (fst (shrink kw mis)))) as [p'|] eqn:D; [|discriminate F].
  exists mis, (fst (shrink kw mis)), "energy_mc", (SPar (qq 1 2) (qq 21 2) 10), p'.
  split; [exact mis_wf|]. split; [rewrite <- E; apply surjective_pairing|]. split; [reflexivity|]. split; [exact D|].
  assert (F' : sp_low p' = zq 1) by (apply Qc_is_canon; rewrite F; apply Qeq_refl).
  intros [k Hk]. rewrite F' in Hk. apply (f_equal (fun x => (x * zq 2)%Qc)) in Hk.
  assert (A : (zq 2 = zq (1 + 2 * k))%Qc).
  { rewrite zq_add, zq_mul, zq_1. etransitivity; [|etransitivity; [exact Hk|]].
    - apply Qc_is_canon. vm_compute. reflexivity.
    - unfold edge. replace (bin_width (SPar (qq 1 2) (qq 21 2) 10)) with 1%Qc by (apply Qc_is_canon; vm_compute; reflexivity).
      cbn [sp_low]. replace (qq 1 2) with (/ zq 2)%Qc by (apply Qc_is_canon; vm_compute; reflexivity).
      field. intro E'. apply (f_equal this) in E'. discriminate. }
  apply zq_inj in A. lia.
Qed.

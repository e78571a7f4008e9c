(** Restricting one spectrum to the region of interest. *)
From Coq Require Import Lia.
From Verif Require Import Model.Base Model.PyStr Model.NDArray Model.Param Model.Config Model.Spectra Model.Smear Model.Shift Model.Heap Model.Minimise Model.Fit Model.FitPrepare.
From Verif Require Import Spec.AxisSpec Spec.ArraySpec Spec.SpectraSpec Spec.ShrinkSpec Spec.HeapSpec Spec.FitRunSpec Spec.FitSetSpec.
From Verif Require Import Proofs.QcLemmas Proofs.NDArrayLemmas Proofs.StrLemmas Proofs.DictLemmas Proofs.ParamLemmas
  Proofs.ShrinkProps Proofs.OpsLemmas Proofs.ExtLemmas Proofs.HeapLemmas Proofs.FitLemmas Proofs.FitPrep.

(** ** The ROI *)
Lemma check_roi_l old r : (forall d l, In (d, l) r -> length l = 2) ->
  exists roi, snd (check_roi old r) = Ok roi /\ Forall2 (fun g x => fst x = fst g /\ exists a b, snd g = [a; b] /\ ordered_pair a b (snd x)) r roi.
Proof.
  induction r as [|[d l] r IH]; intro H; [exists []; split; [reflexivity|constructor]|].
  destruct IH as (roi & E & F). { intros d' l' I. apply (H d' l'). now right. }
  pose proof (H d l (or_introl eq_refl)) as L. destruct l as [|a [|b [|c l]]]; try discriminate. cbn. rewrite surjective_pairing with (p := check_roi old r). rewrite E.
  cbn. eexists. split; [reflexivity|]. constructor; [|exact F]. cbn. split; [reflexivity|]. exists a, b. split; [reflexivity|].
  unfold ordered_pair. destruct (qlt b a) eqn:Q; cbn.
  - apply qlt_iff in Q. split; [now apply Qclt_le_weak|auto].
  - split; [|auto]. apply Qcnot_lt_le. intro K. apply qlt_iff in K. congruence.
Qed.

(** ** The keywords *)
Lemma key_eq v d t : v = (d ++ "_" ++ t)%string -> forall x, (d ++ "_" ++ t ++ x)%string = (v ++ x)%string.
Proof. intros -> x. now rewrite !sapp_assoc. Qed.
Lemma low_high v v' : (v ++ "_low")%string <> (v' ++ "_high")%string.
Proof.
  intro H. pose proof (f_equal (fun s => last (split_char "_"%char s) ""%string) H) as K. cbn beta in K.
  change "_low"%string with (String "_" "low") in K. change "_high"%string with (String "_" "high") in K.
  rewrite !split_last in K by reflexivity. discriminate.
Qed.
Section Keywords.
Variable c : sconfig.
Hypothesis N : NoDup (map (fun y : string * spar => get_dim (fst y)) c).
Hypothesis T : Forall (fun y => typed_name (fst y)) c.
Lemma keywords_ok roi : NoDup (map fst roi) -> (forall d lh, In (d, lh) roi -> exists v p, In (v, p) c /\ get_dim v = d) ->
  forall kw, exists kw', roi_keywords roi c kw = Ok kw' /\
    (forall v p, In (v, p) c ->
       dget (v ++ "_low") kw' = match dget (get_dim v) roi with Some (lo, _) => Some lo | None => dget (v ++ "_low") kw end /\
       dget (v ++ "_high") kw' = match dget (get_dim v) roi with Some (_, hi) => Some hi | None => dget (v ++ "_high") kw end) /\
    (forall k x, In (k, x) kw' -> In (k, x) kw \/ exists v p d lo hi, In (v, p) c /\ get_dim v = d /\ In (d, (lo, hi)) roi /\
       ((k = (v ++ "_low")%string /\ x = lo) \/ (k = (v ++ "_high")%string /\ x = hi))).
Proof.
  induction roi as [|[d [lo hi]] roi IH]; intros ND D kw.
  - exists kw. split; [reflexivity|]. split; [intros; split; reflexivity|auto].
  - cbn [roi_keywords]. destruct (D d (lo, hi) (or_introl eq_refl)) as (v0 & p0 & I0 & <-). rewrite (dim_type_of c v0 p0 N I0). cbn [rbind].
    rewrite Forall_forall in T. pose proof (typed_decompose v0 (T _ I0)) as E. set (t := last _ _) in *. clearbody t.
    rewrite !(key_eq v0 _ t E). inversion ND as [|a b N1 N2]; subst.
    destruct (IH N2 (fun d' lh H => D d' lh (or_intror H)) (dset (v0 ++ "_high") hi (dset (v0 ++ "_low") lo kw))) as (kw' & K1 & K2 & K3).
    exists kw'. split; [exact K1|]. split.
    + intros v p I. destruct (K2 v p I) as [A B]. rewrite A, B. cbn [dget fst]. destruct (String.eqb_spec (get_dim v) (get_dim v0)) as [Q|Q].
      * pose proof (NoDup_map_inj _ c (v, p) (v0, p0) N I I0 Q) as X. injection X as -> ->.
        replace (dget (get_dim v0) roi) with (@None (Qc * Qc)). 2:{ symmetry. apply dget_none. exact N1. }
        rewrite dget_dset_same. rewrite dget_dset_other by apply low_high. rewrite dget_dset_same. auto.
      * assert (v <> v0) by congruence. destruct (dget (get_dim v) roi) as [[l' h']|]; [auto|].
        rewrite !dget_dset_other; auto; intro X; try (apply sapp_inj_r in X; congruence); try (now apply low_high in X); symmetry in X; now apply low_high in X.
    + intros k x H. destruct (K3 k x H) as [K|(v & p & d' & l' & h' & X1 & X2 & X3 & X4)].
      * apply in_dset in K as [(-> & ->)|K].
        { right. exists v0, p0, (get_dim v0), lo, hi. repeat (split; [assumption || reflexivity || (now left)|]). auto. }
        apply in_dset in K as [(-> & ->)|K]; [|now left].
        right. exists v0, p0, (get_dim v0), lo, hi. repeat (split; [assumption || reflexivity || (now left)|]). auto.
      * right. exists v, p, d', l', h'. repeat (split; [assumption || (now right)|]). exact X4.
Qed.
End Keywords.

(** ** The region *)
Lemma region_bounds p p' st i0 i1 : wf_axis p -> (i0 < i1)%Z -> (0 <= i0)%Z ->
  (forall i, overlaps p (edge p i0) (edge p i1) i <-> (Z.of_nat st <= i < Z.of_nat st + sp_bins p')%Z) ->
  Z.of_nat st = i0 /\ (Z.of_nat st + sp_bins p' = i1)%Z.
Proof.
  intros W L P H.
  assert (Q : forall i, (i0 <= i < i1)%Z <-> (Z.of_nat st <= i < Z.of_nat st + sp_bins p')%Z).
  { intro i. rewrite <- H. unfold overlaps. split.
    - intros [A B]. split; apply edge_lt; (exact W || lia).
    - intros [A B]. apply edge_lt_inv in A, B; try exact W. lia. }
  pose proof (proj1 (Q i0)) as Q1. pose proof (proj1 (Q (i1 - 1)%Z)) as Q2.
  pose proof (proj2 (Q (Z.of_nat st))) as Q3. pose proof (proj2 (Q (Z.of_nat st + sp_bins p' - 1)%Z)) as Q4. lia.
Qed.
Lemma Forall2_nth {A B} (R : A -> B -> Prop) l m : length l = length m ->
  (forall k x, nth_error l k = Some x -> exists y, nth_error m k = Some y /\ R x y) -> Forall2 R l m.
Proof.
  revert m. induction l as [|x l IH]; intros [|y m] L H; try discriminate; constructor.
  - destruct (H 0 x eq_refl) as (y' & E & K). injection E as ->. exact K.
  - apply IH; [now injection L|]. intros k z Z. exact (H (S k) z Z).
Qed.
Lemma edge_in p i : wf_axis p -> (sp_low p <= edge p i)%Qc -> (0 <= i)%Z.
Proof.
  intros W H. destruct (Z.lt_ge_cases i 0) as [L|L]; [|lia]. pose proof (edge_lt p i 0 W L) as K. rewrite edge_0 in K. exfalso. qlra.
Qed.
Lemma region_l roi s : wf_spectra s -> axes_ok (s_cfg s) -> suits roi (s_cfg s) ->
  exists kw s', roi_keywords roi (s_cfg s) [] = Ok kw /\ shrink kw s = (s', None) /\ in_region roi s s'.
Proof.
  intros W (NE & Al & N & T) (NR & S). pose proof W as [[NDp Wa] C].
  destruct (keywords_ok (s_cfg s) N T roi NR) with (kw := @nil (string * Qc)) as (kw & K1 & K2 & K3).
  { intros d [lo hi] I. destruct (S d lo hi I) as (_ & v & p & V & D & _). eauto. }
  assert (RL : forall v p, In (v, p) (s_cfg s) -> req_low kw v p = roi_low roi v p /\ req_high kw v p = roi_high roi v p).
  { intros v p I. destruct (K2 v p I) as [A B]. unfold req_low, req_high, roi_low, roi_high. rewrite A, B.
    destruct (dget (get_dim v) roi) as [[lo hi]|]; auto. }
  assert (ED : forall v p, In (v, p) (s_cfg s) -> exists i0 i1, roi_low roi v p = edge p i0 /\ roi_high roi v p = edge p i1 /\ (0 <= i0 < i1)%Z).
  { intros v p I. rewrite Forall_forall in Wa. pose proof (Wa _ I) as Wp. cbn in Wp. unfold roi_low, roi_high.
    destruct (dget (get_dim v) roi) as [[lo hi]|] eqn:G.
    - apply dget_In in G. destruct (S _ _ _ G) as (L & v' & p' & I' & D & B1 & B2 & (i0 & ->) & (i1 & ->)).
      pose proof (NoDup_map_inj _ (s_cfg s) (v', p') (v, p) N I' I D) as X. injection X as -> ->. exists i0, i1.
      split; [reflexivity|]. split; [reflexivity|]. apply edge_lt_inv in L; [|exact Wp]. apply edge_in in B1; [|exact Wp]. lia.
    - exists 0%Z, (sp_bins p). rewrite edge_0, edge_bins by exact Wp. destruct Wp. repeat split; lia. }
  destruct (shrink_edges_l s kw W NE Al) as (s' & st & E & W' & (R1 & R2 & R3) & B).
  - intros k x I. destruct (K3 k x I) as [[]|(v & p & d & lo & hi & I1 & D & I2 & H)]. exists v, p.
    split; [now apply In_dget|]. destruct (S _ _ _ I2) as (L & v' & p' & I' & D' & B1 & B2 & _).
    pose proof (NoDup_map_inj _ (s_cfg s) (v', p') (v, p) N I' I1 (eq_trans D' (eq_sym D))) as X. injection X as -> ->.
    destruct H as [(-> & ->)|(-> & ->)]; auto.
  - intros v p I. destruct (RL v p I) as [-> ->]. destruct (ED v p I) as (i0 & i1 & -> & -> & L). rewrite Forall_forall in Wa. pose proof (Wa _ I) as Wp.
    split; [now exists i0|]. split; [now exists i1|]. apply edge_lt; [exact Wp|lia].
  - exists kw, s'. split; [exact K1|]. split; [exact E|]. split; [exact W'|]. 
    assert (Q : forall k v p, nth_error (s_cfg s) k = Some (v, p) -> exists p' n, nth_error (s_cfg s') k = Some (v, p') /\ nth_error st k = Some n /\
      sp_low p' = roi_low roi v p /\ sp_high p' = roi_high roi v p /\ bin_width p' = bin_width p /\ edge p (Z.of_nat n) = roi_low roi v p).
    { intros k v p H. destruct (R3 k v p H) as (p' & n & H1 & H2 & (L1 & L2 & L3) & O). apply nth_error_In in H.
      destruct (RL v p H) as [RL1 RL2]. destruct (ED v p H) as (i0 & i1 & E0 & E1 & L). rewrite Forall_forall in Wa. pose proof (Wa _ H) as Wp. cbn in Wp.
      destruct (region_bounds p p' n i0 i1 Wp) as [X Y]; [lia|lia| |].
      { intro i. rewrite <- O. unfold req_overlap. rewrite RL1, RL2, E0, E1. reflexivity. }
      exists p', n. split; [exact H1|]. split; [exact H2|]. rewrite E0, E1, L1, L2, X. replace (i0 + sp_bins p')%Z with i1 by lia. auto. }
    split; [|exists st; split; [|exact B]].
    + apply Forall2_nth; [now symmetry|]. intros k [v p] H. destruct (Q k v p H) as (p' & n & H1 & H2 & H3 & H4 & H5 & _). exists (v, p'). cbn. auto.
    + apply Forall2_nth; [now symmetry|]. intros k [v p] H. destruct (Q k v p H) as (p' & n & H1 & H2 & H3 & H4 & H5 & H6). exists n. cbn. auto.
Qed.

(** ** Restricting twice *)
Lemma axis_eq p q : wf_axis p -> wf_axis q -> sp_low p = sp_low q -> sp_high p = sp_high q -> bin_width p = bin_width q -> p = q.
Proof.
  intros Wp Wq L H B. destruct p as [l h b], q as [l' h' b']. cbn in L, H. subst l' h'. f_equal.
  pose proof (width_total _ Wp) as A. pose proof (width_total _ Wq) as A'. rewrite <- B in A'. pose proof (width_pos _ Wp) as P. cbn [sp_low sp_high sp_bins] in *.
  apply zq_inj. assert (E : ((zq b - zq b') * bin_width (SPar l h b) = 0)%Qc) by (transitivity ((zq b * bin_width (SPar l h b)) - (zq b' * bin_width (SPar l h b)))%Qc; [ring|rewrite A, A'; ring]).
  apply Qcmult_integral in E as [E|E]; [|rewrite E in P; exfalso; qlra].
  transitivity (zq b - zq b' + zq b')%Qc; [ring|rewrite E; ring].
Qed.
Lemma cut_unique roi c c1 c2 : Forall (fun kp => wf_axis (snd kp)) c1 -> Forall (fun kp => wf_axis (snd kp)) c2 -> cut_axes roi c c1 -> cut_axes roi c c2 -> c1 = c2.
Proof.
  intros W1 W2 H. revert c2 W2. induction H as [|[v p] [v1 p1] c c1 (A1 & A2 & A3 & A4) H IH]; intros c2 W2 K; inversion K as [|x [v2 p2] c' c2' (B1 & B2 & B3 & B4) K']; subst; [reflexivity|].
  inversion W1; inversion W2; subst. cbn in *. f_equal; [|now apply IH]. f_equal; [congruence|]. apply axis_eq; congruence.
Qed.
Lemma cut_dims roi c c' : cut_axes roi c c' -> map (fun y => get_dim (fst y)) c' = map (fun y => get_dim (fst y)) c /\ map fst c' = map fst c.
Proof. induction 1 as [|[v p] [v' p'] c c' (A & _) H [I1 I2]]; [auto|]. cbn in *. subst. split; congruence. Qed.
Lemma roi_edges roi c : NoDup (map (fun y => get_dim (fst y)) c) -> Forall (fun kp => wf_axis (snd kp)) c -> suits roi c ->
  forall v p, In (v, p) c -> exists i0 i1, roi_low roi v p = edge p i0 /\ roi_high roi v p = edge p i1 /\ (0 <= i0 < i1)%Z.
Proof.
  intros N Wa (_ & S) v p I. rewrite Forall_forall in Wa. pose proof (Wa _ I) as Wp. cbn in Wp. unfold roi_low, roi_high.
  destruct (dget (get_dim v) roi) as [[lo hi]|] eqn:G.
  - apply dget_In in G. destruct (S _ _ _ G) as (L & v' & p' & I' & D & B1 & B2 & (i0 & ->) & (i1 & ->)).
    pose proof (NoDup_map_inj _ c (v', p') (v, p) N I' I D) as X. injection X as -> ->. exists i0, i1.
    split; [reflexivity|]. split; [reflexivity|]. apply edge_lt_inv in L; [|exact Wp]. apply edge_in in B1; [|exact Wp]. lia.
  - exists 0%Z, (sp_bins p). rewrite edge_0, edge_bins by exact Wp. destruct Wp. repeat split; lia.
Qed.
Lemma cut_in roi c c' v p' : cut_axes roi c c' -> In (v, p') c' -> exists p, In (v, p) c /\ sp_low p' = roi_low roi v p /\ sp_high p' = roi_high roi v p /\ bin_width p' = bin_width p.
Proof.
  induction 1 as [|[v1 p1] [v2 p2] c c' (A & B & C & D) H IH]; intro I; [destruct I|]. cbn in *. subst v2. destruct I as [I|I].
  - injection I as <- <-. exists p1. auto.
  - destruct (IH I) as (p & X & Y). exists p. auto.
Qed.
Lemma cut_in_r roi c c' v p : cut_axes roi c c' -> In (v, p) c -> exists p', In (v, p') c' /\ sp_low p' = roi_low roi v p /\ sp_high p' = roi_high roi v p /\ bin_width p' = bin_width p.
Proof.
  induction 1 as [|[v1 p1] [v2 p2] c c' (A & B & C & D) H IH]; intro I; [destruct I|]. cbn in *. subst v2. destruct I as [I|I].
  - injection I as -> ->. exists p2. auto.
  - destruct (IH I) as (p' & X & Y). exists p'. auto.
Qed.
Lemma cut_axes_ok roi c c' : Forall (fun kp => wf_axis (snd kp)) c -> axes_ok c -> suits roi c -> cut_axes roi c c' -> axes_ok c'.
Proof.
  intros Wa (NE & Al & N & T) S K. pose proof (roi_edges roi c N Wa S) as E. split; [inversion K; subst; congruence|].
  destruct (cut_dims _ _ _ K) as [D1 D2]. split; [|split; [now rewrite D1|]].
  - apply Forall_forall. intros [v p'] I. destruct (cut_in roi c c' v p' K I) as (p & I' & A & B & C). cbn. rewrite Forall_forall in Al.
    destruct (Al _ I') as (m & M). cbn in M. destruct (E v p I') as (i0 & i1 & E0 & _). exists (m + i0)%Z. rewrite A, E0, C. unfold edge. rewrite M, zq_add. ring.
  - apply Forall_forall. intros [v p'] I. apply (in_map fst) in I. rewrite D2 in I. apply in_map_iff in I as ([v' p] & X & I). cbn in *. subst v'.
    rewrite Forall_forall in T. exact (T _ I).
Qed.
Lemma cut_suits roi c c' : Forall (fun kp => wf_axis (snd kp)) c' -> NoDup (map (fun y => get_dim (fst y)) c) -> suits roi c -> cut_axes roi c c' -> suits roi c'.
Proof.
  intros Wa N (NR & S) K. split; [exact NR|]. intros d lo hi I. destruct (S d lo hi I) as (L & v & p & V & D & _). split; [exact L|].
  destruct (cut_in_r roi c c' v p K V) as (p' & V' & A & B & C). exists v, p'. unfold roi_low, roi_high in A, B. rewrite D, (In_dget d (lo, hi) roi) in A, B by assumption.
  rewrite Forall_forall in Wa. pose proof (Wa _ V') as Wp. cbn in Wp.
  split; [exact V'|]. split; [exact D|]. rewrite A, B. split; [apply Qcle_refl|]. split; [apply Qcle_refl|].
  split; [exists 0%Z; rewrite edge_0; congruence|]. exists (sp_bins p'). rewrite edge_bins by exact Wp. congruence.
Qed.
Lemma cut_self roi c c' : cut_axes roi c c' -> cut_axes roi c' c'.
Proof.
  induction 1 as [|[v p] [v1 p1] c c' (A & B & C & D) K IH]; constructor; [|exact IH]. cbn in *. subst v1. split; [reflexivity|].
  unfold roi_low, roi_high in *. destruct (dget (get_dim v) roi) as [[lo hi]|]; auto.
Qed.
Lemma zeros_add sh : forall l i, Forall (eq 0) l -> length l = length sh -> valid_idx sh i -> zip_with Nat.add l i = i.
Proof.
  induction sh as [|n sh IH]; intros l i Z L V; inversion V; subst; destruct l as [|a l]; try discriminate; [reflexivity|].
  inversion Z; subst. cbn. f_equal. apply IH; auto.
Qed.
Lemma region_self roi s1 s2 : wf_spectra s1 -> cut_axes roi (s_cfg s1) (s_cfg s1) -> in_region roi s1 s2 -> same_spectra s2 s1.
Proof.
  intros [[N1 W1] C1] K1 ([[N2 W2] C2] & K2 & st2 & F2 & B2).
  assert (E : s_cfg s2 = s_cfg s1) by (apply (cut_unique roi (s_cfg s1)); auto).
  assert (Z : Forall (eq 0) st2 /\ length st2 = length (s_cfg s1)).
  { clear - K1 F2 W1. revert st2 F2. induction (s_cfg s1) as [|[v p] c IH]; intros st2 F2; inversion F2 as [|x n c' st E F]; subst; [split; constructor|].
    inversion K1 as [|x y c1 c2 (A & B & C & D) K]; subst. inversion W1; subst. destruct (IH H2 K st F) as [I1 I2]. cbn in *. split; [|now f_equal].
    constructor; [|exact I1]. rewrite <- B in E. rewrite <- (edge_0 p) in E.
    destruct (Z.lt_trichotomy 0 (Z.of_nat n)) as [L|[L|L]]; [|lia|lia]. pose proof (edge_lt p _ _ H1 L) as X. rewrite E in X. exfalso. qlra. }
  destruct Z as [Z1 Z2]. destruct B2 as (S2 & G & M1 & M2 & M3 & M4 & M5 & M6).
  assert (SH : ashape (s_data s2) = ashape (s_data s1)). { unfold consistent in C1. rewrite S2, C1. now rewrite E. }
  split.
  - repeat split; congruence.
  - intros i V. destruct (G i V) as [_ G']. rewrite G'. f_equal. apply (zeros_add (ashape (s_data s1))); [exact Z1| |congruence].
    rewrite Z2. unfold consistent in C1. rewrite C1. unfold cfg_shape, get_pars. now rewrite !map_length.
Qed.
Lemma region_twice roi s s1 s2 : in_region roi s s1 -> in_region roi s1 s2 -> same_spectra s2 s1.
Proof. intros (W & K & _). apply region_self; [exact W|exact (cut_self _ _ _ K)]. Qed.

(** scale, add and histories of operations (C17-C20). *)
From Coq Require Import Lia Permutation.
From Verif Require Import Model.Base Model.PyStr Model.NDArray Model.Param Model.Config Model.Spectra.
From Verif Require Import Spec.AxisSpec Spec.ArraySpec Spec.SpectraSpec Spec.RebinSpec Spec.ShrinkSpec Spec.OpsSpec.
From Verif Require Import Proofs.QcLemmas Proofs.NDArrayLemmas Proofs.ParamLemmas Proofs.DictLemmas
  Proofs.StrLemmas Proofs.FillLemmas Proofs.ProjectLemmas Proofs.RebinLemmas Proofs.ShrinkAxis Proofs.ShrinkLemmas Proofs.ShrinkProps.
Local Open Scope string_scope.
Local Open Scope list_scope.

(** ** scale *)
Lemma scale_l s n :
  s_decays s <> 0%Qc ->
  exists s', scale n s = (s', None) /\ s_decays s' = n /\ s_cfg s' = s_cfg s /\ s_raw s' = s_raw s /\
    s_name s' = s_name s /\ s_rois s' = s_rois s /\ ashape (s_data s') = ashape (s_data s) /\
    (forall idx, aget (s_data s') idx = (aget (s_data s) idx * (n / s_decays s))%Qc) /\
    s_sum s' = (s_sum s * (n / s_decays s))%Qc.
Proof.
  intro D. unfold scale. rewrite qdiv_ok by exact D. eexists. split; [reflexivity|]. cbn.
  repeat split. unfold s_sum, asum. cbn. rewrite sum_over_scale. reflexivity.
Qed.
Lemma scale_compose_l s a b :
  s_decays s <> 0%Qc -> a <> 0%Qc ->
  exists s1 s2 s3, scale a s = (s1, None) /\ scale b s1 = (s2, None) /\ scale b s = (s3, None) /\ same_spectra s2 s3.
Proof.
  intros D A. unfold scale. rewrite !qdiv_ok by exact D. eexists _, _, _. split; [reflexivity|].
  cbn [s_decays with_decays]. rewrite qdiv_ok by exact A. split; [reflexivity|]. split; [reflexivity|].
  split; [repeat split|]. intros idx _. cbn. field. auto.
Qed.
Lemma scale_inverse_l s n :
  s_decays s <> 0%Qc -> n <> 0%Qc ->
  exists s1 s2, scale n s = (s1, None) /\ scale (s_decays s) s1 = (s2, None) /\ same_spectra s2 s.
Proof.
  intros D A. unfold scale. rewrite !qdiv_ok by exact D. eexists _, _. split; [reflexivity|].
  cbn [s_decays with_decays]. rewrite qdiv_ok by exact A. split; [reflexivity|].
  split; [repeat split|]. intros idx _. cbn. field. auto.
Qed.
Lemma scale_zero_l s n : s_decays s = 0%Qc -> scale n s = (s, Some EZeroDivisionError).
Proof. intro D. unfold scale, qdiv. destruct (qeqP (s_decays s) 0); [reflexivity|contradiction]. Qed.

(** ** add *)
Lemma shape_eqb_eq a b : shape_eqb a b = true -> a = b.
Proof. apply idx_eqb_eq. Qed.
Lemma add_shape s o : add_check s o = Ok tt -> ashape (s_data s) = ashape (s_data o).
Proof.
  unfold add_check. destruct (shape_eqb _ _) eqn:E; [|discriminate]. intros _. apply shape_eqb_eq, E.
Qed.
Lemma add_ok s o s' : s_add o s = (s', None) -> add_check s o = Ok tt.
Proof. unfold s_add. destruct (add_check s o) as [[]|e]; [reflexivity|discriminate]. Qed.
Lemma add_l s o s' :
  s_add o s = (s', None) ->
  ashape (s_data s) = ashape (s_data o) /\ ashape (s_data s') = ashape (s_data s) /\
  (forall idx, aget (s_data s') idx = (aget (s_data s) idx + aget (s_data o) idx)%Qc) /\
  s_decays s' = (s_decays s + s_decays o)%Qc /\ s_raw s' = (s_raw s + s_raw o)%Z /\
  s_cfg s' = s_cfg s /\ s_name s' = s_name s /\ s_rois s' = s_rois s /\ s_bg s' = s_bg s /\ s_bipo s' = s_bipo s /\
  s_sum s' = (s_sum s + s_sum o)%Qc.
Proof.
  intro H. pose proof (add_ok _ _ _ H) as C. pose proof (add_shape _ _ C) as Sh. unfold s_add in H. rewrite C in H.
  injection H as <-. cbn. split; [exact Sh|]. repeat split.
  unfold s_sum, asum. cbn. rewrite sum_over_add, <- Sh. reflexivity.
Qed.
Lemma add_rejected_l s o s' e : s_add o s = (s', Some e) -> s' = s.
Proof. unfold s_add. destruct (add_check s o); [discriminate|]. congruence. Qed.
Lemma add_comm_l s o a b :
  s_add o s = (a, None) -> s_add s o = (b, None) ->
  ashape (s_data a) = ashape (s_data b) /\ (forall idx, aget (s_data a) idx = aget (s_data b) idx) /\
  s_decays a = s_decays b /\ s_raw a = s_raw b.
Proof.
  intros H1 H2. apply add_l in H1 as (S1 & S1' & A1 & D1 & R1 & _). apply add_l in H2 as (S2 & S2' & A2 & D2 & R2 & _).
  repeat split.
  - congruence.
  - intro idx. rewrite A1, A2. ring.
  - rewrite D1, D2. ring.
  - lia.
Qed.

(** ** Which bins are added to each other *)
Lemma isclose_within a b : isclose a b = true -> within_tolerance a b.
Proof.
  unfold isclose, within_tolerance. intro H. apply qle_iff in H. unfold qabs at 1 in H.
  destruct (qleP 0 (a - b)%Qc) as [L|L].
  - pose proof (qabs_nonneg b). split; qlra.
  - apply Qcnot_le_lt in L. split; qlra.
Qed.
Lemma check_par_ok mine other types v :
  check_par mine other types v = Ok tt ->
  exists p q, dget v mine = Some p /\
    dget (match dget (get_dim v) types with Some t => (get_dim v ++ "_" ++ t)%string | None => v end) other = Some q /\
    same_intervals p q.
Proof.
  unfold check_par. set (w := match dget (get_dim v) types with Some t => _ | None => _ end).
  destruct (get_par mine v) as [p|e] eqn:Ep; [|discriminate]. cbn [rbind].
  destruct (get_par other w) as [q|e] eqn:Eq; [|discriminate]. cbn [rbind].
  destruct (isclose (sp_high p) (sp_high q)) eqn:H1; [|discriminate].
  destruct (isclose (sp_low p) (sp_low q)) eqn:H2; [|discriminate].
  destruct (Z.eqb_spec (sp_bins p) (sp_bins q)) as [H3|H3]; [|discriminate]. intros _.
  exists p, q. split; [apply dlookup_ok, Ep|]. split; [apply dlookup_ok, Eq|].
  split; [apply isclose_within, H2|]. split; [apply isclose_within, H1|exact H3].
Qed.
Lemma check_pars_ok mine other types vs v :
  check_pars mine other types vs = Ok tt -> In v vs -> check_par mine other types v = Ok tt.
Proof.
  induction vs as [|w vs IH]; cbn [check_pars]; intros H I; [destruct I|].
  destruct (check_par mine other types w) as [[]|e] eqn:E; [|discriminate]. cbn [rbind] in H.
  destruct I as [->|I]; auto.
Qed.
Lemma str_insert_perm x l : Permutation (str_insert x l) (x :: l).
Proof.
  induction l as [|y l IH]; cbn; [constructor; constructor|]. destruct (String.leb x y); [apply Permutation_refl|].
  etransitivity; [apply perm_skip, IH|]. apply perm_swap.
Qed.
Lemma str_sort_perm l : Permutation (str_sort l) l.
Proof.
  induction l as [|x l IH]; cbn; [constructor|]. etransitivity; [apply str_insert_perm|]. apply perm_skip, IH.
Qed.
Lemma dim_type_in_ok d ps t : dim_type_in d ps = Ok t -> exists w, In w ps /\ get_dim w = d /\ t = last (split_char "_"%char w) "".
Proof.
  induction ps as [|p ps IH]; cbn; [discriminate|]. destruct (String.eqb_spec (get_dim p) d) as [E|N].
  - intro H. injection H as <-. exists p. auto.
  - intro H. destruct (IH H) as (w & I & R). exists w. split; [right; exact I|exact R].
Qed.
Lemma diff_types_some mine other vs types d t :
  diff_types mine other vs = Ok types -> dget d types = Some t ->
  exists w, In w (get_pars other) /\ get_dim w = d /\ t = last (split_char "_"%char w) "".
Proof.
  revert types. induction vs as [|v vs IH]; intros types H G; cbn in H.
  - injection H as <-. discriminate.
  - destruct (str_in v (get_pars mine)); [apply (IH types); assumption|].
    destruct (get_dim_type other (get_dim v)) as [t'|e] eqn:E; [|discriminate]. cbn [rbind] in H.
    destruct (diff_types mine other vs) as [ts|e] eqn:E2; [|discriminate]. cbn in H. injection H as <-.
    cbn in G. destruct (String.eqb_spec d (get_dim v)) as [->|N].
    + injection G as <-. apply dim_type_in_ok in E as (w & I & R). exists w. split; [|exact R].
      eapply Permutation_in; [apply str_sort_perm|exact I].
    + apply (IH ts); auto.
Qed.
Lemma get_dim_join d t : has_char "_"%char t = false -> get_dim (d ++ "_" ++ t)%string = d.
Proof.
  intro H. unfold get_dim. change ("_" ++ t)%string with (String "_"%char t).
  rewrite split_removelast by exact H. apply join_split.
Qed.
Lemma nth_pars (c : sconfig) k v p : nth_error c k = Some (v, p) -> nth_error (get_pars c) k = Some v.
Proof. intro H. apply (map_nth_error fst) in H. exact H. Qed.
Lemma NoDup_map_nodup {A B} (f : A -> B) l : NoDup (map f l) -> NoDup l.
Proof.
  induction l as [|a l IH]; cbn; intro H; constructor; inversion H; subst.
  - intro I. apply (in_map f) in I. contradiction.
  - auto.
Qed.
Lemma NoDup_map_inj {A B} (f : A -> B) l x y : NoDup (map f l) -> In x l -> In y l -> f x = f y -> x = y.
Proof.
  induction l as [|a l IH]; cbn; intros N I J E; [destruct I|]. inversion N as [|? ? N1 N2]; subst.
  destruct I as [->|I], J as [->|J]; auto.
  - exfalso. apply N1. rewrite E. apply in_map, J.
  - exfalso. apply N1. rewrite <- E. apply in_map, I.
Qed.
Lemma add_parts s o :
  add_check s o = Ok tt ->
  exists types, diff_types (s_cfg s) (s_cfg o) (get_pars (s_cfg o)) = Ok types /\
    check_pars (s_cfg s) (s_cfg o) types (get_pars (s_cfg s)) = Ok tt.
Proof.
  unfold add_check. destruct (shape_eqb _ _); [|discriminate]. cbn [negb].
  destruct (check_dims (get_dims (s_cfg s)) _) as [[]|]; [|discriminate]. cbn [rbind].
  destruct (check_dims (get_dims (s_cfg o)) _) as [[]|]; [|discriminate]. cbn [rbind].
  destruct (diff_types _ _ _) as [ts|]; [|discriminate]. cbn [rbind]. eauto.
Qed.
Lemma add_regions_l s o s' :
  s_add o s = (s', None) ->
  map get_dim (map fst (s_cfg s)) = map get_dim (map fst (s_cfg o)) -> NoDup (map get_dim (map fst (s_cfg s))) ->
  same_regions (s_cfg s) (s_cfg o).
Proof.
  intros H ED ND. apply add_ok, add_parts in H as (types & Ht & Hc).
  assert (L : length (s_cfg s) = length (s_cfg o)).
  { apply (f_equal (@length _)) in ED. rewrite !map_length in ED. exact ED. }
  split; [exact L|]. intros k v p N.
  assert (ND' : NoDup (map get_dim (map fst (s_cfg o)))) by (rewrite <- ED; exact ND).
  assert (Hk : k < length (s_cfg o)) by (rewrite <- L; apply nth_error_Some; congruence).
  destruct (nth_error (s_cfg o) k) as [[v' p']|] eqn:N'; [|apply nth_error_None in N'; lia].
  pose proof (nth_pars _ _ _ _ N) as Nv. pose proof (nth_pars _ _ _ _ N') as Nv'.
  assert (Ed : get_dim v' = get_dim v).
  { apply (map_nth_error get_dim) in Nv, Nv'. unfold get_pars, dkeys in *. rewrite ED in Nv. congruence. }
  assert (Iv' : In v' (map fst (s_cfg o))) by (eapply nth_error_In, Nv').
  pose proof (check_pars_ok _ _ _ _ v Hc (nth_error_In _ _ Nv)) as Cv.
  apply check_par_ok in Cv as (p0 & q & G1 & G2 & SI).
  assert (p0 = p).
  { assert (dget v (s_cfg s) = Some p); [|congruence]. apply In_dget; [|eapply nth_error_In, N].
    eapply NoDup_map_nodup, ND. }
  subst p0.
  assert (W : (match dget (get_dim v) types with Some t => (get_dim v ++ "_" ++ t)%string | None => v end) = v').
  { destruct (dget (get_dim v) types) as [t|] eqn:Et.
    - destruct (diff_types_some _ _ _ _ _ _ Ht Et) as (w & Iw & Ew & ->).
      apply (NoDup_map_inj get_dim (map fst (s_cfg o))); [exact ND'|eapply dget_key, G2|exact Iv'|].
      rewrite get_dim_join by apply last_nochar. symmetry. exact Ed.
    - apply (NoDup_map_inj get_dim (map fst (s_cfg o))); [exact ND'|eapply dget_key, G2|exact Iv'|congruence]. }
  rewrite W in G2. assert (q = p').
  { assert (dget v' (s_cfg o) = Some p'); [|congruence]. apply In_dget; [|eapply nth_error_In, N'].
    eapply NoDup_map_nodup, ND'. }
  subst q. exists v', p'. auto.
Qed.
Lemma diff_types_none mine other vs : (forall v, In v vs -> In v (get_pars mine)) -> diff_types mine other vs = Ok [].
Proof.
  induction vs as [|v vs IH]; intro H; [reflexivity|]. cbn [diff_types].
  rewrite (proj2 (str_in_iff v (get_pars mine))) by (apply H; left; reflexivity). apply IH. intros w I. apply H. right. exact I.
Qed.
Lemma add_regions_names_l s o s' :
  s_add o s = (s', None) -> map fst (s_cfg s) = map fst (s_cfg o) -> NoDup (map fst (s_cfg s)) ->
  same_regions (s_cfg s) (s_cfg o).
Proof.
  intros H EN ND. apply add_ok, add_parts in H as (types & Ht & Hc).
  rewrite diff_types_none in Ht by (unfold get_pars, dkeys; rewrite EN; auto). injection Ht as <-.
  assert (L : length (s_cfg s) = length (s_cfg o)).
  { apply (f_equal (@length _)) in EN. rewrite !map_length in EN. exact EN. }
  split; [exact L|]. intros k v p N.
  assert (Hk : k < length (s_cfg o)) by (rewrite <- L; apply nth_error_Some; congruence).
  destruct (nth_error (s_cfg o) k) as [[v' p']|] eqn:N'; [|apply nth_error_None in N'; lia].
  pose proof (nth_pars _ _ _ _ N) as Nv. pose proof (nth_pars _ _ _ _ N') as Nv'.
  assert (v' = v) by (unfold get_pars, dkeys in *; rewrite EN in Nv; congruence). subst v'.
  pose proof (check_pars_ok _ _ _ _ v Hc (nth_error_In _ _ Nv)) as Cv.
  apply check_par_ok in Cv as (p0 & q & G1 & G2 & SI). cbn in G2.
  assert (dget v (s_cfg s) = Some p) by (apply In_dget; [exact ND|eapply nth_error_In, N]).
  assert (dget v (s_cfg o) = Some p') by (apply In_dget; [unfold dkeys; rewrite <- EN; exact ND|eapply nth_error_In, N']).
  exists v, p'. split; [reflexivity|]. split; [reflexivity|]. congruence.
Qed.
Definition ab : spectra :=
  Spec "x" None [("a_mc", SPar 0 (zq 1) 2); ("b_mc", SPar 0 (zq 5) 2)] (azeros [2; 2]) 1 0 0 [].
Definition ba : spectra :=
  Spec "x" None [("b_mc", SPar 0 (zq 5) 2); ("a_mc", SPar 0 (zq 1) 2)] (azeros [2; 2]) 1 0 0 [].
Lemma ab_wf : wf_spectra ab /\ wf_spectra ba.
Proof.
  split; (split; [split|reflexivity]); try (repeat constructor; cbn; intuition congruence);
    repeat constructor; vm_compute; reflexivity.
Qed.
Lemma add_regions_refuted_l :
  exists s o s', wf_spectra s /\ wf_spectra o /\ s_add o s = (s', None) /\ ~ same_regions (s_cfg s) (s_cfg o).
Proof.
  exists ab, ba. eexists. split; [apply ab_wf|]. split; [apply ab_wf|]. split; [reflexivity|].
  intros [_ H]. destruct (H 0 "a_mc" _ eq_refl) as (v' & p' & N & E & _). injection N as <- <-. vm_compute in E. discriminate.
Qed.

(** ** Histories *)
Lemma rebin_accept c bs sh :
  Forall (fun kp => wf_axis (snd kp)) c -> sh = cfg_shape c -> length bs = length c ->
  snd (rebin_pars c bs) = None -> is_ok (rebin_shape bs sh) = true -> divides_bins c bs.
Proof.
  intros W ->. unfold divides_bins. revert bs. induction c as [|[v p] c IH]; intros [|b bs] L H K; cbn in L; try lia; [constructor|].
  cbn [rebin_pars] in H. destruct (Z.eqb_spec b 0) as [|Nb]; [discriminate|].
  destruct (Z.eqb_spec (sp_bins p mod b) 0) as [M|M]; [|discriminate]. cbn [negb] in H.
  inversion W as [|? ? W1 W2]; subst. cbn [cfg_shape map rebin_shape snd] in K.
  destruct (Z.ltb_spec b 0) as [|Pb]; [discriminate|].
  destruct (rebin_shape bs _) as [r|e] eqn:R in K; [|discriminate].
  destruct (rebin_pars c bs) as [c'' o] eqn:E. cbn in H. subst o.
  constructor; [|apply IH; [exact W2|lia|rewrite E; reflexivity|unfold cfg_shape; rewrite R; reflexivity]].
  split; [lia|]. apply Z.mod_divide; [lia|exact M].
Qed.
Lemma rebin_accepted s bs : wf_spectra s -> snd (rebin bs s) = None -> divides_bins (s_cfg s) bs.
Proof.
  intros [[NDp W] C] H. unfold rebin in H. unfold get_pars, dkeys in H. rewrite map_length in H.
  destruct (Nat.eqb_spec (length bs) (length (s_cfg s))) as [L|L]; [|discriminate]. cbn [negb] in H.
  destruct (rebin_pars (s_cfg s) bs) as [c o] eqn:E. destruct o as [e|]; [discriminate|].
  unfold rebin_data in H. destruct (rebin_shape bs (ashape (s_data s))) as [r|e] eqn:R; [|discriminate].
  eapply rebin_accept; [exact W|exact C|exact L|rewrite E; reflexivity|rewrite R; reflexivity].
Qed.
Lemma shrink_wf s kw :
  wf_spectra s -> good_keywords (s_cfg s) kw -> snd (shrink kw s) = None -> leaves_bins (fst (shrink kw s)) ->
  wf_spectra (fst (shrink kw s)).
Proof.
  intros W G A L.
  assert (NE : s_cfg s <> []).
  { intro E. unfold shrink in A. rewrite E in A. destruct (shrink_check [] kw); cbn in A; discriminate. }
  destruct (shrink_general s kw W NE G L) as (c' & sls & d & E & _ & _ & _ & _ & Wf & _). rewrite E. exact Wf.
Qed.
Lemma op_step a s :
  wf_spectra s -> op_ok a s -> wf_spectra (fst (do_op a s)).
Proof.
  intros W [A H]. destruct a as [w kw|n|o|kw|kw|bs|lo hi d]; cbn [do_op] in *.
  - eapply wf_meta; [apply fill_meta|exact W].
  - unfold scale in *. destruct (qdiv n (s_decays s)); [exact W|exact W].
  - destruct (s_add o s) as [s' [e|]] eqn:E; [discriminate|]. apply add_l in E as (_ & Sh & _ & _ & _ & Ec & _).
    cbn. unfold wf_spectra, consistent in *. rewrite Ec, Sh. exact W.
  - destruct H as [G L]. apply shrink_wf; assumption.
  - destruct H as [G L]. unfold cut in *. destruct (shrink kw s) as [s1 [e|]] eqn:E; [discriminate|].
    destruct (qdiv (s_sum s1) (s_sum s)) as [f|e]; [|discriminate]. cbn [fst] in *.
    assert (W1 : wf_spectra (fst (shrink kw s))) by (apply shrink_wf; rewrite ?E; try assumption; reflexivity).
    rewrite E in W1. exact W1.
  - pose proof (rebin_accepted _ _ W A) as D. destruct (rebin_l s bs W D) as (s' & E & W' & _). rewrite E. exact W'.
  - destruct H as [G L]. unfold shrink_to_roi in *. set (kw := [_; _]) in *.
    destruct (shrink kw s) as [s1 [e|]] eqn:E; [discriminate|].
    destruct (qdiv (s_sum s1) (s_sum s)) as [f|e]; [|discriminate].
    destruct (get_par (s_cfg s1) d) as [p|e]; [|discriminate]. cbn [fst] in *.
    assert (W1 : wf_spectra (fst (shrink kw s))) by (apply shrink_wf; rewrite ?E; try assumption; reflexivity).
    rewrite E in W1. exact W1.
Qed.
Lemma history_l h s : wf_spectra s -> ops_ok h s -> wf_spectra (run do_op h s).
Proof.
  revert s. induction h as [|a h IH]; intros s W O; [exact W|]. destruct O as [O1 O2]. cbn.
  apply IH; [apply op_step; assumption|exact O2].
Qed.

Lemma fill_nonneg w kw s : wf_spectra s -> nonneg s -> (0 <= w)%Qc -> nonneg (fst (fill w kw s)).
Proof.
  intros W P Hw idx V. pose proof (fill_meta w kw s) as (_ & _ & _ & _ & _ & _ & _ & Sh).
  rewrite <- Sh in V. rewrite fill_content by assumption. pose proof (P idx V).
  destruct (accepted _ _ && inside _ _ _); qlra.
Qed.
Lemma nonneg_step a s :
  wf_spectra s -> op_ok a s -> op_nonneg a -> nonneg s -> (0 <= s_decays s)%Qc ->
  nonneg (fst (do_op a s)) /\ (0 <= s_decays (fst (do_op a s)))%Qc.
Proof.
  intros W [A H] N P D. destruct a as [w kw|n|o|kw|kw|bs|lo hi d]; cbn [do_op op_nonneg] in *.
  - split; [apply fill_nonneg; assumption|]. pose proof (fill_meta w kw s) as (_ & _ & _ & E & _). rewrite <- E. exact D.
  - unfold scale in *. destruct (qdiv n (s_decays s)) as [f|e] eqn:F; [|discriminate]. cbn [fst].
    apply qdiv_inv in F as [NZ ->]. split; [|exact N]. intros idx V. cbn in *. apply Qcmul_nonneg; [apply P, V|].
    apply Qcdiv_nonneg; [exact N|]. destruct (Qclt_le_dec 0 (s_decays s)); [assumption|]. exfalso. apply NZ. qlra.
  - destruct (s_add o s) as [s' [e|]] eqn:E; [discriminate|]. apply add_l in E as (S1 & Sh & Ag & Dc & _). cbn [fst].
    destruct N as [N1 N2]. split; [|rewrite Dc; qlra]. intros idx V. rewrite Sh in V. rewrite Ag.
    pose proof (P idx V). rewrite S1 in V. pose proof (N1 idx V). qlra.
  - destruct (shrink kw s) as [s' [e|]] eqn:E; [discriminate|]. cbn [fst].
    split; [eapply shrink_sum_l; eassumption|]. apply shrink_meta_l in E as (_ & _ & -> & _). exact D.
  - destruct (cut kw s) as [s' [e|]] eqn:E; [discriminate|]. cbn [fst].
    apply cut_l in E as (s1 & E & _ & Ed & _ & _ & _ & NZ & Ec).
    destruct (shrink_sum_l _ _ _ P E) as (P1 & S0 & S1).
    split.
    + unfold nonneg. rewrite Ed. exact P1.
    + rewrite Ec. apply Qcmul_nonneg; [exact D|]. unfold s_sum at 1. rewrite Ed. apply Qcdiv_nonneg; [exact S0|].
      destruct (Qclt_le_dec 0 (s_sum s)); [assumption|]. exfalso. apply NZ.
      assert (0 <= s_sum s)%Qc by (apply sum_over_nonneg; exact P). qlra.
  - pose proof (rebin_accepted _ _ W A) as Dv. destruct (rebin_l s bs W Dv) as (s' & E & _ & _ & Dc & _ & _ & _ & Hm & _).
    rewrite E. cbn [fst]. split; [|rewrite Dc; exact D]. intros idx V. rewrite Hm by exact V. unfold merged, sum_where.
    apply qsum_nonneg. intros x I. apply in_map_iff in I as (j & <- & I). apply filter_In in I as [I _].
    apply P, all_idx_valid, I.
  - unfold shrink_to_roi in *. set (kw := [_; _]) in *.
    destruct (shrink kw s) as [s1 [e|]] eqn:E; [discriminate|].
    destruct (qdiv (s_sum s1) (s_sum s)) as [f|e]; [|discriminate].
    destruct (get_par (s_cfg s1) d) as [p|e]; [|discriminate]. cbn [fst].
    destruct (shrink_sum_l _ _ _ P E) as (P1 & _). split; [exact P1|]. cbn.
    apply shrink_meta_l in E as (_ & _ & -> & _). exact D.
Qed.
Lemma history_nonneg_l h s :
  wf_spectra s -> ops_ok h s -> Forall op_nonneg h -> nonneg s -> (0 <= s_decays s)%Qc -> nonneg (run do_op h s).
Proof.
  revert s. induction h as [|a h IH]; intros s W O N P D; [exact P|]. destruct O as [O1 O2].
  inversion N; subst. destruct (nonneg_step a s) as [P' D']; try assumption. cbn.
  apply IH; try assumption. apply op_step; assumption.
Qed.

(** Spectra that have the axes of the data are not changed by shrink_to_data and rebin. *)
From Coq Require Import Lia Permutation.
From Verif Require Import Model.Base Model.PyStr Model.NDArray Model.Param Model.Config Model.Spectra
  Model.Smear Model.Shift Model.Heap Model.Fit.
From Verif Require Import Spec.AxisSpec Spec.ArraySpec Spec.SpectraSpec Spec.ShrinkSpec Spec.HeapSpec Spec.FitRunSpec.
From Verif Require Import Proofs.QcLemmas Proofs.NDArrayLemmas Proofs.StrLemmas Proofs.DictLemmas Proofs.ParamLemmas Proofs.RebinLemmas
  Proofs.ShrinkProps Proofs.OpsLemmas Proofs.ExtLemmas Proofs.DeriveExt Proofs.HeapLemmas Proofs.FitLemmas.

Lemma has_mid a b : has_char "_"%char (a ++ "_" ++ b)%string = true.
Proof. induction a as [|c a IH]; [reflexivity|]. change (Ascii.eqb c "_"%char || has_char "_"%char (a ++ "_" ++ b)%string = true)%bool. rewrite IH. apply orb_true_r. Qed.
Lemma typed_decompose v : typed_name v -> v = (get_dim v ++ "_" ++ last (split_char "_"%char v) ""%string)%string.
Proof.
  intros (a & b & ->).
  pose proof (has_mid a b) as H.
  destruct (split_decompose _ _ H) as (x & E & N). set (t := last _ _) in *. rewrite E at 2.
  change (String "_"%char t) with ("_" ++ t)%string. now rewrite get_dim_join.
Qed.
Lemma dim_type_found v l : In v l -> (forall u, In u l -> get_dim u = get_dim v -> u = v) ->
  dim_type_in (get_dim v) l = Ok (last (split_char "_"%char v) ""%string).
Proof.
  induction l as [|u l IH]; intros I U; [destruct I|]. cbn. destruct (String.eqb_spec (get_dim u) (get_dim v)) as [E|N].
  - now rewrite (U u (or_introl eq_refl) E).
  - destruct I as [->|I]; [congruence|]. apply IH; [exact I|]. intros w J. apply U. now right.
Qed.
Lemma dim_type_of c v p : NoDup (map (fun y : string * spar => get_dim (fst y)) c) -> In (v, p) c ->
  get_dim_type c (get_dim v) = Ok (last (split_char "_"%char v) ""%string).
Proof.
  intros N I. unfold get_dim_type. apply dim_type_found.
  - eapply Permutation_in; [apply Permutation_sym, str_sort_perm|]. apply (in_map fst) in I. exact I.
  - intros u J E. apply (Permutation_in u (str_sort_perm _)) in J. unfold get_pars, dkeys in J. apply in_map_iff in J as ((u' & q) & <- & J).
    pose proof (NoDup_map_inj _ c (u', q) (v, p) N J I E) as K. now injection K as ->.
Qed.
Lemma in_dset {A} k x k' (x' : A) d : In (k, x) (dset k' x' d) -> (k = k' /\ x = x') \/ In (k, x) d.
Proof.
  induction d as [|[k2 x2] d IH]; cbn.
  - intros [H|[]]. injection H as -> ->. auto.
  - destruct (String.eqb_spec k' k2) as [->|N]; cbn.
    + intros [H|H]; [injection H as <- <-; auto|auto].
    + intros [H|H]; [auto|]. destruct (IH H); auto.
Qed.
Lemma data_keywords_ok sc : NoDup (map (fun y : string * spar => get_dim (fst y)) sc) -> NoDup (map fst sc) -> Forall (fun y => typed_name (fst y)) sc ->
  forall dc l kw, Forall2 (fun x y => get_dim (fst x) = get_dim (fst y) /\ snd x = snd y) dc l -> incl l sc ->
  current_bounds sc kw -> exists kw', data_keywords dc sc kw = Ok kw' /\ current_bounds sc kw'.
Proof.
  intros N N1 T. induction dc as [|[v p] dc IH]; intros l kw F I B; [exists kw; auto|].
  inversion F as [|x y dc' l' [D P] F']; subst. destruct y as [v' p']. cbn [fst snd] in D, P. subst p'.
  assert (J : In (v', p) sc) by (apply I; now left). cbn [data_keywords]. rewrite D, (dim_type_of sc v' p N J). cbn [rbind].
  rewrite Forall_forall in T. pose proof (typed_decompose v' (T _ J)) as E.
  set (t := last _ _) in *. apply (IH l'); [exact F'|intros z Z; apply I; now right|].
  assert (G : dget v' sc = Some p) by now apply In_dget. clearbody t.
  intros k x H. apply in_dset in H as [(-> & ->)|H].
  - exists v', p. split; [exact G|]. right. split; [|reflexivity]. rewrite E at 2. now rewrite !sapp_assoc.
  - apply in_dset in H as [(-> & ->)|H]; [|now apply B].
    exists v', p. split; [exact G|]. left. split; [|reflexivity]. rewrite E at 2. now rewrite !sapp_assoc.
Qed.
Lemma ready_keywords d s : fit_ready d s -> exists kw, data_keywords (s_cfg d) (s_cfg s) [] = Ok kw /\ current_bounds (s_cfg s) kw.
Proof.
  intros (((N1 & _) & _) & _ & _ & F & N & T). apply (data_keywords_ok (s_cfg s) N N1 T _ (s_cfg s)); [exact F|apply incl_refl|intros k x []].
Qed.
Lemma ready_shape d s : wf_spectra d -> fit_ready d s -> map Z.of_nat (ashape (s_data d)) = get_shape (s_cfg s).
Proof.
  intros ((_ & Wd) & Cd) (((_ & _) & _) & _ & _ & F & _). rewrite Cd. unfold cfg_shape, get_shape. rewrite map_map.
  induction F as [|[v p] [v' p'] c c' [_ E] F IH]; [reflexivity|]. cbn in E. subst p'. inversion Wd as [|x y Wp Wc]; subst. cbn. f_equal; [|now apply IH].
  cbn in Wp. destruct Wp as [Wp1 Wp2]. lia.
Qed.
Lemma ready_same d s s' : fit_ready d s -> s_cfg s' = s_cfg s -> ashape (s_data s') = ashape (s_data s) -> fit_ready d s'.
Proof.
  intros ((W & C) & R) E S. unfold fit_ready, wf_spectra, consistent, same_axes in *. rewrite E, S. auto.
Qed.
Lemma match_data_ran ft r st d s : wf_heap (fs_heap st) -> r <> ft_data ft -> abs (fs_heap st) (ft_data ft) = Some d -> abs (fs_heap st) r = Some s ->
  wf_spectra d -> fit_ready d s ->
  exists st', match_data ft r st = (st', Ok tt) /\ fs_cache st' = fs_cache st /\ fs_cur st' = fs_cur st /\ wf_heap (fs_heap st') /\
    frame (eq r) (fs_heap st) (fs_heap st') /\ exists s', abs (fs_heap st') r = Some s' /\ same_spectra s' s.
Proof.
  intros W N AD A WD R. unfold match_data, shrink_to_data, mbind, look, mlift, on_heap. rewrite AD, A.
  destruct (ready_keywords d s R) as (kw & -> & B). destruct st as [h ca cu]. cbn [fs_heap fs_cache fs_cur fs_with_heap] in *.
  pose proof R as (Ws & Ne & Al & _).
  destruct (shrink_identity_l s kw Ws Ne Al B) as (s1 & E1 & S1).
  pose proof (shrink_call kw r h s W A) as G. rewrite E1 in G.
  assert (K1 : s_cfg s1 = s_cfg s) by (destruct S1 as [(_ & _ & K & _) _]; exact K).
  pose proof (frame_same_cfg r h _ _ s G A K1) as F1.
  destruct G as (_ & W1 & (c1 & A1 & M1) & O1). cbn [snd fst] in *.
  destruct (h_shrink kw r h) as [h1 e1]. cbn [fst snd] in *. subst e1.
  cbn [fs_with_heap fs_heap fs_cache fs_cur]. rewrite (abs_frame _ h h1 (ft_data ft) d F1 N AD).
  assert (Sc : same_spectra c1 s) by (eapply same_trans; eassumption).
  assert (R1 : fit_ready d c1). { apply (ready_same d s); [exact R|destruct Sc as [(_ & _ & K & _) _]; exact K|destruct Sc as [(_ & _ & _ & _ & _ & _ & _ & K) _]; exact K]. }
  rewrite (ready_shape d c1 WD R1). pose proof R1 as (Wc & _).
  destruct (rebin_identity_l c1 Wc) as (s2 & E2 & S2).
  pose proof (rebin_call (get_shape (s_cfg c1)) r h1 c1 W1 A1) as G. rewrite E2 in G.
  assert (K2 : s_cfg s2 = s_cfg c1) by (destruct S2 as [(_ & _ & K & _) _]; exact K).
  pose proof (frame_same_cfg r h1 _ _ c1 G A1 K2) as F2.
  destruct G as (_ & W2 & (c2 & A2 & M2) & O2). cbn [snd fst] in *.
  destruct (h_rebin (get_shape (s_cfg c1)) r h1) as [h2 e2]. cbn [fst snd] in *. subst e2.
  eexists. split; [reflexivity|]. cbn. refine (conj eq_refl (conj eq_refl (conj W2 (conj (frame_trans _ _ _ _ F1 F2) _)))).
  exists c2. split; [exact A2|]. eapply same_trans; [exact M2|]. eapply same_trans; eassumption.
Qed.

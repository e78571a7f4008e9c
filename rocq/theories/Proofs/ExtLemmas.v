(** The operations on spectra depend only on the bins that exist. *)
From Coq Require Import Lia.
From Verif Require Import Model.Base Model.PyStr Model.NDArray Model.Param Model.Config Model.Spectra.
From Verif Require Import Spec.ArraySpec Spec.SpectraSpec Spec.OpsSpec.
From Verif Require Import Proofs.QcLemmas Proofs.NDArrayLemmas Proofs.RebinLemmas.

Definition arr_eq (a b : ndarray) : Prop := ashape a = ashape b /\ forall i, valid_idx (ashape a) i -> aget a i = aget b i.
Lemma arr_refl a : arr_eq a a. Proof. split; auto. Qed.
Lemma arr_sym a b : arr_eq a b -> arr_eq b a.
Proof. intros [S G]. split; [congruence|]. intros i V. symmetry. apply G. congruence. Qed.
Lemma arr_trans a b c : arr_eq a b -> arr_eq b c -> arr_eq a c.
Proof. intros [S G] [S' G']. split; [congruence|]. intros i V. rewrite G by exact V. apply G'. congruence. Qed.

Definition res_eq {A} (R : A -> A -> Prop) (x y : res A) : Prop :=
  match x, y with Ok a, Ok b => R a b | Err e, Err f => e = f | _, _ => False end.

Lemma asum_ext a b : arr_eq a b -> asum a = asum b.
Proof. intros [S G]. unfold asum. rewrite <- S. apply sum_over_ext. exact G. Qed.
Lemma norm_indices_valid bins sh idx : norm_indices bins sh = Ok idx -> valid_idx sh idx.
Proof.
  revert bins idx. induction sh as [|n sh IH]; intros [|b bins] idx H; cbn in H; try discriminate; [injection H as <-; constructor|].
  unfold rbind in H. destruct (norm_index b n) as [k|] eqn:N; [|discriminate]. destruct (norm_indices bins sh) as [ks|] eqn:M; [|discriminate].
  injection H as <-. constructor; [|now apply (IH bins)]. unfold norm_index in N.
  destruct ((_ && _)%bool) eqn:B in N; [|discriminate]. injection N as <-. apply andb_prop in B as [B1 B2].
  apply Z.leb_le in B1. apply Z.ltb_lt in B2. lia.
Qed.
Lemma aadd_ext a b bins w : arr_eq a b -> res_eq arr_eq (aadd_at a bins w) (aadd_at b bins w).
Proof.
  intros [S G]. unfold aadd_at. rewrite <- S. destruct (norm_indices bins (ashape a)) as [idx|e] eqn:N; cbn; [|reflexivity].
  split; [exact S|]. cbn. intros i V. destruct (idx_eqb i idx); [|now apply G].
  rewrite G; [reflexivity|]. now apply norm_indices_valid in N.
Qed.
Lemma amap_ext f a b : arr_eq a b -> arr_eq (amap f a) (amap f b).
Proof. intros [S G]. split; [exact S|]. cbn. intros i V. now rewrite G. Qed.
Lemma aplus_ext a b c d : arr_eq a b -> arr_eq c d -> ashape a = ashape c -> arr_eq (aplus a c) (aplus b d).
Proof. intros [S G] [S' G'] E. split; [exact S|]. cbn. intros i V. rewrite G by exact V. rewrite G'; [reflexivity|congruence]. Qed.
Lemma valid_insert k i : forall sh idx, valid_idx (remove_at k sh) idx -> (k < length sh)%nat -> i < nth k sh 0 -> valid_idx sh (insert_at k i idx).
Proof.
  induction k as [|k IH]; intros sh idx V L H; (destruct sh as [|n sh]; [cbn in L; lia|]).
  - cbn in *. destruct idx; constructor; auto.
  - cbn in V. inversion V as [|j m idx' sh' J V']; subst. cbn. constructor; [exact J|]. apply IH; [exact V'|cbn in L; lia|exact H].
Qed.
Lemma norm_axis_lt ax n k : norm_axis ax n = Ok k -> (k < n)%nat.
Proof.
  unfold norm_axis. destruct ((_ && _)%bool) eqn:B; [|discriminate]. intro H. injection H as <-.
  apply andb_prop in B as [B1 B2]. apply Z.leb_le in B1. apply Z.ltb_lt in B2. lia.
Qed.
Lemma asum_axis_ext ax a b : arr_eq a b -> res_eq arr_eq (asum_axis ax a) (asum_axis ax b).
Proof.
  intros [S G]. unfold asum_axis, andim. rewrite <- S. destruct (norm_axis ax (length (ashape a))) as [k|e] eqn:N; cbn; [|reflexivity].
  apply norm_axis_lt in N. split; [cbn; congruence|]. cbn. intros i V. rewrite <- S. apply qsumn_ext. intros j J. apply G.
  now apply valid_insert.
Qed.
Lemma unravel_valid sh : forall k, k < asize sh -> valid_idx sh (unravel sh k).
Proof.
  induction sh as [|n sh IH]; intros k H; cbn [unravel]; [constructor|].
  change (asize (n :: sh)) with (n * asize sh) in H.
  assert (P : asize sh <> 0) by (intro Z; rewrite Z in H; lia). constructor.
  - apply Nat.div_lt_upper_bound; lia.
  - apply IH. now apply Nat.mod_upper_bound.
Qed.
Lemma areshape_ext new a b : arr_eq a b -> res_eq arr_eq (areshape new a) (areshape new b).
Proof.
  intros [S G]. unfold areshape. rewrite <- S. destruct (Nat.eqb_spec (asize new) (asize (ashape a))) as [E|]; [|reflexivity].
  split; [reflexivity|]. cbn. intros i V. apply G. apply unravel_valid. rewrite <- E. now apply ravel_lt.
Qed.
Lemma clip_le b n : clip_bound b n <= n.
Proof. unfold clip_bound. lia. Qed.
Lemma slice_valid sls : forall sh i, let se := zip_with slice_axis sls sh in length sls = length sh ->
  valid_idx (map snd se) i -> valid_idx sh (zip_with Nat.add (map fst se) i).
Proof.
  induction sls as [|sl sls IH]; intros [|n sh] i se L V; cbn in *; try discriminate; [constructor|].
  inversion V as [|j m i' sh' J V']; subst. constructor.
  - cbn in J. pose proof (clip_le (snd sl) n). lia.
  - apply IH; [congruence|exact V'].
Qed.
Lemma aslice_ext sls a b : arr_eq a b -> res_eq arr_eq (aslice sls a) (aslice sls b).
Proof.
  intros [S G]. unfold aslice, andim. rewrite <- S. destruct (Nat.eqb_spec (length sls) (length (ashape a))) as [E|]; [|reflexivity].
  split; [reflexivity|]. cbn. intros i V. apply G. now apply slice_valid.
Qed.
Lemma rebin_sums_ext is : forall a b, arr_eq a b -> res_eq arr_eq (rebin_sums is a) (rebin_sums is b).
Proof.
  induction is as [|i is IH]; intros a b E; [exact E|]. cbn [rebin_sums].
  pose proof (asum_axis_ext (- (Z.of_nat i + 1))%Z a b E) as H. unfold rbind.
  destruct (asum_axis _ a), (asum_axis _ b); cbn in H; try contradiction; [now apply IH|exact H].
Qed.
Lemma rebin_data_ext bins a b : arr_eq a b -> res_eq arr_eq (rebin_data bins a) (rebin_data bins b).
Proof.
  intro E. unfold rebin_data. rewrite <- (proj1 E). unfold rbind. destruct (rebin_shape bins (ashape a)) as [sh|]; [|reflexivity].
  pose proof (areshape_ext sh a b E) as H. destruct (areshape sh a), (areshape sh b); cbn in H; try contradiction; [now apply rebin_sums_ext|exact H].
Qed.
Lemma nd_loop_ext axes is : forall a b, arr_eq a b -> res_eq arr_eq (nd_project_loop axes is a) (nd_project_loop axes is b).
Proof.
  induction is as [|i is IH]; intros a b E; [exact E|]. cbn [nd_project_loop]. destruct (existsb _ _); [now apply IH|].
  pose proof (asum_axis_ext (Z.of_nat i) a b E) as H. unfold rbind.
  destruct (asum_axis _ a), (asum_axis _ b); cbn in H; try contradiction; [now apply IH|exact H].
Qed.

(** ** Spectra *)
Lemma same_spectra_arr s s' : same_spectra s s' -> arr_eq (s_data s) (s_data s').
Proof. intros [(_ & _ & _ & _ & _ & _ & _ & S) G]. split; assumption. Qed.
Lemma same_spectra_intro s s' : s_name s = s_name s' -> s_bg s = s_bg s' -> s_cfg s = s_cfg s' -> s_decays s = s_decays s' ->
  s_raw s = s_raw s' -> s_bipo s = s_bipo s' -> s_rois s = s_rois s' -> arr_eq (s_data s) (s_data s') -> same_spectra s s'.
Proof. intros. destruct H6 as [S G]. repeat split; assumption. Qed.
Lemma same_refl s : same_spectra s s. Proof. split; [repeat split|auto]. Qed.
Lemma same_trans a b c : same_spectra a b -> same_spectra b c -> same_spectra a c.
Proof.
  intros H K. pose proof (arr_trans _ _ _ (same_spectra_arr _ _ H) (same_spectra_arr _ _ K)) as E.
  destruct H as [(A1 & A2 & A3 & A4 & A5 & A6 & A7 & A8) _], K as [(B1 & B2 & B3 & B4 & B5 & B6 & B7 & B8) _].
  apply same_spectra_intro; congruence || exact E.
Qed.
Lemma same_sym a b : same_spectra a b -> same_spectra b a.
Proof.
  intros H. pose proof (arr_sym _ _ (same_spectra_arr _ _ H)) as E.
  destruct H as [(A1 & A2 & A3 & A4 & A5 & A6 & A7 & A8) _]. apply same_spectra_intro; congruence || exact E.
Qed.

Definition out_eq (x y : spectra * out) : Prop := same_spectra (fst x) (fst y) /\ snd x = snd y.
Ltac meta H := destruct H as [(Hn & Hb & Hc & Hd & Hr & Hp & Ho & Hs) Hg].
Ltac meta2 H := destruct H as [(Kn & Kb & Kc & Kd & Kr & Kp & Ko & Ks) Kg].

Lemma fill_ext w kw s s' : same_spectra s s' -> out_eq (fill w kw s) (fill w kw s').
Proof.
  intro H. pose proof (same_spectra_arr _ _ H) as A. pose proof H as H'. meta H. unfold fill, fill_data. rewrite <- Hc. unfold rbind.
  destruct (fill_check_unknown _ _); [|split; [exact H'|reflexivity]]. destruct (fill_check_missing _ _); [|split; [exact H'|reflexivity]].
  destruct (fill_check_range _ _); [|split; [exact H'|reflexivity]]. destruct (fill_bins _ _) as [bins|]; [|split; [exact H'|reflexivity]].
  pose proof (aadd_ext _ _ bins w A) as E. destruct (aadd_at (s_data s) bins w), (aadd_at (s_data s') bins w); cbn in E; try contradiction.
  - split; [|reflexivity]. cbn. apply same_spectra_intro; cbn; try assumption.
  - split; [exact H'|cbn; congruence].
Qed.
Lemma scale_ext n s s' : same_spectra s s' -> out_eq (scale n s) (scale n s').
Proof.
  intro H. pose proof (same_spectra_arr _ _ H) as A. pose proof H as H'. meta H. unfold scale. rewrite <- Hd.
  destruct (qdiv n (s_decays s)) as [f|]; [|split; [exact H'|reflexivity]]. split; [|reflexivity]. cbn.
  apply same_spectra_intro; cbn; try assumption; try reflexivity. now apply amap_ext.
Qed.
Lemma add_check_ext2 s s' o o' : same_spectra s s' -> same_spectra o o' -> add_check s o = add_check s' o'.
Proof. intros H K. unfold add_check. meta H. meta2 K. rewrite Hc, Hs, Kc, Ks. reflexivity. Qed.
Lemma add_shape_ok s o : add_check s o = Ok tt -> ashape (s_data s) = ashape (s_data o).
Proof.
  unfold add_check. destruct (shape_eqb (ashape (s_data s)) (ashape (s_data o))) eqn:E; [|discriminate]. intros _. revert E.
  generalize (ashape (s_data s)) (ashape (s_data o)). intro l. induction l as [|x l IH]; intros [|y m] E; cbn in E; try discriminate; [reflexivity|].
  apply andb_prop in E as [E1 E2]. apply Nat.eqb_eq in E1. f_equal; auto.
Qed.
Lemma add_ext s s' o o' : same_spectra s s' -> same_spectra o o' -> out_eq (s_add o s) (s_add o' s').
Proof.
  intros H K. pose proof (add_check_ext2 _ _ _ _ H K) as C. unfold s_add. rewrite <- C.
  destruct (add_check s o) as [[]|e] eqn:E; [|split; [exact H|reflexivity]].
  apply add_shape_ok in E. pose proof (same_spectra_arr _ _ H) as A. pose proof (same_spectra_arr _ _ K) as B.
  split; [|reflexivity]. meta H. meta2 K. cbn. apply same_spectra_intro; cbn; try assumption; try congruence. now apply aplus_ext.
Qed.
Lemma shrink_ext kw s s' : same_spectra s s' -> out_eq (shrink kw s) (shrink kw s').
Proof.
  intro H. pose proof (same_spectra_arr _ _ H) as A. pose proof H as H'. meta H. unfold shrink. rewrite <- Hc.
  destruct (shrink_check (s_cfg s) kw); [|split; [exact H'|reflexivity]].
  destruct (shrink_pars kw (s_cfg s)) as [c [sls|e]].
  - destruct sls as [|sl sls].
    + split; [|reflexivity]. cbn. apply same_spectra_intro; cbn; try assumption; reflexivity.
    + pose proof (aslice_ext (sl :: sls) _ _ A) as E.
      destruct (aslice (sl :: sls) (s_data s)), (aslice (sl :: sls) (s_data s')); cbn in E; try contradiction;
        (split; [|cbn; congruence]); cbn; apply same_spectra_intro; cbn; try assumption; reflexivity.
  - split; [|reflexivity]. cbn. apply same_spectra_intro; cbn; try assumption; reflexivity.
Qed.
Lemma sum_ext s s' : same_spectra s s' -> s_sum s = s_sum s'.
Proof. intro H. apply asum_ext. now apply same_spectra_arr. Qed.
Lemma rebin_ext b s s' : same_spectra s s' -> out_eq (rebin b s) (rebin b s').
Proof.
  intro H. pose proof (same_spectra_arr _ _ H) as A. pose proof H as H'. meta H. unfold rebin. rewrite <- Hc.
  destruct (negb _); [split; [exact H'|reflexivity]|].
  destruct (rebin_pars (s_cfg s) b) as [c [e|]].
  - split; [|reflexivity]. cbn. apply same_spectra_intro; cbn; try assumption; reflexivity.
  - pose proof (rebin_data_ext b _ _ A) as E.
    destruct (rebin_data b (s_data s)), (rebin_data b (s_data s')); cbn in E; try contradiction;
      (split; [|cbn; congruence]); cbn; apply same_spectra_intro; cbn; try assumption; reflexivity.
Qed.
Lemma cut_ext kw s s' : same_spectra s s' -> out_eq (cut kw s) (cut kw s').
Proof.
  intro H. pose proof (shrink_ext kw s s' H) as [E1 E2]. unfold cut. rewrite <- (sum_ext s s' H).
  destruct (shrink kw s) as [s1 o1], (shrink kw s') as [s2 o2]. cbn [fst snd] in *. subst o2.
  destruct o1; [split; [exact E1|reflexivity]|]. rewrite <- (sum_ext _ _ E1).
  destruct (qdiv (s_sum s1) (s_sum s)); [|split; [exact E1|reflexivity]].
  pose proof (same_spectra_arr _ _ E1) as A. meta E1.
  split; [|reflexivity]. cbn. apply same_spectra_intro; cbn; try assumption; congruence.
Qed.
Lemma roi_ext lo hi d s s' : same_spectra s s' -> out_eq (shrink_to_roi lo hi d s) (shrink_to_roi lo hi d s').
Proof.
  intro H. unfold shrink_to_roi. rewrite <- (sum_ext s s' H). set (kw := [_; _]). pose proof (shrink_ext kw s s' H) as [E1 E2].
  destruct (shrink kw s) as [s1 o1], (shrink kw s') as [s2 o2]. cbn [fst snd] in *. subst o2.
  destruct o1; [split; [exact E1|reflexivity]|]. rewrite <- (sum_ext _ _ E1).
  destruct (qdiv (s_sum s1) (s_sum s)); [|split; [exact E1|reflexivity]].
  pose proof (same_spectra_arr _ _ E1) as A. pose proof E1 as E1'. meta E1. rewrite <- Hc.
  destruct (get_par (s_cfg s1) d); [|split; [exact E1'|reflexivity]].
  split; [|reflexivity]. cbn. apply same_spectra_intro; cbn; try assumption. congruence.
Qed.
Lemma name_ext s s' : same_spectra s s' -> same_spectra (fst (get_background_name s)) (fst (get_background_name s')) /\
  snd (get_background_name s) = snd (get_background_name s').
Proof.
  intro H. pose proof (same_spectra_arr _ _ H) as A. pose proof H as H'. meta H. unfold get_background_name. rewrite <- Hn, <- Hb.
  destruct (s_bg s) as [[|a b]|]; try (split; [exact H'|reflexivity]);
    repeat match goal with |- context [if ?b then _ else _] => destruct b end; (split; [|reflexivity]); cbn; try exact H';
    apply same_spectra_intro; cbn; try assumption; reflexivity.
Qed.
Lemma nd_project_ext dims s s' : same_spectra s s' -> res_eq arr_eq (nd_project dims s) (nd_project dims s').
Proof.
  intro H. pose proof (same_spectra_arr _ _ H) as A. meta H. unfold nd_project. rewrite <- Hc. unfold rbind.
  destruct (rmapM (get_index (s_cfg s)) dims) as [axes|]; [|reflexivity].
  destruct (_ =? _)%nat; [exact A|now apply nd_loop_ext].
Qed.

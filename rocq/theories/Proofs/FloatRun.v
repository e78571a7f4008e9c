(** Histories of operations in binary64 against the same histories with exact numbers. *)
From Coq Require Import ZArith Reals Qreals Lra Lia Permutation.
From Flocq Require Import Core IEEE754.BinarySingleNaN IEEE754.Binary IEEE754.Bits.
From Verif Require Import Model.Base Model.NDArray Model.Spectra Model.FloatFill Model.FloatArray.
From Verif Require Import Spec.ArraySpec Spec.FloatSpec Spec.FloatRunSpec.
From Verif Require Import Proofs.QcLemmas Proofs.NDArrayLemmas Proofs.RebinLemmas Proofs.ExtLemmas Proofs.ProjectLemmas Proofs.ShrinkProps Proofs.FloatLemmas Proofs.FloatSums.
From Verif Require Proofs.MinimiseLemmas Proofs.ShiftLemmas.
Import ListNotations.
Local Open Scope nat_scope.

(* exact sums *)
Lemma sum_flat sh : forall f, sum_over sh f = qsumn (asize sh) (fun i => f (unravel sh i)).
Proof.
  induction sh as [|n sh IH]; intro f; [cbn; ring|].
  change (asize (n :: sh)) with (n * asize sh). cbn [sum_over]. rewrite qsumn_mul. apply qsumn_ext. intros i _. rewrite IH.
  apply qsumn_ext. intros j J. f_equal. cbn [unravel]. rewrite Nat.div_add_l by lia.
  rewrite Nat.div_small, Nat.add_0_r by exact J. f_equal. f_equal. rewrite Nat.add_comm, Nat.mod_add by lia. symmetry. now apply Nat.mod_small.
Qed.
Lemma reshape_total new a b : areshape new a = Ok b -> asum b = asum a.
Proof.
  unfold areshape. destruct (Nat.eqb_spec (asize new) (asize (ashape a))) as [E|]; [|discriminate]. intro H. injection H as <-.
  unfold asum. cbn [ashape aget]. rewrite !sum_flat, E. apply qsumn_ext. intros i I. do 2 f_equal.
  apply MinimiseLemmas.unravel_valid. lia.
Qed.
Lemma sum_at_total k : forall sh f, k < length sh ->
  sum_over (remove_at k sh) (fun idx => qsumn (nth k sh 0) (fun i => f (insert_at k i idx))) = sum_over sh f.
Proof.
  induction k as [|k IH]; intros [|n sh] f L; cbn in L; try lia.
  - cbn [remove_at nth sum_over]. rewrite (sum_over_qsumn n sh (fun i idx => f (insert_at 0 i idx))). apply qsumn_ext. intros i _.
    apply sum_over_ext. intros idx _. now destruct idx.
  - cbn [remove_at nth sum_over]. apply qsumn_ext. intros i _.
    rewrite <- (IH sh (fun idx => f (i :: idx))) by lia. apply sum_over_ext. intros idx _. reflexivity.
Qed.
Lemma aset_total a idx w : valid_idx (ashape a) idx -> asum (aset a idx (aget a idx + w)%Qc) = (asum a + w)%Qc.
Proof.
  intro V. unfold asum, aset. cbn [ashape aget].
  rewrite (sum_over_ext (ashape a) _ (fun j => aget a j + (if idx_eqb j idx then w else 0))%Qc).
  - rewrite sum_over_add. f_equal. rewrite (sum_over_single _ _ idx); [now rewrite idx_eqb_refl|exact V|].
    intros j _ N. now rewrite idx_eqb_neq.
  - intros j _. destruct (idx_eqb j idx) eqn:E; [apply idx_eqb_eq in E; now subst|ring].
Qed.
Lemma slice_total sl a b : aslice sl a = Ok b -> (forall idx, valid_idx (ashape a) idx -> 0 <= aget a idx)%Qc -> (asum b <= asum a)%Qc.
Proof.
  unfold aslice, andim. destruct (Nat.eqb_spec (length sl) (length (ashape a))) as [E|]; [|discriminate]. intros H P. injection H as <-.
  unfold asum. cbn [ashape aget]. now apply sum_slice_le.
Qed.

(* arrays related entry by entry *)
Section Rel.
Variable P : binary64 -> Qc -> Prop.
Definition arel (a : farray) (b : ndarray) : Prop :=
  fshape a = ashape b /\ forall idx, valid_idx (fshape a) idx -> P (fget a idx) (aget b idx).
Definition rrel (x : res farray) (y : res ndarray) : Prop :=
  match x, y with Ok a, Ok b => arel a b | Err e, Err f => e = f | _, _ => False end.
Lemma slice_rel sl a b : arel a b -> rrel (f_slice sl a) (aslice sl b).
Proof.
  intros [E H]. unfold f_slice, aslice, andim. rewrite <- E.
  destruct (Nat.eqb_spec (length sl) (length (fshape a))) as [L|]; [|reflexivity]. split; [reflexivity|]. cbn [fshape fget aget].
  intros idx V. apply H. now apply ShrinkProps.slice_valid.
Qed.
Lemma reshape_rel new a b : arel a b -> rrel (f_reshape new a) (areshape new b).
Proof.
  intros [E H]. unfold f_reshape, areshape. rewrite <- E. destruct (Nat.eqb_spec (asize new) (asize (fshape a))) as [L|]; [|reflexivity].
  split; [reflexivity|]. cbn [fshape fget aget]. intros idx V. apply H. apply unravel_valid. rewrite <- L. now apply ravel_lt.
Qed.
End Rel.

Lemma once_line n t i : adds_each_once n t -> (In i (leaves t) <-> i < n).
Proof. intro O. split; [now apply once_lt|now apply once_in]. Qed.

(* whole numbers *)
Definition PW (x : binary64) (q : Qc) : Prop := is_number x /\ exact x = q /\ exists n, (0 <= n)%Z /\ q = zq n.
Lemma PW_whole x q : PW x q -> whole x.
Proof. intros (A & B & n & N & E). split; [exact A|]. exists n. split; [exact N|congruence]. Qed.
Lemma PW_nonneg x q : PW x q -> (0 <= q)%Qc.
Proof. intros (_ & _ & n & N & ->). change 0%Qc with (zq 0). apply zq_le. exact N. Qed.
Lemma arel_nonneg a b : arel PW a b -> forall idx, valid_idx (ashape b) idx -> (0 <= aget b idx)%Qc.
Proof. intros [E H] idx V. apply (PW_nonneg (fget a idx)). apply H. now rewrite E. Qed.
Lemma PW_add x y p q : PW x p -> PW y q -> (p + q <= W)%Qc -> PW (f_add x y) (p + q)%Qc.
Proof.
  intros (A & B & n & N & ->) (C & D & m & M & ->) H. rewrite <- zq_plus in H. apply (proj1 (zq_le _ _)) in H.
  destruct (whole_add x y n m) as [F G]; try assumption. split; [exact F|]. rewrite <- zq_plus. split; [exact G|].
  exists (n + m)%Z. split; [lia|reflexivity].
Qed.
Lemma PW_tree f h t n : adds_each_once n t -> (forall i, i < n -> PW (f i) (h i)) -> (qsumn n h <= W)%Qc -> PW (tree_sum f t) (qsumn n h).
Proof.
  intros O H B. assert (E : qsumn n h = tsum (fun i => exact (f i)) t).
  { rewrite (tsum_ok _ _ n O). apply qsumn_ext. intros i I. symmetry. now apply H. }
  rewrite E in B |- *. destruct (tree_whole f t) as (X & Y & Z); [|exact B|].
  - intros i I. apply (PW_whole _ (h i)). apply H. now apply (once_line n t).
  - split; [exact X|split; [exact Y|exact Z]].
Qed.
Definition total_W (b : ndarray) : Prop := (asum b <= W)%Qc.
Lemma entry_W a b idx : arel PW a b -> total_W b -> valid_idx (ashape b) idx -> (aget b idx <= W)%Qc.
Proof.
  intros R T V. eapply Qcle_trans; [|exact T]. unfold asum. apply (ShiftLemmas.sum_over_ge_one (ashape b) (aget b)); [|exact V].
  now apply (arel_nonneg a).
Qed.
Lemma total_PW t a b : arel PW a b -> total_W b -> adds_each_once (asize (fshape a)) t -> PW (f_total t a) (asum b).
Proof.
  intros [E H] T O. unfold f_total, asum in *. rewrite sum_flat. unfold total_W, asum in T. rewrite sum_flat in T. rewrite <- E in *.
  apply PW_tree; [exact O| |exact T]. intros i I. apply H. now apply unravel_valid.
Qed.
Lemma sum_at_PW ord k a b : arel PW a b -> total_W b -> k < length (fshape a) -> (forall idx, adds_each_once (nth k (fshape a) 0) (ord idx)) ->
  arel PW (f_sum_at ord k a) (sum_at k b) /\ asum (sum_at k b) = asum b.
Proof.
  intros R T K O. assert (S : asum (sum_at k b) = asum b).
  { unfold asum, sum_at. cbn [ashape aget]. apply sum_at_total. destruct R as [<- _]. exact K. }
  split; [|exact S]. pose proof R as [E H]. split; [cbn; congruence|]. cbn [f_sum_at sum_at fshape fget aget]. intros idx V.
  rewrite <- E. apply PW_tree; [apply O| |].
  - intros i I. apply H. now apply valid_insert.
  - assert (V' : valid_idx (ashape (sum_at k b)) idx) by (cbn; congruence).
    refine (Qcle_trans _ (asum (sum_at k b)) _ _ _); [|rewrite S; exact T].
    rewrite E. refine (ShiftLemmas.sum_over_ge_one (ashape (sum_at k b)) (aget (sum_at k b)) idx _ V').
    intros j J. cbn [sum_at aget]. apply qsumn_nonneg. intros i I. apply (arel_nonneg a b R). apply valid_insert; [exact J| |exact I].
    now rewrite <- E.
Qed.
Lemma rebin_sums_PW ords is : forall a b, arel PW a b -> total_W b -> orders_ok ords is (fshape a) ->
  match f_rebin_sums ords is a, rebin_sums is b with
  | Ok a', Ok b' => arel PW a' b' /\ asum b' = asum b
  | Err e, Err f => e = f
  | _, _ => False
  end.
Proof.
  induction is as [|i is IH]; intros a b R T O; [now split|]. cbn [f_rebin_sums rebin_sums orders_ok] in *.
  unfold f_sum_axis, asum_axis, andim, rbind. rewrite <- (proj1 R).
  destruct (norm_axis _ _) as [k|e] eqn:N; [|reflexivity]. destruct (O k eq_refl) as [O1 O2]. apply norm_axis_lt in N.
  destruct (sum_at_PW (ords i) k a b R T N O1) as [R' S]. specialize (IH (f_sum_at (ords i) k a) (sum_at k b) R').
  assert (T' : total_W (sum_at k b)) by (unfold total_W; rewrite S; exact T). specialize (IH T' O2).
  destruct (f_rebin_sums _ _ _), (rebin_sums _ _); try exact IH. destruct IH as [IH1 IH2]. split; [exact IH1|congruence].
Qed.
Lemma rebin_PW ords new a b : arel PW a b -> total_W b ->
  (forall sh', rebin_shape new (fshape a) = Ok sh' -> orders_ok ords (seq 0 (length new)) sh') ->
  match f_rebin ords new a, rebin_data new b with
  | Ok a', Ok b' => arel PW a' b' /\ asum b' = asum b
  | Err e, Err f => e = f
  | _, _ => False
  end.
Proof.
  intros R T O. unfold f_rebin, rebin_data, rbind. rewrite <- (proj1 R). destruct (rebin_shape new (fshape a)) as [sh|]; [|reflexivity].
  specialize (O sh eq_refl). pose proof (reshape_rel PW sh a b R) as H.
  destruct (f_reshape sh a) as [a'|] eqn:Ea, (areshape sh b) as [b'|] eqn:Eb; cbn [rrel] in H; try contradiction; [|exact H].
  apply reshape_total in Eb. assert (T' : total_W b') by (unfold total_W; rewrite Eb; exact T).
  assert (Sh : fshape a' = sh) by (unfold f_reshape in Ea; destruct (_ =? _); [injection Ea as <-; reflexivity|discriminate]).
  rewrite <- Sh in O. pose proof (rebin_sums_PW ords _ a' b' H T' O) as X.
  destruct (f_rebin_sums _ _ _), (rebin_sums _ _); try exact X. destruct X. split; [assumption|congruence].
Qed.
Lemma whole_PW x : whole x -> PW x (exact x).
Proof. intros (A & n & N & E). split; [exact A|split; [reflexivity|]]. now exists n. Qed.
Lemma whole_arel a : whole_array a -> arel PW a (exact_array a).
Proof. intro H. split; [reflexivity|]. intros idx V. apply whole_PW, H. now apply in_shape_valid. Qed.
Lemma PW_zero x q : PW x q -> f_zero x = qeq q 0.
Proof.
  intros (A & B & _). pose proof (zero_ok x A) as Z. change (toR x) with (real x) in Z. rewrite <- exact_real, B in Z.
  destruct (f_zero x) eqn:F, (qeq q 0) eqn:Q; try reflexivity; exfalso.
  - assert (X : q <> 0%Qc) by (intro C; rewrite C in Q; discriminate (eq_trans (eq_sym Q) (proj2 (qeq_iff 0%Qc 0%Qc) eq_refl))).
    assert (Y : Rof q <> 0%R) by (intro C; apply X, Rof_inj; now rewrite Rof_0). apply Z in Y. discriminate.
  - apply qeq_iff in Q. rewrite Q, Rof_0 in Z. now apply (proj1 Z eq_refl).
Qed.
Lemma put_in_nonneg o : op_whole o -> (0 <= put_in o)%Qc.
Proof.
  destruct o; cbn; intro H; try apply Qcle_refl.
  - apply whole_PW in H. now apply PW_nonneg in H.
  - apply sum_over_nonneg. intros idx V. apply whole_arel in H. exact (arel_nonneg (fs_data o) _ H idx V).
Qed.
Lemma put_all_nonneg p : Forall op_whole p -> (0 <= put_in_all p)%Qc.
Proof. induction 1 as [|o p H _ IH]; cbn; [apply Qcle_refl|]. apply put_in_nonneg in H. qlra. Qed.
Lemma shape_eqb_iff a b : shape_eqb a b = true <-> a = b. Proof. apply idx_eqb_eq. Qed.

Lemma whole_step o s a m : op_whole o -> sums_ok o (ashape a) -> arel PW (fs_data s) a -> (asum a + put_in o <= W)%Qc ->
  snd (f_step o s) = snd (e_step o (a, m)) /\ arel PW (fs_data (fst (f_step o s))) (fst (fst (e_step o (a, m)))) /\
  (asum (fst (fst (e_step o (a, m)))) <= asum a + put_in o)%Qc.
Proof.
  intros Wh So R B. assert (Pn := put_in_nonneg o Wh).
  assert (T : total_W a) by (unfold total_W; qlra).
  destruct o as [bins w|o|n|sl|sl t1 t2|new ords]; cbn [f_step e_step].
  - unfold f_add_at, aadd_at. rewrite <- (proj1 R). destruct (norm_indices bins (fshape (fs_data s))) as [idx|e] eqn:N; cbn [rbind].
    2:{ cbn. split; [reflexivity|split; [exact R|cbn in Pn; qlra]]. }
    apply norm_indices_valid in N. pose proof R as [E H]. pose proof N as N'. rewrite E in N'.
    cbn [fst snd fs_data]. split; [reflexivity|]. cbn [put_in] in *. split.
    + split; [exact E|]. cbn [fshape fget aget aset]. intros j V. destruct (idx_eqb j idx); [|now apply H].
      apply PW_add; [now apply H|now apply whole_PW|].
      apply (Qcle_trans _ (asum a + exact w)); [|exact B].
      assert (aget a idx <= asum a)%Qc by (apply (ShiftLemmas.sum_over_ge_one (ashape a) (aget a)); [now apply (arel_nonneg (fs_data s))|exact N']). qlra.
    + rewrite aset_total by exact N'. apply Qcle_refl.
  - rewrite <- (proj1 R). destruct (shape_eqb _ _) eqn:Sh; cbn [fst snd fs_data].
    2:{ split; [reflexivity|split; [exact R|qlra]]. }
    apply shape_eqb_iff in Sh. split; [reflexivity|]. pose proof R as [E H]. cbn [op_whole] in Wh. apply whole_arel in Wh. destruct Wh as [E' H'].
    assert (S : asum (aplus a (exact_array (fs_data o))) = (asum a + put_in (FAdd o))%Qc).
    { unfold asum, aplus. cbn [ashape aget put_in exact_array]. rewrite sum_over_add. unfold asum. cbn [ashape aget exact_array]. rewrite <- Sh, <- E. reflexivity. }
    split; [|rewrite S; apply Qcle_refl].
    split; [exact E|]. cbn [f_plus fshape fget aget aplus]. intros idx V. apply PW_add; [now apply H|apply H'; now rewrite <- Sh|].
    apply (Qcle_trans _ (asum a + put_in (FAdd o))); [|exact B]. rewrite <- S.
    refine (ShiftLemmas.sum_over_ge_one (ashape (aplus a (exact_array (fs_data o)))) (aget (aplus a (exact_array (fs_data o)))) idx _ _).
    + cbn [aplus ashape aget]. intros j V'. assert (0 <= aget a j)%Qc by exact (arel_nonneg (fs_data s) a R j V').
      assert (0 <= aget (exact_array (fs_data o)) j)%Qc by (apply (arel_nonneg (fs_data o) (exact_array (fs_data o)) (conj E' H')); cbn; rewrite <- Sh, E; exact V'). qlra.
    + cbn. now rewrite <- E.
  - destruct Wh.
  - pose proof (slice_rel PW sl _ _ R) as H. destruct (f_slice sl (fs_data s)) as [a'|] eqn:Ea, (aslice sl a) as [b'|] eqn:Eb; cbn [rrel] in H; try contradiction; cbn [fst snd fs_data].
    + split; [reflexivity|split; [exact H|]]. pose proof (slice_total _ _ _ Eb (arel_nonneg _ _ R)). qlra.
    + split; [congruence|split; [exact R|qlra]].
  - pose proof (slice_rel PW sl _ _ R) as H. destruct So as [O1 O2].
    destruct (f_slice sl (fs_data s)) as [a'|] eqn:Ea, (aslice sl a) as [b'|] eqn:Eb; cbn [rrel] in H; try contradiction; cbn [fst snd fs_data].
    + pose proof (slice_total _ _ _ Eb (arel_nonneg _ _ R)) as L.
      rewrite <- (proj1 R) in O1. pose proof (total_PW t1 _ _ R T O1) as P1. unfold qdiv. rewrite (PW_zero _ _ P1).
      destruct (qeq (asum a) 0); cbn [fst snd fs_data]; (split; [reflexivity|split; [exact H|cbn [put_in]; qlra]]).
    + split; [congruence|split; [exact R|qlra]].
  - rewrite <- (proj1 R) in So. pose proof (rebin_PW ords new _ _ R T So) as H.
    destruct (f_rebin ords new (fs_data s)), (rebin_data new a); try contradiction; cbn [fst snd fs_data].
    + destruct H as [H1 H2]. split; [reflexivity|split; [exact H1|rewrite H2; cbn [put_in]; qlra]].
    + split; [congruence|split; [exact R|qlra]].
Qed.
Lemma pair_let {A B C} (x : A * B) (f : A -> B -> C) : (let (a, b) := x in f a b) = f (fst x) (snd x).
Proof. now destruct x. Qed.
Lemma whole_run p : forall s a m, Forall op_whole p -> sums_ok_run p (a, m) -> arel PW (fs_data s) a -> (asum a + put_in_all p <= W)%Qc ->
  snd (f_run p s) = snd (e_run p (a, m)) /\ arel PW (fs_data (fst (f_run p s))) (fst (fst (e_run p (a, m)))) /\
  (asum (fst (fst (e_run p (a, m)))) <= asum a + put_in_all p)%Qc.
Proof.
  induction p as [|o p IH]; intros s a m Wh So R B; cbn [put_in_all] in *.
  - cbn. split; [reflexivity|split; [exact R|qlra]].
  - inversion Wh as [|? ? W1 W2]; subst. destruct So as [S1 S2]. pose proof (put_all_nonneg p W2) as Pp. pose proof (put_in_nonneg o W1) as Po.
    destruct (whole_step o s a m W1 S1 R) as (A1 & A2 & A3); [qlra|].
    cbn [f_run e_run]. rewrite !pair_let. cbn [fst snd].
    destruct (fst (e_step o (a, m))) as [a' m'] eqn:E. cbn [fst] in *.
    destruct (IH (fst (f_step o s)) a' m' W2 S2 A2) as (B1 & B2 & B3); [qlra|].
    split; [congruence|split; [exact B2|qlra]].
Qed.
Lemma PW_same a b : arel PW a b -> same_contents a b.
Proof. intros [E H]. split; [exact E|]. intros idx V. apply in_shape_valid in V. destruct (H idx V) as (A & B & _). now split. Qed.

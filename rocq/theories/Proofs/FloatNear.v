(** Rounding errors along a history of operations. *)
From Coq Require Import ZArith Reals Qreals Lra Lia Permutation.
From Flocq Require Import Core IEEE754.BinarySingleNaN IEEE754.Binary IEEE754.Bits.
From Verif Require Import Model.Base Model.NDArray Model.Spectra Model.FloatFill Model.FloatArray.
From Verif Require Import Spec.ArraySpec Spec.FloatSpec Spec.FloatRunSpec.
From Verif Require Import Proofs.QcLemmas Proofs.NDArrayLemmas Proofs.RebinLemmas Proofs.ExtLemmas Proofs.ProjectLemmas Proofs.ShrinkProps Proofs.FloatLemmas Proofs.FloatSums Proofs.FloatRun.
From Verif Require Proofs.MinimiseLemmas Proofs.ShiftLemmas.
Import ListNotations.
Local Open Scope nat_scope.

Lemma mul_finite x y : is_number x -> is_number y -> is_number (f_mul x y) -> real (f_mul x y) = rnd (real x * real y).
Proof.
  intros Fx Fy F. apply mul_ok; [exact Fx|exact Fy|].
  pose proof (Bmult_correct 53 1024 eq_refl eq_refl binop_nan_pl64 mode_NE x y) as C.
  change (SpecFloat.fexp 53 1024) with fexp in C. cbn [round_mode] in C.
  destruct (Rlt_bool_spec (Rabs (rnd (toR x * toR y))) (bpow radix2 1024)) as [L|L]; [exact L|].
  exfalso. change (Bmult 53 1024 eq_refl eq_refl binop_nan_pl64 mode_NE x y) with (f_mul x y) in C.
  unfold is_number in F. destruct (f_mul x y); cbn in *; unfold binary_overflow in C; cbn in C; discriminate.
Qed.
Lemma div_finite x y : is_number x -> real y <> 0%R -> is_number (f_div x y) -> real (f_div x y) = rnd (real x / real y).
Proof.
  intros Fx Ny F. apply div_ok; [exact Fx|exact Ny|].
  pose proof (Bdiv_correct 53 1024 eq_refl eq_refl binop_nan_pl64 mode_NE x y Ny) as C.
  change (SpecFloat.fexp 53 1024) with fexp in C. cbn [round_mode] in C.
  destruct (Rlt_bool_spec (Rabs (rnd (toR x / toR y))) (bpow radix2 1024)) as [L|L]; [exact L|].
  exfalso. change (Bdiv 53 1024 eq_refl eq_refl binop_nan_pl64 mode_NE x y) with (f_div x y) in C.
  unfold is_number in F. destruct (f_div x y); cbn in *; unfold binary_overflow in C; cbn in C; discriminate.
Qed.
Lemma near_mul k l x y p q : near k x p -> near l y q -> is_number (f_mul x y) -> held (real x * real y) -> near (k + l + 1) (f_mul x y) (p * q)%Qc.
Proof.
  rewrite !near_nr. intros [Fx Nx] [Fy Ny] F H. split; [exact F|]. rewrite (mul_finite _ _ Fx Fy F), Rof_mult.
  destruct (held_eps (real x * real y)) as (eps & A & ->); [|exact H|].
  - apply Rmult_le_pos; eapply nr_nonneg; eassumption.
  - apply nr_step; [now apply nr_mult|exact A].
Qed.
Lemma near_div k l x y p q : near k x p -> near l y q -> q <> 0%Qc -> is_number (f_div x y) -> held (real x / real y) -> near (k + l + 1) (f_div x y) (p / q)%Qc.
Proof.
  rewrite !near_nr. intros [Fx Nx] [Fy Ny] Z F H.
  assert (Q : Rof q <> 0%R) by (intro C; apply Z, Rof_inj; now rewrite Rof_0).
  assert (Y : real y <> 0%R) by (intro C; apply Q; now apply (nr_zero _ _ _ Ny)).
  assert (Q0 : (0 < Rof q)%R) by (destruct Ny; lra).
  split; [exact F|]. rewrite (div_finite _ _ Fx Y F), Rof_div by exact Z.
  destruct (held_eps (real x / real y)) as (eps & A & ->); [|exact H|].
  - apply Rmult_le_pos; [eapply nr_nonneg; eassumption|]. apply Rlt_le, Rinv_0_lt_compat. pose proof (nr_nonneg _ _ _ Ny). lra.
  - apply nr_step; [|exact A]. unfold Rdiv. apply nr_mult; [exact Nx|now apply nr_inv].
Qed.
Lemma near_zero k x q : near k x q -> f_zero x = qeq q 0.
Proof.
  rewrite near_nr. intros [A N]. pose proof (zero_ok x A) as Z. change (toR x) with (real x) in Z.
  apply nr_zero in N. destruct (f_zero x) eqn:F, (qeq q 0) eqn:Q; try reflexivity; exfalso.
  - assert (X : q <> 0%Qc) by (intro C; rewrite C in Q; discriminate (eq_trans (eq_sym Q) (proj2 (qeq_iff 0%Qc 0%Qc) eq_refl))).
    assert (Y : real x <> 0%R) by (intro C; apply X, Rof_inj; rewrite Rof_0; now apply N). apply Z in Y. discriminate.
  - apply qeq_iff in Q. rewrite Q, Rof_0 in N. now apply (proj1 Z eq_refl), N.
Qed.
Lemma near_neq k x q : near k x q -> qeq q 0 = false -> real x <> 0%R /\ q <> 0%Qc.
Proof.
  intros N Q. assert (X : q <> 0%Qc) by (intro C; rewrite C in Q; discriminate (eq_trans (eq_sym Q) (proj2 (qeq_iff 0%Qc 0%Qc) eq_refl))).
  split; [|exact X]. intro C. apply X, Rof_inj. rewrite Rof_0. apply near_nr in N. now apply (nr_zero _ _ _ (proj2 N)).
Qed.
Lemma near_0 k l x : near k x 0%Qc -> near l x 0%Qc.
Proof.
  rewrite !near_nr. intros [A N]. split; [exact A|]. rewrite Rof_0 in *. pose proof (proj2 (nr_zero _ _ _ N) eq_refl) as ->. unfold nr, Rdiv. lra.
Qed.

Lemma near_sum k f h n t : adds_each_once n t -> (forall i, i < n -> near k (f i) (h i)) -> is_number (tree_sum f t) ->
  near (k + depth t) (tree_sum f t) (qsumn n h).
Proof.
  intros O H F. rewrite <- (tsum_ok h t n O). apply near_tree; [|exact F]. intros i I. apply H. now apply (once_line n t).
Qed.
Lemma total_near k t a b : arel (near k) a b -> adds_each_once (asize (fshape a)) t -> is_number (f_total t a) -> near (k + depth t) (f_total t a) (asum b).
Proof.
  intros [E H] O F. unfold asum. rewrite sum_flat, <- E. apply near_sum; [exact O| |exact F]. intros i I. apply H. now apply unravel_valid.
Qed.
Definition fin (a : farray) : Prop := forall idx, valid_idx (fshape a) idx -> is_number (fget a idx).
Lemma insert_remove k : forall (idx : list nat), k < length idx -> insert_at k (nth k idx 0) (remove_at k idx) = idx.
Proof. induction k as [|k IH]; intros [|x idx] L; cbn in *; try lia; [now destruct idx|]. f_equal. apply IH. lia. Qed.
Lemma valid_nth k : forall sh idx, valid_idx sh idx -> k < length sh -> nth k idx 0 < nth k sh 0.
Proof. induction k as [|k IH]; intros sh idx V L; (destruct V as [|i n idx sh Hi V]; cbn in *; [lia|]); [exact Hi|]. apply IH; [exact V|lia]. Qed.
Lemma sum_at_fin ord k a : k < length (fshape a) -> (forall idx, adds_each_once (nth k (fshape a) 0) (ord idx)) -> fin (f_sum_at ord k a) -> fin a.
Proof.
  intros K O F idx V. assert (L : length idx = length (fshape a)) by (apply valid_length; exact V).
  specialize (F (remove_at k idx)). cbn [f_sum_at fshape fget] in F. specialize (F (ShiftLemmas.valid_remove _ _ k V)).
  pose proof (tree_args _ _ F (nth k idx 0)) as X. cbn beta in X. rewrite insert_remove in X by lia. apply X.
  apply (once_in _ _ _ (O _)). now apply valid_nth.
Qed.
Lemma sums_fin ords is : forall a a', f_rebin_sums ords is a = Ok a' -> orders_ok ords is (fshape a) -> fin a' -> fin a.
Proof.
  induction is as [|i is IH]; intros a a' H O F; cbn in H; [injection H as <-; exact F|].
  unfold f_sum_axis, rbind in H. cbn [orders_ok] in O. destruct (norm_axis _ _) as [k|] eqn:N; [|discriminate].
  destruct (O k eq_refl) as [O1 O2]. apply norm_axis_lt in N. apply (sum_at_fin (ords i) k); [exact N|exact O1|]. now apply (IH _ a').
Qed.
Lemma sums_near ords is : forall k a b a', arel (near k) a b -> orders_ok ords is (fshape a) -> f_rebin_sums ords is a = Ok a' -> fin a' ->
  exists b', rebin_sums is b = Ok b' /\ arel (near (k + block_rounds is (fshape a))) a' b'.
Proof.
  induction is as [|i is IH]; intros k a b a' R O H F.
  - cbn in *. injection H as <-. exists b. split; [reflexivity|]. now rewrite Nat.add_0_r.
  - cbn [f_rebin_sums rebin_sums orders_ok block_rounds] in *. unfold f_sum_axis, asum_axis, andim, rbind in *. rewrite <- (proj1 R).
    destruct (norm_axis _ _) as [x|] eqn:N; [|discriminate]. destruct (O x eq_refl) as [O1 O2]. apply norm_axis_lt in N.
    assert (F1 : fin (f_sum_at (ords i) x a)) by (now apply (sums_fin ords is _ a')).
    assert (R1 : arel (near (k + (nth x (fshape a) 0 - 1))) (f_sum_at (ords i) x a) (sum_at x b)).
    { destruct R as [E R]. split; [cbn; congruence|]. intros idx V. specialize (F1 idx V). cbn [f_sum_at sum_at fshape fget aget] in *. rewrite <- E.
      eapply near_weaken; [|apply near_sum; [apply O1| |exact F1]].
      - apply Nat.add_le_mono_l. apply once_depth, O1.
      - intros j J. apply R. now apply valid_insert. }
    destruct (IH _ _ _ a' R1 O2 H F) as (b' & B1 & B2). exists b'. split; [exact B1|]. cbn [f_sum_at fshape] in B2. now rewrite Nat.add_assoc.
Qed.
Lemma sums_err ords is : forall a b, fshape a = ashape b -> forall e, f_rebin_sums ords is a = Err e -> rebin_sums is b = Err e.
Proof.
  induction is as [|i is IH]; intros a b E e H; cbn in *; [discriminate|]. unfold f_sum_axis, asum_axis, andim, rbind in *. rewrite <- E.
  destruct (norm_axis _ _) as [k|]; [|congruence]. apply (IH (f_sum_at (ords i) k a)); [cbn; congruence|exact H].
Qed.
Lemma rebin_near ords new k a b : arel (near k) a b ->
  (forall sh', rebin_shape new (fshape a) = Ok sh' -> orders_ok ords (seq 0 (length new)) sh') ->
  match f_rebin ords new a with
  | Ok a' => fin a' -> exists b', rebin_data new b = Ok b' /\ arel (near (k + rebin_rounds new (fshape a))) a' b'
  | Err e => rebin_data new b = Err e
  end.
Proof.
  intros R O. unfold f_rebin, rebin_data, rebin_rounds, rbind. rewrite <- (proj1 R). destruct (rebin_shape new (fshape a)) as [sh|]; [|reflexivity].
  specialize (O sh eq_refl). pose proof (reshape_rel _ sh a b R) as H.
  destruct (f_reshape sh a) as [a1|] eqn:Ea, (areshape sh b) as [b1|] eqn:Eb; cbn [rrel] in H; try contradiction; [|congruence].
  assert (Sh : fshape a1 = sh) by (unfold f_reshape in Ea; destruct (_ =? _); [injection Ea as <-; reflexivity|discriminate]).
  rewrite <- Sh in *. destruct (f_rebin_sums _ _ _) as [a'|e] eqn:Es.
  - intro F. now apply (sums_near ords _ k a1 b1 a').
  - now apply (sums_err ords _ a1 b1 (proj1 H)).
Qed.

Lemma arel_weaken k l a b : k <= l -> arel (near k) a b -> arel (near l) a b.
Proof. intros L [E H]. split; [exact E|]. intros idx V. now apply near_weaken with k, H. Qed.
Lemma nums_fin s : numbers s -> fin (fs_data s) /\ is_number (fs_decays s).
Proof. intros [A B]. split; [|exact B]. intros idx V. now apply A, in_shape_valid. Qed.

Lemma near_step o s a d k m : op_nonneg64 o -> sums_ok o (ashape a) -> no_flow o s -> arel (near k) (fs_data s) a -> near m (fs_decays s) d ->
  snd (f_step o s) = snd (e_step o (a, d)) /\
  arel (near (fst (rounds o (ashape a) (k, m)))) (fs_data (fst (f_step o s))) (fst (fst (e_step o (a, d)))) /\
  near (snd (rounds o (ashape a) (k, m))) (fs_decays (fst (f_step o s))) (snd (fst (e_step o (a, d)))).
Proof.
  intros On So [Nu Nf] R D. pose proof (nums_fin _ Nu) as [Fa Fd]. pose proof R as [E H].
  destruct o as [bins w|o|n|sl|sl t1 t2|new ords]; cbn [f_step e_step rounds fst snd] in *.
  - unfold f_add_at, aadd_at in *. rewrite <- E. destruct (norm_indices bins (fshape (fs_data s))) as [idx|e] eqn:N; cbn [rbind fst snd fs_data fs_decays] in *.
    2:{ split; [reflexivity|split; [apply arel_weaken with k; [lia|exact R]|exact D]]. }
    split; [reflexivity|]. split; [|exact D]. apply norm_indices_valid in N. split; [exact E|]. cbn [fshape fget aget aset].
    intros j V. specialize (Fa j V). cbn [fget] in Fa. destruct (idx_eqb j idx).
    + apply near_add; [now apply H| |exact Fa]. apply near_weaken with 0; [lia|now apply near_exact].
    + apply near_weaken with k; [lia|now apply H].
  - rewrite <- E. destruct (shape_eqb _ _) eqn:Sh; cbn [fst snd fs_data fs_decays] in *.
    2:{ split; [reflexivity|split; [apply arel_weaken with k; [lia|exact R]|apply near_weaken with m; [lia|exact D]]]. }
    apply shape_eqb_iff in Sh. split; [reflexivity|]. destruct On as [On Od]. split.
    + split; [exact E|]. cbn [f_plus aplus exact_array fshape fget aget] in *. intros idx V. apply near_add; [now apply H| |now apply Fa].
      apply near_weaken with 0; [lia|]. apply near_exact, On. apply in_shape_valid. now rewrite <- Sh.
    + apply near_add; [exact D| |exact Fd]. apply near_weaken with 0; [lia|now apply near_exact].
  - rewrite (near_zero _ _ _ D) in *. unfold qdiv. destruct (qeq d 0) eqn:Z; cbn [fst snd fs_data fs_decays] in *.
    + split; [reflexivity|]. split; [apply arel_weaken with k; [lia|exact R]|]. apply qeq_iff in Z. subst d. now apply near_0 with m.
    + destruct (near_neq _ _ _ D Z) as [Z1 Z2]. destruct (Nf Z1) as (Nc & Hc & Hp). split; [reflexivity|]. split; [|now apply near_exact].
      split; [exact E|]. cbn [f_times amap fshape fget aget] in *. intros idx V.
      apply (near_mul k (m + 1)); [now apply H| |now apply Fa|apply Hp; now apply in_shape_valid].
      apply (near_div 0 m); [now apply near_exact|exact D|exact Z2|exact Nc|exact Hc].
  - pose proof (slice_rel _ sl _ _ R) as X. destruct (f_slice sl (fs_data s)) as [a'|] eqn:Ea, (aslice sl a) as [b'|] eqn:Eb; cbn [rrel] in X; try contradiction; cbn [fst snd fs_data fs_decays].
    + split; [reflexivity|split; [exact X|exact D]].
    + split; [congruence|split; [exact R|exact D]].
  - pose proof (slice_rel _ sl _ _ R) as X. destruct So as [O1 O2]. destruct Nf as [Ni Nf].
    destruct (f_slice sl (fs_data s)) as [a'|] eqn:Ea, (aslice sl a) as [b'|] eqn:Eb; cbn [rrel] in X; try contradiction; cbn [fst snd fs_data fs_decays] in *.
    + rewrite <- E in O1. pose proof (total_near k t1 _ _ R O1 Ni) as P1. unfold qdiv. rewrite (near_zero _ _ _ P1) in *.
      destruct (qeq (asum a) 0) eqn:Z; cbn [fst snd fs_data fs_decays] in *.
      * split; [reflexivity|split; [exact X|apply near_weaken with m; [lia|exact D]]].
      * destruct (near_neq _ _ _ P1 Z) as [Z1 Z2]. destruct (Nf a' eq_refl Z1) as (Q1 & Q2 & Q3 & Q4).
        split; [reflexivity|split; [exact X|]]. apply near_mul; [exact D| |exact Fd|exact Q4].
        apply near_div; [|exact P1|exact Z2|exact Q2|exact Q3]. apply total_near; [exact X| |exact Q1].
        replace (fshape a') with (map snd (zip_with slice_axis sl (ashape a))); [exact O2|].
        unfold f_slice in Ea. destruct (_ =? _); [|discriminate]. injection Ea as <-. cbn [fshape]. now rewrite E.
    + split; [congruence|split; [exact R|apply near_weaken with m; [lia|exact D]]].
  - rewrite <- E in So. pose proof (rebin_near ords new k _ _ R So) as X. rewrite <- E.
    destruct (f_rebin ords new (fs_data s)) as [a'|e]; cbn [fst snd fs_data fs_decays] in *.
    + destruct (X Fa) as (b' & -> & X2). cbn [fst snd]. split; [reflexivity|split; [exact X2|exact D]].
    + rewrite X. cbn [fst snd]. split; [reflexivity|split; [apply arel_weaken with k; [lia|exact R]|exact D]].
Qed.
Lemma near_run p : forall s a d k m, Forall op_nonneg64 p -> sums_ok_run p (a, d) -> no_flow_run p s -> arel (near k) (fs_data s) a -> near m (fs_decays s) d ->
  snd (f_run p s) = snd (e_run p (a, d)) /\
  arel (near (fst (rounds_run p (a, d) (k, m)))) (fs_data (fst (f_run p s))) (fst (fst (e_run p (a, d)))) /\
  near (snd (rounds_run p (a, d) (k, m))) (fs_decays (fst (f_run p s))) (snd (fst (e_run p (a, d)))).
Proof.
  induction p as [|o p IH]; intros s a d k m On So Nf R D; [cbn; split; [reflexivity|split; [exact R|exact D]]|].
  inversion On as [|? ? O1 O2]; subst. destruct So as [S1 S2]. destruct Nf as [N1 N2].
  destruct (near_step o s a d k m O1 S1 N1 R D) as (A1 & A2 & A3).
  cbn [f_run e_run rounds_run]. rewrite !pair_let. cbn [fst snd].
  destruct (fst (e_step o (a, d))) as [a' d'] eqn:Ee. destruct (rounds o (ashape a) (k, m)) as [k' m'] eqn:Er. cbn [fst snd] in *.
  destruct (IH (fst (f_step o s)) a' d' k' m' O2 S2 N2 A2 A3) as (B1 & B2 & B3).
  split; [congruence|split; [exact B2|exact B3]].
Qed.

(* the size of the error *)
Local Open Scope R_scope.
Lemma g_upper k : INR k * u <= / 2 -> g k <= 1 + 2 * (INR k * u).
Proof.
  intro H. pose proof u_pos as U. unfold g. revert H. induction k as [|k IH]; intro H; [cbn; lra|].
  rewrite S_INR in *. cbn [pow]. assert (0 <= INR k) by apply pos_INR. assert (A : INR k * u <= / 2) by nra. specialize (IH A).
  set (x := INR k * u) in *. assert (Hx : 0 <= x) by (unfold x; nra). replace ((INR k + 1) * u) with (x + u) in * by (unfold x; ring).
  assert (B : (1 + u) * (1 + u) ^ k <= (1 + u) * (1 + 2 * x)) by (apply Rmult_le_compat_l; lra). nra.
Qed.
Lemma near_bound k x q : near k x q -> INR k <= 2 ^ 52 -> Rabs (real x - Rof q) <= Rof q * (INR k * / 2 ^ 52).
Proof.
  rewrite near_nr. intros [_ (P & L & Up)] K.
  assert (E : / 2 ^ 52 = 2 * u) by (unfold unit_roundoff; field).
  assert (K' : INR k * u <= / 2).
  { unfold unit_roundoff. apply (Rmult_le_reg_r (2 ^ 53)); [apply pow_lt; lra|]. rewrite Rmult_assoc, Rinv_l by (apply pow_nonzero; lra). 
    replace (/ 2 * 2 ^ 53) with (2 ^ 52) by field. lra. }
  pose proof (g_upper k K') as G. pose proof (g_pos k) as G0. pose proof (g_ge1 k) as G1. rewrite E.
  assert (I : 1 - / g k <= g k - 1).
  { assert (/ g k * g k = 1) by (apply Rinv_l; lra). assert (0 < / g k) by now apply Rinv_0_lt_compat. nra. }
  unfold Rdiv in L. apply Rabs_le. split; nra.
Qed.

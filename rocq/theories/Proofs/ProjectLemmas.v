(** Summing over axes: project, nd_project, surface (C06-C08). *)
From Coq Require Import Lia.
From Verif Require Import Model.Base Model.PyStr Model.NDArray Model.Param Model.Config Model.Spectra.
From Verif Require Import Spec.AxisSpec Spec.ArraySpec Spec.SpectraSpec.
From Verif Require Import Proofs.QcLemmas Proofs.NDArrayLemmas Proofs.DictLemmas.

(** A mask marks the axes that are kept. *)
Fixpoint select {A} (mask : list bool) (l : list A) : list A :=
  match mask, l with
  | true :: m, x :: l' => x :: select m l'
  | false :: m, _ :: l' => select m l'
  | _, _ => []
  end.
Fixpoint msum (mask : list bool) (sh : list nat) (f : list nat -> Qc) (key : list nat) : Qc :=
  match mask, sh with
  | true :: m, _ :: sh' =>
      match key with
      | k :: key' => msum m sh' (fun idx => f (k :: idx)) key'
      | [] => 0%Qc
      end
  | false :: m, n :: sh' => qsumn n (fun i => msum m sh' (fun idx => f (i :: idx)) key)
  | _, _ => f []
  end.
(** Drop the k-th kept axis. *)
Fixpoint clear (k : nat) (mask : list bool) : list bool :=
  match mask with
  | [] => []
  | true :: m => match k with O => false :: m | S k' => true :: clear k' m end
  | false :: m => false :: clear k m
  end.
Definition kept (mask : list bool) : nat := length (filter (fun b => b) mask).
Fixpoint positions_from (i : nat) (mask : list bool) : list nat :=
  match mask with
  | [] => []
  | true :: m => i :: positions_from (S i) m
  | false :: m => positions_from (S i) m
  end.
Definition positions := positions_from 0.

Lemma msum_ext mask sh f g key :
  length mask = length sh -> length key = kept mask ->
  (forall idx, length idx = length sh -> f idx = g idx) -> msum mask sh f key = msum mask sh g key.
Proof.
  revert sh f g key. induction mask as [|[] m IH]; intros [|n sh] f g key L K H; cbn in *; try lia.
  - apply H. reflexivity.
  - destruct key as [|k key]; [reflexivity|]. apply IH; [lia|cbn in K; unfold kept in *; cbn in K; lia|].
    intros idx E. apply H. cbn. lia.
  - apply qsumn_ext. intros i _. apply IH; [lia|exact K|]. intros idx E. apply H. cbn; lia.
Qed.
Lemma msum_qsumn mask sh n (f : nat -> list nat -> Qc) key :
  length mask = length sh -> length key = kept mask ->
  msum mask sh (fun idx => qsumn n (fun i => f i idx)) key = qsumn n (fun i => msum mask sh (f i) key).
Proof.
  revert sh f key. induction mask as [|[] m IH]; intros [|d sh] f key L K; cbn in *; try lia.
  - reflexivity.
  - destruct key as [|k key]; [discriminate|].
    rewrite (IH sh (fun i idx => f i (k :: idx)) key); [reflexivity|lia|unfold kept in *; cbn in K; lia].
  - rewrite <- qsumn_swap. apply qsumn_ext. intros j _.
    rewrite (IH sh (fun i idx => f i (j :: idx)) key); [reflexivity|lia|exact K].
Qed.

(** Summing the k-th kept axis clears it. *)
Lemma kept_clear k mask : k < kept mask -> kept (clear k mask) = kept mask - 1.
Proof.
  unfold kept. revert k. induction mask as [|[] m IH]; intros k H; cbn in *; [lia| |].
  - destruct k; cbn; [lia|]. rewrite IH by lia. lia.
  - apply IH, H.
Qed.
Lemma clear_length k mask : length (clear k mask) = length mask.
Proof.
  revert k. induction mask as [|[] m IH]; intros k; cbn; [reflexivity| |].
  - destruct k; cbn; [reflexivity|]. rewrite IH. reflexivity.
  - rewrite IH. reflexivity.
Qed.
Lemma select_clear {A} k mask (l : list A) :
  length mask = length l -> remove_at k (select mask l) = select (clear k mask) l.
Proof.
  revert k l. induction mask as [|[] m IH]; intros k [|x l] L; cbn in *; try lia.
  - destruct k; reflexivity.
  - destruct k; cbn; [reflexivity|]. rewrite IH by lia. reflexivity.
  - apply IH. lia.
Qed.
Lemma select_length {A} mask (l : list A) : length mask = length l -> length (select mask l) = kept mask.
Proof.
  unfold kept. revert l. induction mask as [|[] m IH]; intros [|x l] L; cbn in *; try lia.
  - rewrite IH by lia. reflexivity.
  - apply IH. lia.
Qed.
Lemma msum_clear k mask sh f key :
  length mask = length sh -> k < kept mask -> length key = kept mask - 1 ->
  qsumn (nth k (select mask sh) 0) (fun i => msum mask sh f (insert_at k i key)) =
  msum (clear k mask) sh f key.
Proof.
  revert k sh f key. induction mask as [|[] m IH]; intros k [|n sh] f key L H K; cbn in *; try lia.
  - unfold kept in *; cbn in *. destruct k as [|k]; cbn.
    + reflexivity.
    + destruct key as [|j key]; [cbn in K; lia|]. cbn. apply IH; [lia|lia|cbn in K; lia].
  - transitivity (qsumn n (fun i => qsumn (nth k (select m sh) 0)
        (fun j => msum m sh (fun idx => f (i :: idx)) (insert_at k j key)))).
    + rewrite qsumn_swap. reflexivity.
    + apply qsumn_ext. intros i _. apply IH; [lia|exact H|exact K].
Qed.

(** An array that holds the marginal of [base] on the kept axes. *)
Definition holds (base : ndarray) (mask : list bool) (a : ndarray) : Prop :=
  ashape a = select mask (ashape base) /\
  (forall key, length key = kept mask -> aget a key = msum mask (ashape base) (aget base) key).
Lemma holds_all a : holds a (repeat true (andim a)) a.
Proof.
  unfold holds, andim. split.
  - induction (ashape a) as [|n sh IH]; cbn; [reflexivity|]. f_equal. exact IH.
  - assert (G : forall sh (f : list nat -> Qc) key, length key = kept (repeat true (length sh)) ->
               f key = msum (repeat true (length sh)) sh f key).
    { induction sh as [|n sh IH]; intros f key K; unfold kept in *; cbn in *.
      - destruct key; [reflexivity|discriminate].
      - destruct key as [|k key]; [discriminate|]. apply (IH (fun idx => f (k :: idx))). cbn in K; lia. }
    intros key K. apply G, K.
Qed.
Lemma insert_length {A} k (x : A) l : length (insert_at k x l) = S (length l).
Proof. revert l; induction k as [|k IH]; intros [|y l]; cbn; auto. Qed.
Lemma holds_sum base mask a k :
  length mask = andim base -> holds base mask a -> k < kept mask ->
  holds base (clear k mask) (sum_at k a).
Proof.
  unfold andim. intros L [Sh H] Hk. split; cbn.
  - rewrite Sh. apply select_clear, L.
  - intros key K. rewrite kept_clear in K by exact Hk. rewrite <- msum_clear by assumption.
    rewrite Sh. apply qsumn_ext. intros i _. apply H. rewrite insert_length, K. lia.
Qed.
Lemma holds_axis base mask a k :
  length mask = andim base -> holds base mask a -> k < kept mask ->
  exists a', asum_axis (Z.of_nat k) a = Ok a' /\ holds base (clear k mask) a'.
Proof.
  intros L H Hk. exists (sum_at k a). split; [|apply holds_sum; assumption].
  unfold asum_axis, norm_axis, andim. destruct H as [Sh _].
  rewrite Sh, select_length by exact L.
  destruct (Z.ltb_spec (Z.of_nat k) 0); [lia|].
  destruct (Z.leb_spec 0 (Z.of_nat k)); [|lia].
  destruct (Z.ltb_spec (Z.of_nat k) (Z.of_nat (kept mask))); [|lia].
  cbn [andb rbind]. rewrite Nat2Z.id. reflexivity.
Qed.
Lemma holds_axis_err base mask a k :
  length mask = andim base -> holds base mask a -> kept mask <= k ->
  asum_axis (Z.of_nat k) a = Err EAxisError.
Proof.
  intros L H Hk. unfold asum_axis, norm_axis, andim. destruct H as [Sh _].
  rewrite Sh, select_length by exact L.
  destruct (Z.ltb_spec (Z.of_nat k) 0); [lia|].
  destruct (Z.leb_spec 0 (Z.of_nat k)); [|lia].
  destruct (Z.ltb_spec (Z.of_nat k) (Z.of_nat (kept mask))); [lia|]. reflexivity.
Qed.

(** Link with the specification. *)
Lemma sum_where_over sh f P :
  sum_where sh f P = sum_over sh (fun idx => if P idx then f idx else 0%Qc).
Proof.
  unfold sum_where. rewrite sum_over_all. induction (all_idx sh) as [|i l IH]; cbn; [reflexivity|].
  destruct (P i); cbn; unfold qsum in IH; rewrite IH; [reflexivity|ring].
Qed.
Lemma msum_select mask sh f key :
  length mask = length sh -> valid_idx (select mask sh) key ->
  msum mask sh f key = sum_over sh (fun idx => if idx_eqb (select mask idx) key then f idx else 0%Qc).
Proof.
  unfold valid_idx. revert sh f key. induction mask as [|[] m IH]; intros [|n sh] f key L V; cbn in *; try lia.
  - inversion V. reflexivity.
  - inversion V as [|k d key' sh' Hk V']; subst.
    rewrite (@qsumn_single n k); [|exact Hk|].
    + rewrite IH by (try lia; exact V'). apply sum_over_ext. intros idx _.
      rewrite Nat.eqb_refl. reflexivity.
    + intros i _ N. transitivity (sum_over sh (fun _ => 0%Qc)); [|apply sum_over_zero].
      apply sum_over_ext. intros idx _.
      destruct (Nat.eqb_spec i k); [contradiction|]. reflexivity.
  - apply qsumn_ext. intros i _. apply IH; [lia|exact V].
Qed.
Lemma positions_select mask i (pre idx : list nat) :
  length mask = length idx -> length pre = i ->
  map (fun a => nth a (pre ++ idx) 0) (positions_from i mask) = select mask idx.
Proof.
  revert i pre idx. induction mask as [|b m IH]; intros i pre [|x idx] L P; cbn in *; try lia.
  - reflexivity.
  - assert (E : map (fun a => nth a (pre ++ x :: idx) 0) (positions_from (S i) m) = select m idx).
    { rewrite <- (IH (S i) (pre ++ [x]) idx); [|lia|rewrite app_length; cbn; lia].
      apply map_ext. intro a. rewrite <- app_assoc. reflexivity. }
    destruct b; cbn; [|exact E]. f_equal; [|exact E].
    rewrite app_nth2 by lia. replace (i - length pre) with 0 by lia. reflexivity.
Qed.
Lemma valid_length sh idx : valid_idx sh idx -> length idx = length sh.
Proof. unfold valid_idx. induction 1; cbn; auto. Qed.
Lemma msum_marginal mask sh f key :
  length mask = length sh -> valid_idx (select mask sh) key ->
  msum mask sh f key = marginal sh f (positions mask) key.
Proof.
  intros L V. unfold marginal. rewrite sum_where_over, msum_select by assumption.
  apply sum_over_ext. intros idx Vi. apply valid_length in Vi.
  pose proof (positions_select mask 0 [] idx) as E. cbn [app] in E. unfold positions.
  rewrite E by (try reflexivity; lia). clear E.
  destruct (list_eq_dec Nat.eq_dec (select mask idx) key) as [E|N].
  - rewrite (proj2 (idx_eqb_eq _ _) E). reflexivity.
  - rewrite idx_eqb_neq by exact N. reflexivity.
Qed.
Lemma holds_marginal base mask a :
  length mask = andim base -> holds base mask a ->
  ashape a = map (fun x => nth x (ashape base) 0) (positions mask) /\
  (forall key, valid_idx (ashape a) key -> aget a key = marginal (ashape base) (aget base) (positions mask) key).
Proof.
  unfold andim. intros L [Sh H]. split.
  - rewrite Sh. symmetry. apply (positions_select mask 0 []); [exact L|reflexivity].
  - intros key V. rewrite H by (rewrite (valid_length _ _ V), Sh; apply select_length, L).
    rewrite Sh in V. apply msum_marginal; assumption.
Qed.

(** Marginals keep the total. *)
Lemma sum_over_qsumn n t (g : nat -> list nat -> Qc) :
  sum_over t (fun key => qsumn n (fun i => g i key)) = qsumn n (fun i => sum_over t (g i)).
Proof.
  revert g. induction t as [|d t IH]; intro g; cbn; [reflexivity|].
  rewrite qsumn_swap. apply qsumn_ext. intros j _. apply (IH (fun i key => g i (j :: key))).
Qed.
Lemma msum_total mask sh f :
  length mask = length sh -> sum_over (select mask sh) (msum mask sh f) = sum_over sh f.
Proof.
  revert sh f. induction mask as [|[] m IH]; intros [|n sh] f L; cbn in *; try lia.
  - reflexivity.
  - apply qsumn_ext. intros i _. apply IH. lia.
  - rewrite <- (qsumn_ext n (fun i => sum_over (select m sh) (msum m sh (fun idx => f (i :: idx))))).
    2:{ intros i _. apply IH. lia. }
    apply (sum_over_qsumn n (select m sh) (fun i => msum m sh (fun idx => f (i :: idx)))).
Qed.
Lemma holds_total base mask a : length mask = andim base -> holds base mask a -> asum a = asum base.
Proof.
  intros L [Sh H]. unfold asum. rewrite <- (msum_total mask (ashape base) (aget base)) by exact L.
  rewrite Sh. apply sum_over_ext. intros key V. apply H. rewrite (valid_length _ _ V).
  apply select_length, L.
Qed.

(** ** project *)
Lemma kept_app a b : kept (a ++ b) = kept a + kept b.
Proof. unfold kept. rewrite filter_app, app_length. reflexivity. Qed.
Lemma kept_true n : kept (repeat true n) = n.
Proof. unfold kept. induction n; cbn; auto. Qed.
Lemma kept_false n : kept (repeat false n) = 0.
Proof. unfold kept. induction n; cbn; auto. Qed.
Lemma clear_app_skip k n m : clear k (repeat false n ++ m) = repeat false n ++ clear k m.
Proof. induction n as [|n IH]; cbn; [reflexivity|]. rewrite IH. reflexivity. Qed.
Lemma positions_app i a b : positions_from i (a ++ b) = positions_from i a ++ positions_from (i + length a) b.
Proof.
  revert i. induction a as [|[] a IH]; intro i; cbn.
  - rewrite Nat.add_0_r. reflexivity.
  - rewrite IH. rewrite Nat.add_succ_r. reflexivity.
  - rewrite IH. rewrite Nat.add_succ_r. reflexivity.
Qed.
Lemma positions_false i n : positions_from i (repeat false n) = [].
Proof. revert i; induction n as [|n IH]; intro i; cbn; auto. Qed.
Lemma repeat_snoc {A} (x : A) n : repeat x n ++ [x] = repeat x (S n).
Proof. induction n as [|n IH]; cbn; [reflexivity|]. rewrite IH. reflexivity. Qed.

Lemma project_loop_after base axis r j i cnt a :
  axis + 1 + j + r = andim base -> axis <= i -> cnt = r ->
  holds base (repeat false axis ++ true :: repeat false j ++ repeat true r) a ->
  exists a', project_loop axis (seq i cnt) a = Ok a' /\
    holds base (repeat false axis ++ true :: repeat false (andim base - axis - 1)) a'.
Proof.
  revert j i cnt a. induction r as [|r IH]; intros j i cnt a E I -> H; cbn [seq project_loop].
  - exists a. split; [reflexivity|]. cbn in H. rewrite app_nil_r in H.
    replace (andim base - axis - 1) with j by lia. exact H.
  - destruct (Nat.ltb_spec axis (i + 1)); [|lia].
    assert (X : exists a', asum_axis (Z.of_nat 1) a = Ok a' /\ holds base
       (clear 1 (repeat false axis ++ true :: repeat false j ++ repeat true (S r))) a').
    { apply holds_axis; [|exact H|].
      - rewrite app_length. cbn [length]. rewrite app_length, !repeat_length. lia.
      - rewrite kept_app. change (true :: ?l) with ([true] ++ l). rewrite !kept_app, kept_true.
        unfold kept at 2. cbn [filter length]. lia. }
    destruct X as (a1 & E1 & H1).
    change (Z.of_nat 1) with 1%Z in E1. rewrite E1. cbn [rbind].
      rewrite clear_app_skip in H1. cbn [clear] in H1. rewrite clear_app_skip in H1. cbn [clear repeat] in H1.
      apply (IH (S j) (S i) r a1); [lia|lia|reflexivity|].
      replace (repeat false (S j) ++ repeat true r) with (repeat false j ++ false :: repeat true r); [exact H1|].
      rewrite <- repeat_snoc, <- app_assoc. reflexivity.
Qed.
Lemma project_loop_before base axis i a :
  axis < andim base -> i <= axis ->
  holds base (repeat false i ++ repeat true (andim base - i)) a ->
  exists a', project_loop axis (seq i (andim base - 1 - i)) a = Ok a' /\
    holds base (repeat false axis ++ true :: repeat false (andim base - axis - 1)) a'.
Proof.
  intros A. remember (axis - i) as d eqn:D. revert i a D. induction d as [|d IH]; intros i a D I H.
  - assert (i = axis) by lia. subst i.
    apply (project_loop_after base axis (andim base - axis - 1) 0 axis _ a); [lia|lia|lia|].
    cbn. replace (andim base - axis) with (S (andim base - axis - 1)) in H by lia. exact H.
  - replace (andim base - 1 - i) with (S (andim base - 1 - S i)) by lia. cbn [seq project_loop].
    destruct (Nat.ltb_spec axis (i + 1)); [lia|].
    assert (X : exists a', asum_axis (Z.of_nat 0) a = Ok a' /\ holds base
       (clear 0 (repeat false i ++ repeat true (andim base - i))) a').
    { apply holds_axis; [|exact H|].
      - rewrite app_length, !repeat_length. lia.
      - rewrite kept_app, kept_true. lia. }
    destruct X as (a1 & E1 & H1).
    change (Z.of_nat 0) with 0%Z in E1. rewrite E1. cbn [rbind].
      apply IH; [lia|lia|].
      rewrite clear_app_skip in H1. replace (andim base - i) with (S (andim base - S i)) in H1 by lia.
      cbn [clear repeat] in H1. rewrite <- repeat_snoc, <- app_assoc. exact H1.
Qed.

Lemma index_of_ok x l : In x l -> exists k, index_of x l = Ok k /\ k < length l /\ nth_error l k = Some x.
Proof.
  induction l as [|y l IH]; cbn; [intros []|]. destruct (String.eqb_spec y x) as [->|N].
  - intros _. exists 0. repeat split; lia || reflexivity.
  - intros [E|H]; [contradiction|]. destruct (IH H) as (k & E & L & G). exists (S k).
    rewrite E. cbn. repeat split; [lia|exact G].
Qed.
Lemma index_of_err x l : ~ In x l -> index_of x l = Err EIndexError.
Proof.
  induction l as [|y l IH]; cbn; [reflexivity|]. intro H. destruct (String.eqb_spec y x) as [->|N].
  - exfalso; auto.
  - rewrite IH by auto. reflexivity.
Qed.
Lemma index_of_inv x l k : index_of x l = Ok k -> nth_error l k = Some x /\ k < length l.
Proof.
  intro H. destruct (in_dec string_dec x l) as [I|I].
  - destruct (index_of_ok x l I) as (k' & E & L & G). assert (k = k') by congruence. subst. auto.
  - rewrite index_of_err in H by exact I. discriminate.
Qed.
Lemma positions_one n axis :
  axis < n -> positions (repeat false axis ++ true :: repeat false (n - axis - 1)) = [axis].
Proof.
  intro H. unfold positions. rewrite positions_app, positions_false, repeat_length. cbn.
  rewrite positions_false. reflexivity.
Qed.
Lemma cfg_shape_length c : length (cfg_shape c) = length c.
Proof. unfold cfg_shape. apply map_length. Qed.

Lemma project_l s d axis :
  consistent s -> nth_error (map fst (s_cfg s)) axis = Some d -> NoDup (map fst (s_cfg s)) ->
  exists a, project d s = Ok a /\
    ashape a = [nth axis (ashape (s_data s)) 0] /\
    (forall i, i < nth axis (ashape (s_data s)) 0 ->
       aget a [i] = marginal (ashape (s_data s)) (aget (s_data s)) [axis] [i]) /\
    asum a = s_sum s.
Proof.
  intros C N ND. unfold project, get_index, get_pars, dkeys.
  assert (I : In d (map fst (s_cfg s))) by (eapply nth_error_In; eassumption).
  destruct (index_of_ok _ _ I) as (k & E & L & G).
  assert (k = axis).
  { eapply (proj1 (NoDup_nth_error _) ND); [exact L|congruence]. }
  subst k. rewrite E. cbn [rbind]. rewrite map_length in *.
  assert (A : andim (s_data s) = length (s_cfg s)) by (unfold andim; rewrite C; apply cfg_shape_length).
  destruct (project_loop_before (s_data s) axis 0 (s_data s)) as (a & Ea & Ha); [lia|lia| |].
  - cbn. rewrite Nat.sub_0_r. apply holds_all.
  - rewrite A, Nat.sub_0_r in Ea. rewrite Ea. exists a. split; [reflexivity|].
    assert (Lm : length (repeat false axis ++ true :: repeat false (andim (s_data s) - axis - 1)) = andim (s_data s)).
    { rewrite app_length. cbn. rewrite !repeat_length. lia. }
    destruct (holds_marginal _ _ _ Lm Ha) as [Sh H]. rewrite positions_one in Sh, H by lia.
    cbn in Sh. split; [exact Sh|]. split.
    + intros i Hi. apply H. rewrite Sh. constructor; [exact Hi|constructor].
    + apply (holds_total _ _ _ Lm Ha).
Qed.

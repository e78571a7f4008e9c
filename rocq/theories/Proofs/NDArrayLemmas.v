(** Facts about arrays: sums, marginals, reshape, slices. *)
From Coq Require Import Lia Permutation.
From Verif Require Import Model.Base Model.NDArray Spec.ArraySpec Proofs.QcLemmas.

(** ** Finite sums *)
Lemma qsumn_ext n f g : (forall i, i < n -> f i = g i) -> qsumn n f = qsumn n g.
Proof.
  induction n as [|n IH]; cbn; intro H; [reflexivity|].
  rewrite IH by (intros; apply H; lia). rewrite H by lia. reflexivity.
Qed.
Lemma qsumn_zero n : qsumn n (fun _ => 0%Qc) = 0%Qc.
Proof. induction n as [|n IH]; cbn; [reflexivity|]. rewrite IH. ring. Qed.
Lemma qsumn_0 n f : (forall i, i < n -> f i = 0%Qc) -> qsumn n f = 0%Qc.
Proof. intro H. rewrite (@qsumn_ext n f (fun _ => 0%Qc)) by exact H. apply qsumn_zero. Qed.
Lemma qsumn_add n f g : qsumn n (fun i => f i + g i)%Qc = (qsumn n f + qsumn n g)%Qc.
Proof. induction n as [|n IH]; cbn; [ring|]. rewrite IH. ring. Qed.
Lemma qsumn_scale n f c : qsumn n (fun i => f i * c)%Qc = (qsumn n f * c)%Qc.
Proof. induction n as [|n IH]; cbn; [ring|]. rewrite IH. ring. Qed.
Lemma qsumn_swap n m (f : nat -> nat -> Qc) :
  qsumn n (fun i => qsumn m (fun j => f i j)) = qsumn m (fun j => qsumn n (fun i => f i j)).
Proof.
  induction n as [|n IH]; cbn.
  - symmetry. apply qsumn_zero.
  - rewrite IH, qsumn_add. reflexivity.
Qed.
Lemma qsumn_seq n f : qsumn n f = qsum (map f (seq 0 n)).
Proof.
  induction n as [|n IH]; [reflexivity|].
  rewrite seq_S, map_app, qsum_app. cbn -[qsum]. rewrite IH. cbn. ring.
Qed.
Lemma qsumn_nonneg n f : (forall i, (i < n)%nat -> 0 <= f i)%Qc -> (0 <= qsumn n f)%Qc.
Proof.
  induction n as [|n IH]; cbn; intro H; [qlra|].
  assert (0 <= qsumn n f)%Qc by (apply IH; intros; apply H; lia).
  assert (0 <= f n)%Qc by (apply H; lia). qlra.
Qed.
Lemma qsumn_le n f g : (forall i, (i < n)%nat -> f i <= g i)%Qc -> (qsumn n f <= qsumn n g)%Qc.
Proof.
  induction n as [|n IH]; cbn; intro H; [qlra|].
  assert (qsumn n f <= qsumn n g)%Qc by (apply IH; intros; apply H; lia).
  assert (f n <= g n)%Qc by (apply H; lia). qlra.
Qed.
(** A sum with a single non-zero term. *)
Lemma qsumn_single n k f : k < n -> (forall i, i < n -> i <> k -> f i = 0%Qc) -> qsumn n f = f k.
Proof.
  induction n as [|n IH]; intros Hk H; [lia|]. cbn.
  destruct (Nat.eq_dec k n) as [->|N].
  - rewrite (@qsumn_ext n f (fun _ => 0%Qc)) by (intros; apply H; lia).
    rewrite qsumn_zero. ring.
  - rewrite IH by (try lia; intros; apply H; lia). rewrite (H n) by lia. ring.
Qed.
(** Splitting a sum at a point, regrouping in blocks. *)
Lemma qsumn_plus a b f : qsumn (a + b) f = (qsumn a f + qsumn b (fun i => f (a + i)%nat))%Qc.
Proof.
  induction b as [|b IH].
  - rewrite Nat.add_0_r. cbn. ring.
  - rewrite Nat.add_succ_r. cbn. rewrite IH. ring.
Qed.
Lemma qsumn_mul a b f : qsumn (a * b) f = qsumn a (fun i => qsumn b (fun j => f (i * b + j))).
Proof.
  induction a as [|a IH]; [reflexivity|].
  cbn [Nat.mul]. rewrite Nat.add_comm, qsumn_plus, IH. reflexivity.
Qed.

Lemma qsum_map_ext {A} (l : list A) f g :
  (forall x, In x l -> f x = g x) -> qsum (map f l) = qsum (map g l).
Proof.
  induction l as [|a l IH]; cbn; intro H; [reflexivity|].
  rewrite (H a) by auto. unfold qsum in IH. rewrite IH by auto. reflexivity.
Qed.
Lemma qsum_flat_map {A B} (l : list A) (h : A -> list B) f :
  qsum (map f (flat_map h l)) = qsum (map (fun a => qsum (map f (h a))) l).
Proof.
  induction l as [|a l IH]; [reflexivity|].
  cbn [flat_map map]. rewrite map_app, qsum_app, IH. reflexivity.
Qed.
Lemma qsum_perm l l' : Permutation l l' -> qsum l = qsum l'.
Proof.
  induction 1 as [|a l l' _ IH|a b l|l m n _ IH1 _ IH2]; cbn.
  - reflexivity.
  - unfold qsum in IH; rewrite IH; reflexivity.
  - ring.
  - congruence.
Qed.

(** ** Indices *)
Lemma all_idx_valid sh idx : In idx (all_idx sh) <-> valid_idx sh idx.
Proof.
  unfold valid_idx. revert idx; induction sh as [|n sh IH]; intro idx; cbn.
  - split; [intros [<-|[]]; constructor | intro H; inversion H; auto].
  - rewrite in_flat_map. split.
    + intros (i & Hi & H). apply in_map_iff in H as (r & <- & Hr).
      apply in_seq in Hi. constructor; [lia|]. apply IH, Hr.
    + intro H. inversion H as [|i m r s Hi Hr]; subst.
      exists i. split; [apply in_seq; lia|]. apply in_map, IH, Hr.
Qed.
Lemma in_shape_valid idx sh : in_shape idx sh = true <-> valid_idx sh idx.
Proof.
  unfold valid_idx. revert sh; induction idx as [|i idx IH]; intros [|n sh]; cbn [in_shape].
  - split; auto.
  - split; [discriminate | intro H; inversion H].
  - split; [discriminate | intro H; inversion H].
  - rewrite andb_true_iff, Nat.ltb_lt, IH. split.
    + intros [H1 H2]; constructor; auto.
    + intro H; inversion H; auto.
Qed.
Lemma NoDup_app_intro {A} (l m : list A) :
  NoDup l -> NoDup m -> (forall x, In x l -> In x m -> False) -> NoDup (l ++ m).
Proof.
  induction 1 as [|a l Ha Hl IH]; cbn; intros Hm D; [exact Hm|].
  constructor.
  - rewrite in_app_iff. intros [H|H]; [contradiction|]. apply (D a); auto.
  - apply IH; [exact Hm|]. intros x Hx. apply D. auto.
Qed.
Lemma all_idx_NoDup sh : NoDup (all_idx sh).
Proof.
  induction sh as [|n sh IH]; cbn; [repeat constructor; auto|].
  generalize 0 as a. induction n as [|n IHn]; intro a; cbn; [constructor|].
  apply NoDup_app_intro.
  - apply FinFun.Injective_map_NoDup; [intros x y E; congruence | exact IH].
  - apply IHn.
  - intros x H1 H2. apply in_map_iff in H1 as (r & <- & _).
    apply in_flat_map in H2 as (i & Hi & H2). apply in_map_iff in H2 as (r' & E & _).
    apply in_seq in Hi. injection E as E _. lia.
Qed.
Lemma idx_eqb_eq a b : idx_eqb a b = true <-> a = b.
Proof.
  revert b; induction a as [|x a IH]; intros [|y b]; cbn; try (split; congruence).
  rewrite andb_true_iff, Nat.eqb_eq, IH. split; [intros [-> ->]; reflexivity | intro E; injection E; auto].
Qed.
Lemma idx_eqb_refl a : idx_eqb a a = true. Proof. apply idx_eqb_eq; reflexivity. Qed.
Lemma idx_eqb_neq a b : a <> b -> idx_eqb a b = false.
Proof. intro H. destruct (idx_eqb a b) eqn:E; [apply idx_eqb_eq in E; contradiction | reflexivity]. Qed.

(** ** The recursive total is the sum over all bins *)
Lemma sum_over_ext sh f g :
  (forall idx, valid_idx sh idx -> f idx = g idx) -> sum_over sh f = sum_over sh g.
Proof.
  unfold valid_idx. revert f g; induction sh as [|n sh IH]; cbn; intros f g H.
  - apply H. constructor.
  - apply qsumn_ext. intros i Hi. apply IH. intros idx V. apply H. constructor; auto.
Qed.
Lemma sum_over_all sh f : sum_over sh f = qsum (map f (all_idx sh)).
Proof.
  revert f; induction sh as [|n sh IH]; cbn; intro f; [ring|].
  rewrite qsumn_seq, qsum_flat_map. f_equal. apply map_ext. intro i.
  rewrite IH, map_map. reflexivity.
Qed.
Lemma filter_true {A} (l : list A) : filter (fun _ => true) l = l.
Proof. induction l as [|a l IH]; cbn; [reflexivity|]. rewrite IH. reflexivity. Qed.
Lemma asum_total a : asum a = total (ashape a) (aget a).
Proof. unfold asum, total, sum_where. rewrite filter_true. apply sum_over_all. Qed.
Lemma sum_over_add sh f g :
  sum_over sh (fun i => f i + g i)%Qc = (sum_over sh f + sum_over sh g)%Qc.
Proof.
  revert f g; induction sh as [|n sh IH]; cbn; intros f g; [reflexivity|].
  rewrite <- qsumn_add. apply qsumn_ext. intros i _. apply IH.
Qed.
Lemma sum_over_scale sh f c : sum_over sh (fun i => f i * c)%Qc = (sum_over sh f * c)%Qc.
Proof.
  revert f; induction sh as [|n sh IH]; cbn; intros f; [reflexivity|].
  rewrite <- qsumn_scale. apply qsumn_ext. intros i _. apply IH.
Qed.
Lemma sum_over_zero sh : sum_over sh (fun _ => 0%Qc) = 0%Qc.
Proof.
  induction sh as [|n sh IH]; cbn; [reflexivity|].
  rewrite (@qsumn_ext n _ (fun _ => 0%Qc)) by (intros; apply IH). apply qsumn_zero.
Qed.
Lemma sum_over_0 sh f : (forall idx, valid_idx sh idx -> f idx = 0%Qc) -> sum_over sh f = 0%Qc.
Proof. intro H. rewrite (@sum_over_ext sh f (fun _ => 0%Qc)) by exact H. apply sum_over_zero. Qed.
Lemma sum_over_nonneg sh f :
  (forall idx, valid_idx sh idx -> 0 <= f idx)%Qc -> (0 <= sum_over sh f)%Qc.
Proof.
  unfold valid_idx. revert f; induction sh as [|n sh IH]; cbn; intros f H.
  - apply H. constructor.
  - apply qsumn_nonneg. intros i Hi. apply IH. intros idx V. apply H. constructor; auto.
Qed.
Lemma sum_over_le sh f g :
  (forall idx, valid_idx sh idx -> f idx <= g idx)%Qc -> (sum_over sh f <= sum_over sh g)%Qc.
Proof.
  unfold valid_idx. revert f g; induction sh as [|n sh IH]; cbn; intros f g H.
  - apply H. constructor.
  - apply qsumn_le. intros i Hi. apply IH. intros idx V. apply H. constructor; auto.
Qed.
Lemma sum_over_single sh f k :
  valid_idx sh k -> (forall idx, valid_idx sh idx -> idx <> k -> f idx = 0%Qc) ->
  sum_over sh f = f k.
Proof.
  unfold valid_idx. revert f k; induction sh as [|n sh IH]; cbn; intros f k V H.
  - inversion V; reflexivity.
  - inversion V as [|i m r s Hi Hr]; subst.
    rewrite (@qsumn_single n i); [|exact Hi|].
    + apply (IH (fun idx => f (i :: idx)) r Hr). intros idx Vi N. apply H; [constructor; auto|congruence].
    + intros j Hj N. rewrite <- (sum_over_zero sh). apply sum_over_ext.
      intros idx Vi. apply H; [constructor; auto|congruence].
Qed.

(** nd_project and surface (C07, C08): what the loops compute for every set of axes. *)
From Coq Require Import Lia Permutation Sorting.Sorted.
From Verif Require Import Model.Base Model.PyStr Model.NDArray Model.Param Model.Config Model.Spectra.
From Verif Require Import Spec.AxisSpec Spec.ArraySpec Spec.SpectraSpec.
From Verif Require Import Proofs.QcLemmas Proofs.NDArrayLemmas Proofs.DictLemmas Proofs.ProjectLemmas.

Definition notin (D : list nat) (p : nat) : bool := negb (existsb (Nat.eqb p) D).
Definition dmask (D : list nat) (n : nat) : list bool := map (notin D) (seq 0 n).

Lemma existsb_eqb_iff p D : existsb (Nat.eqb p) D = true <-> In p D.
Proof.
  rewrite existsb_exists. split; [intros (x & H & E); apply Nat.eqb_eq in E; subst; exact H|].
  intro H. exists p. split; [exact H|apply Nat.eqb_refl].
Qed.
Lemma notin_iff D p : notin D p = true <-> ~ In p D.
Proof. unfold notin. rewrite negb_true_iff, <- not_true_iff_false, existsb_eqb_iff. reflexivity. Qed.
Lemma notin_false D p : notin D p = false <-> In p D.
Proof. unfold notin. rewrite negb_false_iff. apply existsb_eqb_iff. Qed.

Lemma positions_dmask D i n : positions_from i (map (notin D) (seq i n)) = filter (notin D) (seq i n).
Proof.
  revert i. induction n as [|n IH]; intro i; cbn; [reflexivity|].
  destruct (notin D i); rewrite IH; reflexivity.
Qed.
Lemma clear_at A B : clear (kept A) (A ++ true :: B) = A ++ false :: B.
Proof.
  induction A as [|[] A IH]; cbn; [reflexivity| |].
  - change (kept (true :: A)) with (S (kept A)). cbn. unfold kept in IH. rewrite IH. reflexivity.
  - change (kept (false :: A)) with (kept A). unfold kept in IH. rewrite IH. reflexivity.
Qed.
Lemma filter_split_length {A} (P : A -> bool) l :
  length (filter P l) + length (filter (fun x => negb (P x)) l) = length l.
Proof. induction l as [|a l IH]; cbn; [reflexivity|]. destruct (P a); cbn; lia. Qed.
Lemma kept_dmask D m :
  NoDup D -> (forall d, In d D -> d < m) -> kept (map (notin D) (seq 0 m)) + length D = m.
Proof.
  intros ND B. unfold kept.
  assert (E : length (filter (fun b => b) (map (notin D) (seq 0 m))) = length (filter (notin D) (seq 0 m))).
  { induction (seq 0 m) as [|a l IH]; cbn; [reflexivity|]. destruct (notin D a); cbn; rewrite IH; reflexivity. }
  rewrite E. pose proof (filter_split_length (notin D) (seq 0 m)) as S. rewrite seq_length in S.
  replace (length D) with (length (filter (fun x => negb (notin D x)) (seq 0 m))); [exact S|].
  apply Permutation_length. apply NoDup_Permutation; [apply NoDup_filter, seq_NoDup|exact ND|].
  intro x. rewrite filter_In, in_seq. rewrite negb_true_iff, notin_false.
  split; [tauto|]. intro H. split; [specialize (B x H); lia|exact H].
Qed.
Lemma dmask_length D n : length (dmask D n) = n.
Proof. unfold dmask. rewrite map_length, seq_length. reflexivity. Qed.
Lemma clear_dmask D n i :
  NoDup D -> (forall d, In d D -> d < i + length D) -> i + length D < n ->
  clear i (dmask D n) = dmask ((i + length D) :: D) n.
Proof.
  intros ND B H. unfold dmask.
  replace n with ((i + length D) + S (n - (i + length D) - 1)) by lia.
  rewrite seq_app, !map_app. cbn [seq map Nat.add].
  assert (T : notin D (i + length D) = true) by (apply notin_iff; intro X; apply B in X; lia).
  rewrite T.
  assert (K : kept (map (notin D) (seq 0 (i + length D))) = i)
    by (pose proof (kept_dmask D (i + length D) ND B); lia).
  rewrite <- K at 1. rewrite clear_at.
  assert (F : notin ((i + length D) :: D) (i + length D) = false) by (apply notin_false; left; reflexivity).
  rewrite F. f_equal; [|f_equal].
  - apply map_ext_in. intros p Hp. apply in_seq in Hp. unfold notin. cbn.
    destruct (Nat.eqb_spec p (i + length D)); [lia|reflexivity].
  - apply map_ext_in. intros p Hp. apply in_seq in Hp. unfold notin. cbn.
    destruct (Nat.eqb_spec p (i + length D)); [lia|reflexivity].
Qed.

Lemma loop_general base axes is D a n :
  andim base = n -> holds base (dmask D n) a -> NoDup D -> (forall d, In d D -> d < n) ->
  (forall d i, In d D -> In i is -> d < i + length D) -> StronglySorted lt is ->
  let act := drift (length D) (filter (notin axes) is) in
  (Forall (fun x => x < n) act ->
   exists a', nd_project_loop axes is a = Ok a' /\ holds base (dmask (rev act ++ D) n) a') /\
  (Exists (fun x => n <= x) act -> nd_project_loop axes is a = Err EAxisError).
Proof.
  intros N. revert D a. induction is as [|i is IH]; intros D a H ND Bn B S; cbn [filter drift nd_project_loop].
  - split; [intros _; exists a; split; [reflexivity|exact H] | intro X; inversion X].
  - inversion S as [|? ? S' SF]; subst. rewrite Forall_forall in SF.
    destruct (existsb (Nat.eqb i) axes) eqn:E.
    + assert (F : notin axes i = false) by (unfold notin; rewrite E; reflexivity).
      rewrite F. apply IH; auto. intros d j Hd Hj. apply B; [exact Hd|right; exact Hj].
    + assert (F : notin axes i = true) by (unfold notin; rewrite E; reflexivity).
      rewrite F. cbn [drift].
      pose proof (kept_dmask D (andim base) ND Bn) as Kp. fold (dmask D (andim base)) in Kp.
      assert (Lm : length (dmask D (andim base)) = andim base) by apply dmask_length.
      destruct (Nat.le_gt_cases (andim base) (i + length D)) as [Le|Gt].
      * split.
        -- intro FA. inversion FA; subst. lia.
        -- intros _. rewrite (holds_axis_err base _ a i Lm H); [reflexivity|lia].
      * destruct (holds_axis base _ a i Lm H) as (a1 & E1 & H1); [lia|].
        rewrite E1. cbn [rbind].
        rewrite clear_dmask in H1; [|exact ND| |exact Gt].
        2:{ intros d Hd. apply (B d i Hd). left; reflexivity. }
        destruct (IH ((i + length D) :: D) a1) as [G1 G2]; auto.
        -- constructor; [|exact ND]. intro X. specialize (B _ i X (or_introl eq_refl)). lia.
        -- intros d [<-|Hd]; auto.
        -- intros d j [<-|Hd] Hj; cbn [length].
           ++ specialize (SF j Hj). lia.
           ++ specialize (B d j Hd (or_intror Hj)). lia.
        -- cbn [length] in G1, G2. split.
           ++ intro FA. inversion FA as [|x l Hx FA']; subst.
              destruct (G1 FA') as (a' & Ea & Ha). exists a'. split; [exact Ea|].
              cbn [rev]. rewrite <- app_assoc. exact Ha.
           ++ intro EX. inversion EX as [x l Hx|x l Hx]; subst; [lia|]. apply G2, Hx.
Qed.
Lemma seq_sorted i n : StronglySorted lt (seq i n).
Proof.
  revert i. induction n as [|n IH]; intro i; cbn; constructor; [apply IH|].
  apply Forall_forall. intros x Hx. apply in_seq in Hx. lia.
Qed.
Lemma notin_perm l l' p : (forall x, In x l <-> In x l') -> notin l p = notin l' p.
Proof.
  intro H. destruct (notin l p) eqn:A, (notin l' p) eqn:B; try reflexivity.
  - apply notin_iff in A. apply notin_false in B. exfalso. apply A, H, B.
  - apply notin_false in A. apply notin_iff in B. exfalso. apply B, H, A.
Qed.
Lemma filter_ext_in' {A} (f g : A -> bool) l : (forall x, In x l -> f x = g x) -> filter f l = filter g l.
Proof. apply filter_ext_in. Qed.

Lemma loop_from_start base axes n :
  andim base = n ->
  let act := drift 0 (axes_except n axes) in
  (Forall (fun x => x < n) act ->
   exists a, nd_project_loop axes (seq 0 n) base = Ok a /\
     is_marginal (ashape base) (aget base) (axes_except n act) (ashape a) (aget a) /\
     asum a = asum base) /\
  (Exists (fun x => n <= x) act -> nd_project_loop axes (seq 0 n) base = Err EAxisError).
Proof.
  intros N act.
  assert (H0 : holds base (dmask [] n) base).
  { replace (dmask [] n) with (repeat true (andim base)); [apply holds_all|].
    rewrite N. unfold dmask. generalize 0. clear. induction n as [|n IH]; intro i; cbn; [reflexivity|]. f_equal. apply IH. }
  destruct (loop_general base axes (seq 0 n) [] base n N H0) as [G1 G2].
  - constructor.
  - intros d [].
  - intros d i [].
  - apply seq_sorted.
  - cbn [length] in *. split; [|exact G2]. intro FA. destruct (G1 FA) as (a & Ea & Ha).
    fold act in Ha. exists a. split; [exact Ea|]. rewrite app_nil_r in Ha.
    assert (Lm : length (dmask (rev act) n) = andim base) by (rewrite dmask_length; lia).
    split; [|apply (holds_total _ _ _ Lm Ha)].
    destruct (holds_marginal _ _ _ Lm Ha) as [Sh Hm].
    assert (E : positions (dmask (rev act) n) = axes_except n act).
    { unfold positions, dmask. rewrite positions_dmask. unfold axes_except. apply filter_ext.
      intro p. apply notin_perm. intro x. symmetry. apply in_rev. }
    rewrite E in Sh, Hm. split; assumption.
Qed.

Lemma rmapM_index dims l axes :
  rmapM (fun d => index_of d l) dims = Ok axes ->
  length axes = length dims /\ Forall2 (fun d a => nth_error l a = Some d /\ a < length l) dims axes.
Proof.
  revert axes. induction dims as [|d dims IH]; cbn; intros axes H.
  - injection H as <-. split; constructor.
  - destruct (index_of d l) as [k|] eqn:E; cbn in H; [|discriminate].
    destruct (rmapM _ dims) as [ks|]; cbn in H; [|discriminate]. injection H as <-.
    destruct (IH ks eq_refl) as [L F]. split; [cbn; lia|]. constructor; [apply index_of_inv, E|exact F].
Qed.
Lemma rmapM_index_total dims l :
  (forall d, In d dims -> In d l) -> exists axes, rmapM (fun d => index_of d l) dims = Ok axes.
Proof.
  induction dims as [|d dims IH]; cbn; intro H; [eexists; reflexivity|].
  destruct (index_of_ok d l) as (k & E & _); [apply H; auto|]. destruct IH as (ks & Es); [intros; apply H; auto|].
  rewrite E, Es. eexists; reflexivity.
Qed.

(** The axes of the configuration whose names are requested, in configuration order. *)
Lemma axes_of_dims c dims axes :
  NoDup (map fst c) -> rmapM (get_index c) dims = Ok axes ->
  forall a, a < length c -> (In a axes <-> exists d, nth_error (map fst c) a = Some d /\ In d dims).
Proof.
  intros ND R a La. unfold get_index, get_pars, dkeys in R. destruct (rmapM_index _ _ _ R) as [_ F]. clear R.
  induction F as [|d a' dims axes [Hn Hl] F IH]; cbn.
  - split; [intros []|intros (d & _ & [])].
  - rewrite IH. split.
    + intros [->|(d' & H1 & H2)]; [exists d; auto|exists d'; auto].
    + intros (d' & H1 & [<-|H2]).
      * left. eapply (proj1 (NoDup_nth_error _) ND); [exact Hl|congruence].
      * right. exists d'; auto.
Qed.

Lemma rmapM_ext {A B} (f g : A -> res B) l : (forall x, f x = g x) -> rmapM f l = rmapM g l.
Proof. intro H. induction l as [|a l IH]; cbn; [reflexivity|]. rewrite H, IH. reflexivity. Qed.
Lemma except_axes_of c dims axes :
  NoDup (map fst c) -> rmapM (get_index c) dims = Ok axes ->
  axes_except (length c) axes = axes_except (length c) (axes_of c dims).
Proof.
  intros ND R. unfold axes_except. apply filter_ext_in. intros p Hp. apply in_seq in Hp.
  f_equal. pose proof (axes_of_dims c dims axes ND R p ltac:(lia)) as E.
  destruct (existsb (Nat.eqb p) axes) eqn:A, (existsb (Nat.eqb p) (axes_of c dims)) eqn:B; try reflexivity.
  - apply existsb_eqb_iff in A. apply E in A as (d & H1 & H2). exfalso.
    apply not_true_iff_false in B. apply B. apply existsb_eqb_iff. unfold axes_of. apply filter_In.
    split; [apply in_seq; lia|]. rewrite H1. apply (proj2 (str_in_iff d dims)), H2.
  - apply existsb_eqb_iff in B. unfold axes_of in B. apply filter_In in B as [_ B].
    destruct (nth_error (map fst c) p) as [d|] eqn:N; [|discriminate].
    apply (proj1 (str_in_iff d dims)) in B. exfalso. apply not_true_iff_false in A. apply A.
    apply existsb_eqb_iff. apply E. exists d; auto.
Qed.
Lemma except_except n P :
  axes_except n (axes_except n (filter P (seq 0 n))) = filter P (seq 0 n).
Proof.
  unfold axes_except. apply filter_ext_in. intros p Hp.
  destruct (P p) eqn:E.
  - apply negb_true_iff. apply not_true_iff_false. intro H. apply existsb_eqb_iff in H.
    apply filter_In in H as [_ H]. apply negb_true_iff, not_true_iff_false in H. apply H.
    apply existsb_eqb_iff. apply filter_In. auto.
  - apply negb_false_iff. apply existsb_eqb_iff. apply filter_In. split; [exact Hp|].
    apply negb_true_iff, not_true_iff_false. intro H. apply existsb_eqb_iff in H. apply filter_In in H as [_ H].
    congruence.
Qed.
Lemma axes_of_length c dims :
  NoDup (map fst c) -> NoDup dims -> (forall d, In d dims -> In d (map fst c)) ->
  length (axes_of c dims) = length dims.
Proof.
  intros ND NDd I. destruct (rmapM_index_total dims (map fst c) I) as (axes & R).
  assert (R' : rmapM (get_index c) dims = Ok axes) by exact R.
  destruct (rmapM_index _ _ _ R) as [L F]. rewrite <- L. apply Permutation_length, NoDup_Permutation.
  - apply NoDup_filter, seq_NoDup.
  - clear R R' L I. induction F as [|d a dims axes [Hn Hl] F IH]; [constructor|].
    inversion NDd as [|? ? N1 N2]; subst. constructor; [|apply IH, N2].
    intro H. apply N1. clear - F H Hn. induction F as [|d' a' dims axes [Hn' _] F IH]; [destruct H|].
    destruct H as [->|H]; [left; congruence|right; auto].
  - intro a. unfold axes_of. rewrite filter_In, in_seq. split.
    + intros [H1 H2]. destruct (nth_error (map fst c) a) as [d|] eqn:N; [|discriminate].
      apply (proj1 (str_in_iff d dims)) in H2. apply (axes_of_dims c dims axes ND R' a); [lia|]. exists d; auto.
    + intro H. assert (La : a < length c).
      { clear - F H. induction F as [|d' a' dims axes [_ Hl] F IH]; [destruct H|].
        destruct H as [->|H]; [rewrite map_length in Hl; exact Hl|auto]. }
      apply (axes_of_dims c dims axes ND R' a La) in H as (d & H1 & H2).
      split; [lia|]. rewrite H1. apply (proj2 (str_in_iff d dims)), H2.
Qed.
Lemma except_length n P :
  length (axes_except n (filter P (seq 0 n))) + length (filter P (seq 0 n)) = n.
Proof.
  unfold axes_except. pose proof (filter_split_length P (seq 0 n)) as S. rewrite seq_length in S.
  rewrite Nat.add_comm. rewrite <- S at 3. f_equal. f_equal. apply filter_ext_in.
  intros p Hp. f_equal. destruct (P p) eqn:E.
  - apply existsb_eqb_iff, filter_In; auto.
  - apply not_true_iff_false. intro H. apply existsb_eqb_iff, filter_In in H as [_ H]. congruence.
Qed.

Lemma nd_project_char s dims :
  NoDup (map fst (s_cfg s)) -> consistent s -> NoDup dims -> (forall d, In d dims -> In d (map fst (s_cfg s))) ->
  let n := length (s_cfg s) in
  let summed := drift 0 (axes_except n (axes_of (s_cfg s) dims)) in
  (Forall (fun x => x < n) summed ->
   exists a, nd_project dims s = Ok a /\ marginal_of s (axes_except n summed) a /\ asum a = s_sum s) /\
  (Exists (fun x => n <= x) summed -> nd_project dims s = Err EAxisError).
Proof.
  intros ND C NDd I n summed. unfold nd_project.
  destruct (rmapM_index_total dims (map fst (s_cfg s)) I) as (axes & R).
  assert (R' : rmapM (get_index (s_cfg s)) dims = Ok axes) by exact R.
  rewrite R'. cbn [rbind]. destruct (rmapM_index _ _ _ R) as [L F].
  assert (A : andim (s_data s) = n) by (unfold andim; rewrite C; apply cfg_shape_length).
  unfold get_pars, dkeys. rewrite map_length. fold n.
  pose proof (except_axes_of _ _ _ ND R') as EA. fold n in EA.
  destruct (loop_from_start (s_data s) axes n A) as [G1 G2].
  destruct (Nat.eqb_spec (length axes) n) as [E|E].
  - assert (E0 : axes_except n (axes_of (s_cfg s) dims) = []).
    { apply length_zero_iff_nil. pose proof (except_length n (fun a => match nth_error (map fst (s_cfg s)) a with
         | Some v => existsb (String.eqb v) dims | None => false end)) as X.
      change (filter _ (seq 0 n)) with (axes_of (s_cfg s) dims) in X.
      rewrite (axes_of_length _ _ ND NDd I) in X. lia. }
    unfold summed. rewrite E0. cbn [drift]. split; [|intro X; inversion X].
    intros _. exists (s_data s). split; [reflexivity|]. split; [|reflexivity].
    assert (Hh : holds (s_data s) (dmask [] n) (s_data s)).
    { replace (dmask [] n) with (repeat true (andim (s_data s))); [apply holds_all|].
      rewrite A. unfold dmask. generalize 0. generalize n. clear.
      induction n as [|n IH]; intro i; cbn; [reflexivity|]. f_equal. apply IH. }
    assert (Lm : length (dmask [] n) = andim (s_data s)) by (rewrite dmask_length; lia).
    destruct (holds_marginal _ _ _ Lm Hh) as [Sh Hm].
    assert (EE : positions (dmask [] n) = axes_except n []) by apply positions_dmask.
    rewrite EE in Sh, Hm. split; assumption.
  - rewrite EA in G1, G2. split; [exact G1|exact G2].
Qed.
Lemma nd_project_partial_l s dims :
  NoDup (map fst (s_cfg s)) -> consistent s -> NoDup dims -> (forall d, In d dims -> In d (map fst (s_cfg s))) ->
  length (s_cfg s) <= length dims + 1 ->
  exists a, nd_project dims s = Ok a /\ marginal_of s (axes_of (s_cfg s) dims) a /\ asum a = s_sum s.
Proof.
  intros ND C NDd I L.
  set (n := length (s_cfg s)) in *.
  pose proof (except_length n (fun a => match nth_error (map fst (s_cfg s)) a with
         | Some v => existsb (String.eqb v) dims | None => false end)) as X.
  change (filter _ (seq 0 n)) with (axes_of (s_cfg s) dims) in X.
  rewrite (axes_of_length _ _ ND NDd I) in X.
  destruct (nd_project_char s dims ND C NDd I) as [G _]. fold n in G.
  assert (D : drift 0 (axes_except n (axes_of (s_cfg s) dims)) = axes_except n (axes_of (s_cfg s) dims)).
  { destruct (axes_except n (axes_of (s_cfg s) dims)) as [|d [|d' r]]; cbn in *; [reflexivity| |lia].
    rewrite Nat.add_0_r. reflexivity. }
  rewrite D in G. destruct G as (a & Ea & Ma & Ta).
  - apply Forall_forall. intros x Hx. unfold axes_except in Hx. apply filter_In in Hx as [Hx _].
    apply in_seq in Hx. lia.
  - exists a. split; [exact Ea|]. split; [|exact Ta].
    unfold axes_of in Ma at 1. unfold n in Ma. rewrite except_except in Ma. exact Ma.
Qed.

(** ** surface *)
Lemma surface_loop_nd a1 a2 is a : surface_loop a1 a2 is a = nd_project_loop [a1; a2] is a.
Proof.
  revert a. induction is as [|i is IH]; intro a; cbn; [reflexivity|].
  destruct (Nat.eqb_spec i a1), (Nat.eqb_spec i a2); cbn; rewrite ?IH; try reflexivity.
  destruct (asum_axis _ a); cbn; [apply IH|reflexivity].
Qed.
Lemma surface_char s d1 d2 :
  NoDup (map fst (s_cfg s)) -> consistent s -> d1 <> d2 ->
  In d1 (map fst (s_cfg s)) -> In d2 (map fst (s_cfg s)) ->
  let n := length (s_cfg s) in
  let summed := drift 0 (axes_except n (axes_of (s_cfg s) [d1; d2])) in
  (Forall (fun x => x < n) summed ->
   exists a, surface d1 d2 s = Ok a /\ marginal_of s (axes_except n summed) a /\ asum a = s_sum s) /\
  (Exists (fun x => n <= x) summed -> surface d1 d2 s = Err EAxisError).
Proof.
  intros ND C N I1 I2 n summed. unfold surface, get_index, get_pars, dkeys.
  destruct (index_of_ok _ _ I1) as (a1 & E1 & L1 & _). destruct (index_of_ok _ _ I2) as (a2 & E2 & L2 & _).
  rewrite E1, E2. cbn [rbind]. rewrite map_length in *. fold n. fold n in L1, L2.
  destruct (Nat.ltb_spec n a1); [lia|]. destruct (Nat.ltb_spec n a2); [lia|].
  rewrite surface_loop_nd.
  assert (R : rmapM (get_index (s_cfg s)) [d1; d2] = Ok [a1; a2]).
  { cbn. unfold get_index, get_pars, dkeys. rewrite E1, E2. reflexivity. }
  pose proof (except_axes_of _ _ _ ND R) as EA. fold n in EA.
  assert (A : andim (s_data s) = n) by (unfold andim; rewrite C; apply cfg_shape_length).
  destruct (loop_from_start (s_data s) [a1; a2] n A) as [G1 G2]. rewrite EA in G1, G2.
  split; assumption.
Qed.
Lemma surface_partial_l s d1 d2 :
  NoDup (map fst (s_cfg s)) -> consistent s -> d1 <> d2 ->
  In d1 (map fst (s_cfg s)) -> In d2 (map fst (s_cfg s)) -> length (s_cfg s) <= 3 ->
  exists a, surface d1 d2 s = Ok a /\ marginal_of s (axes_of (s_cfg s) [d1; d2]) a /\ asum a = s_sum s.
Proof.
  intros ND C N I1 I2 L.
  set (n := length (s_cfg s)) in *. set (dims := [d1; d2]).
  assert (NDd : NoDup dims) by (repeat constructor; cbn; intuition congruence).
  assert (I : forall d, In d dims -> In d (map fst (s_cfg s))) by (intros d [<-|[<-|[]]]; assumption).
  pose proof (except_length n (fun a => match nth_error (map fst (s_cfg s)) a with
         | Some v => existsb (String.eqb v) dims | None => false end)) as X.
  change (filter _ (seq 0 n)) with (axes_of (s_cfg s) dims) in X.
  rewrite (axes_of_length _ _ ND NDd I) in X. cbn [dims length] in X.
  destruct (surface_char s d1 d2 ND C N I1 I2) as [G _]. fold n dims in G.
  assert (D : drift 0 (axes_except n (axes_of (s_cfg s) dims)) = axes_except n (axes_of (s_cfg s) dims)).
  { destruct (axes_except n (axes_of (s_cfg s) dims)) as [|d [|d' r]]; cbn in *; [reflexivity| |lia].
    rewrite Nat.add_0_r. reflexivity. }
  rewrite D in G. destruct G as (a & Ea & Ma & Ta).
  - apply Forall_forall. intros x Hx. unfold axes_except in Hx. apply filter_In in Hx as [Hx _].
    apply in_seq in Hx. lia.
  - exists a. split; [exact Ea|]. split; [|exact Ta].
    unfold axes_of in Ma at 1. unfold n in Ma. rewrite except_except in Ma. exact Ma.
Qed.
Lemma project_err_l s d : ~ In d (map fst (s_cfg s)) -> project d s = Err EIndexError.
Proof. intro H. unfold project, get_index, get_pars, dkeys. rewrite index_of_err by exact H. reflexivity. Qed.

(** Witnesses. *)
Local Open Scope string_scope.
Definition w3 : spectra := Spec "x" None
  [("a", SPar (zq 0) (zq 1) 2); ("b", SPar (zq 0) (zq 1) 3); ("c", SPar (zq 0) (zq 1) 4)]
  (azeros [2; 3; 4]) 1 0 0 [].
Definition w4 : spectra := Spec "x" None
  [("a", SPar (zq 0) (zq 1) 2); ("b", SPar (zq 0) (zq 1) 3);
   ("c", SPar (zq 0) (zq 1) 4); ("d", SPar (zq 0) (zq 1) 5)]
  (azeros [2; 3; 4; 5]) 1 0 0 [].
Lemma w3_wf : wf_spectra w3.
Proof.
  split; [split; [repeat constructor; cbn; intuition congruence|repeat constructor; vm_compute; reflexivity]|reflexivity].
Qed.
Lemma w4_wf : wf_spectra w4.
Proof.
  split; [split; [repeat constructor; cbn; intuition congruence|repeat constructor; vm_compute; reflexivity]|reflexivity].
Qed.
Lemma nd_project_refuted_l :
  exists s d1 d2, wf_spectra s /\ In d1 (map fst (s_cfg s)) /\ In d2 (map fst (s_cfg s)) /\
    (exists a, nd_project [d1] s = Ok a /\ ~ marginal_of s (axes_of (s_cfg s) [d1]) a) /\
    nd_project [d2] s = Err EAxisError.
Proof.
  exists w3, "c", "a". split; [exact w3_wf|]. split; [cbn; auto|]. split; [cbn; auto|]. split.
  - destruct (nd_project ["c"] w3) as [a|e] eqn:E; [|vm_compute in E; discriminate].
    exists a. split; [reflexivity|]. intros [Sh _]. vm_compute in E. injection E as <-.
    vm_compute in Sh. discriminate.
  - vm_compute. reflexivity.
Qed.
Lemma surface_refuted_l :
  exists s d1 d2, wf_spectra s /\ d1 <> d2 /\ In d1 (map fst (s_cfg s)) /\ In d2 (map fst (s_cfg s)) /\
    exists a, surface d1 d2 s = Ok a /\ ~ marginal_of s (axes_of (s_cfg s) [d1; d2]) a.
Proof.
  exists w4, "c", "d". split; [exact w4_wf|]. split; [discriminate|]. split; [cbn; auto|]. split; [cbn; auto|].
  destruct (surface "c" "d" w4) as [a|e] eqn:E; [|vm_compute in E; discriminate].
  exists a. split; [reflexivity|]. intros [Sh _]. vm_compute in E. injection E as <-.
  vm_compute in Sh. discriminate.
Qed.

(** Shifts along different axes, and the projection onto a shifted axis. *)
From Coq Require Import Lia ZArith.
From Verif Require Import Model.Base Model.PyStr Model.NDArray Model.Param Model.Config Model.Spectra Model.Smear Model.Shift.
From Verif Require Import Spec.AxisSpec Spec.ArraySpec Spec.SpectraSpec Spec.SmearSpec Spec.ShiftSpec.
From Verif Require Import Proofs.QcLemmas Proofs.NDArrayLemmas Proofs.ProjectLemmas Proofs.SmearLemmas Proofs.ShiftLemmas Proofs.RebinProject.

Lemma at_bin_cons k b i idx : at_bin (S k) b (i :: idx) = i :: at_bin k b idx.
Proof. reflexivity. Qed.
Lemma at_bin_swap k : forall l a b idx, k <> l -> k < length idx -> l < length idx -> at_bin k a (at_bin l b idx) = at_bin l b (at_bin k a idx).
Proof.
  induction k as [|k IH]; intros [|l] a b [|i idx] N L1 L2; cbn [length] in *; try lia; try reflexivity.
  rewrite !at_bin_cons. f_equal. apply IH; lia.
Qed.
Lemma coord_other k : forall l a idx, k <> l -> l < length idx -> coord k (at_bin l a idx) = coord k idx.
Proof.
  unfold coord. induction k as [|k IH]; intros [|l] a [|i idx] N L; cbn [length] in *; try lia; try reflexivity.
  rewrite at_bin_cons. cbn [nth]. apply IH; lia.
Qed.
Lemma moved_swap f k n d l m e idx : k <> l -> k < length idx -> l < length idx ->
  moved (moved f k n d) l m e idx = moved (moved f l m e) k n d idx.
Proof.
  intros N L1 L2. unfold moved. rewrite coord_other by (try lia; assumption). rewrite (coord_other l k) by (try lia; congruence).
  destruct ((0 <=? Z.of_nat (coord l idx) - e) && (Z.of_nat (coord l idx) - e <? m))%Z;
    destruct ((0 <=? Z.of_nat (coord k idx) - d) && (Z.of_nat (coord k idx) - d <? n))%Z; try reflexivity.
  now rewrite at_bin_swap by (try lia; assumption).
Qed.
(** Two shifts one after the other. *)
Lemma shift_both c k l dk dl p q suffix suffix' sa sb a b s :
  wf_spectra s -> s_cfg s = c -> nth_error c k = Some (dk, p) -> nth_error c l = Some (dl, q) -> nonneg s ->
  about_bins p sa a -> about_bins q sb b ->
  forall interp interp', exists s1 s2, shift_axis suffix sa interp dk s = Ok s1 /\ shift_axis suffix' sb interp' dl s1 = Ok s2 /\
    same_but_name s s2 /\ forall idx, valid_idx (ashape (s_data s)) idx ->
      aget (s_data s2) idx = moved (moved (aget (s_data s)) k (sp_bins p) a) l (sp_bins q) b idx.
Proof.
  intros Ws Ec Hk Hl N Aa Ab interp interp'.
  destruct (shift_l c k dk p suffix sa a s Ws Ec Hk N Aa interp) as (s1 & E1 & _ & _ & M1 & C1).
  pose proof M1 as (_ & Mc & _ & _ & _ & _ & Msh). pose proof Ws as [Wc Cs]. unfold consistent in Cs. rewrite Ec in *.
  assert (Sk : nth k (ashape (s_data s)) 0 = Z.to_nat (sp_bins p)) by (rewrite Cs; eapply cfg_nth, Hk).
  assert (Sl : nth l (ashape (s_data s)) 0 = Z.to_nat (sp_bins q)) by (rewrite Cs; eapply cfg_nth, Hl).
  assert (N1 : nonneg s1).
  { intros idx V. rewrite Msh in V. rewrite C1 by exact V. apply moved_nonneg with (sh := ashape (s_data s)); auto. }
  assert (W1 : wf_spectra s1) by (split; [rewrite Mc; exact Wc|unfold consistent; rewrite Msh, Mc; exact Cs]).
  destruct (shift_l c l dl q suffix' sb b s1 W1 Mc Hl N1 Ab interp') as (s2 & E2 & _ & _ & M2 & C2).
  exists s1, s2. split; [exact E1|]. split; [exact E2|]. split. { unfold same_but_name in *. intuition congruence. }
  intros idx V. rewrite C2 by (rewrite Msh; exact V). unfold moved at 1 2. set (o := (Z.of_nat (coord l idx) - b)%Z).
  destruct (Z.leb_spec 0 o); cbn [andb]; [|reflexivity]. destruct (Z.ltb_spec o (sp_bins q)); [|reflexivity].
  apply C1. apply at_bin_valid; [exact V|]. rewrite Sl. lia.
Qed.
Lemma shift_swap_l c k l dk dl p q suffix suffix' sa sb a b s :
  wf_spectra s -> s_cfg s = c -> nth_error c k = Some (dk, p) -> nth_error c l = Some (dl, q) -> k <> l -> nonneg s ->
  about_bins p sa a -> about_bins q sb b ->
  forall interp interp', exists s1 s2 t1 t2,
    shift_axis suffix sa interp dk s = Ok s1 /\ shift_axis suffix' sb interp' dl s1 = Ok s2 /\
    shift_axis suffix' sb interp' dl s = Ok t1 /\ shift_axis suffix sa interp dk t1 = Ok t2 /\
    same_but_name s2 t2 /\ forall idx, valid_idx (ashape (s_data s)) idx -> aget (s_data s2) idx = aget (s_data t2) idx.
Proof.
  intros Ws Ec Hk Hl Ne N Aa Ab interp interp'.
  destruct (shift_both c k l dk dl p q suffix suffix' sa sb a b s Ws Ec Hk Hl N Aa Ab interp interp') as (s1 & s2 & A1 & A2 & M & C).
  destruct (shift_both c l k dl dk q p suffix' suffix sb sa b a s Ws Ec Hl Hk N Ab Aa interp' interp) as (t1 & t2 & B1 & B2 & M' & C').
  exists s1, s2, t1, t2. do 4 (split; [assumption|]). split. { unfold same_but_name in *. intuition congruence. }
  intros idx V. rewrite C, C' by exact V. pose proof Ws as [_ Cs]. unfold consistent in Cs.
  pose proof (valid_length _ _ V) as L. rewrite Cs, cfg_shape_length, Ec in L.
  apply moved_swap; [exact Ne| |]; rewrite L; apply nth_error_Some; congruence.
Qed.
Definition same_at (k j : nat) (idx : list nat) : bool := if list_eq_dec Nat.eq_dec [nth k idx 0] [j] then true else false.
Lemma same_at_iff k j idx : same_at k j idx = true <-> coord k idx = j.
Proof. unfold same_at, coord. destruct (list_eq_dec Nat.eq_dec [nth k idx 0] [j]) as [E|E]; split; intro H; try congruence. Qed.
Lemma over_moved sh k f i j : k < length sh -> i < nth k sh 0 -> j < nth k sh 0 ->
  sum_over sh (fun idx => if same_at k j idx then f (at_bin k i idx) else 0%Qc) = sum_over sh (fun idx => if same_at k i idx then f idx else 0%Qc).
Proof.
  intros Lk Li Lj.
  transitivity (sum_over sh (fun idx => sum_over sh (fun key => if same_at k j idx then if same_key (at_bin k i idx) key then f key else 0%Qc else 0%Qc))).
  - apply sum_over_ext. intros idx V. rewrite (sum_over_single sh _ (at_bin k i idx)).
    + destruct (same_at k j idx); [|reflexivity]. unfold same_key. destruct (list_eq_dec Nat.eq_dec (at_bin k i idx) (at_bin k i idx)); congruence.
    + now apply at_bin_valid.
    + intros key _ N. destruct (same_at k j idx); [|reflexivity]. unfold same_key. destruct (list_eq_dec Nat.eq_dec (at_bin k i idx) key); congruence.
  - rewrite sum_over_swap. apply sum_over_ext. intros key V. pose proof (valid_length _ _ V) as L.
    assert (Lkey : k < length key) by lia.
    destruct (same_at k i key) eqn:E.
    + apply same_at_iff in E. rewrite (sum_over_single sh _ (at_bin k j key)).
      * assert (A : same_at k j (at_bin k j key) = true) by (apply same_at_iff, coord_at_bin, Lkey). rewrite A.
        unfold same_key. rewrite at_bin_twice by exact Lkey. rewrite <- E, at_bin_self by exact Lkey. destruct (list_eq_dec Nat.eq_dec key key); congruence.
      * now apply at_bin_valid.
      * intros idx Vi N. destruct (same_at k j idx) eqn:Ej; [|reflexivity]. apply same_at_iff in Ej. unfold same_key.
        destruct (list_eq_dec Nat.eq_dec (at_bin k i idx) key) as [<-|]; [|reflexivity]. exfalso. apply N.
        pose proof (valid_length _ _ Vi) as L2. rewrite at_bin_twice by lia. rewrite <- Ej. symmetry. apply at_bin_self. lia.
    + apply sum_over_0. intros idx Vi. destruct (same_at k j idx); [|reflexivity]. unfold same_key.
      destruct (list_eq_dec Nat.eq_dec (at_bin k i idx) key) as [<-|]; [|reflexivity]. exfalso.
      pose proof (valid_length _ _ Vi) as L2. assert (A : same_at k i (at_bin k i idx) = true) by (apply same_at_iff, coord_at_bin; lia). congruence.
Qed.
Lemma shift_project_l c k dim p suffix shift d s : wf_spectra s -> s_cfg s = c -> nth_error c k = Some (dim, p) -> nonneg s -> about_bins p shift d ->
  forall interp, exists s' a b, shift_axis suffix shift interp dim s = Ok s' /\ project dim s = Ok a /\ project dim s' = Ok b /\ ashape b = ashape a /\
    forall j, valid_idx (ashape a) [j] -> aget b [j] = moved (aget a) 0 (sp_bins p) d [j].
Proof.
  intros Ws Ec Hk N A interp. destruct (shift_l c k dim p suffix shift d s Ws Ec Hk N A interp) as (s' & E & _ & _ & M & C).
  pose proof M as (_ & Mc & _ & _ & _ & _ & Msh). pose proof Ws as [[NDp Wa] Cs]. pose proof Cs as Cs0. unfold consistent in Cs.
  assert (Sk : nth k (ashape (s_data s)) 0 = Z.to_nat (sp_bins p)) by (rewrite Cs, Ec; eapply cfg_nth, Hk).
  assert (Nk : nth_error (map fst (s_cfg s)) k = Some dim) by (rewrite Ec; rewrite nth_error_map, Hk; reflexivity).
  assert (Lk : k < length (ashape (s_data s))) by (rewrite Cs, cfg_shape_length, Ec; apply nth_error_Some; congruence).
  destruct (project_l s dim k Cs0 Nk NDp) as (a & Pa & Sa & Ga & _).
  assert (Cs' : consistent s') by (unfold consistent; rewrite Msh, Mc; exact Cs).
  destruct (project_l s' dim k Cs') as (b & Pb & Sb & Gb & _); [rewrite Mc; exact Nk|rewrite Mc; exact NDp|].
  exists s', a, b. do 3 (split; [assumption|]). split; [now rewrite Sa, Sb, Msh|]. intros j V. rewrite Sa in V. inversion V as [|? ? ? ? J _]; subst.
  rewrite Gb by (rewrite Msh; exact J). unfold marginal. rewrite Msh, sum_where_over. set (sh := ashape (s_data s)) in *. set (f := aget (s_data s)) in *.
  transitivity (sum_over sh (fun idx => if same_at k j idx then moved f k (sp_bins p) d idx else 0%Qc)).
  { apply sum_over_ext. intros idx Vi. rewrite C by exact Vi. reflexivity. }
  unfold moved at 2. change (coord 0 [j]) with j. set (o := (Z.of_nat j - d)%Z).
  destruct ((0 <=? o) && (o <? sp_bins p))%Z eqn:B.
  - apply andb_prop in B as [B1 B2]. apply Z.leb_le in B1. apply Z.ltb_lt in B2.
    change (at_bin 0 (Z.to_nat o) [j]) with [Z.to_nat o]. rewrite Ga by (fold sh; rewrite Sk; lia). unfold marginal. rewrite sum_where_over.
    transitivity (sum_over sh (fun idx => if same_at k (Z.to_nat o) idx then f idx else 0%Qc)); [|reflexivity].
    rewrite <- (over_moved sh k f (Z.to_nat o) j Lk) by (try exact J; rewrite Sk; lia).
    apply sum_over_ext. intros idx Vi. destruct (same_at k j idx) eqn:S; [|reflexivity]. apply same_at_iff in S.
    unfold moved. rewrite S. fold o. rewrite (proj2 (Z.leb_le _ _) B1), (proj2 (Z.ltb_lt _ _) B2). reflexivity.
  - apply sum_over_0. intros idx Vi. destruct (same_at k j idx) eqn:S; [|reflexivity]. apply same_at_iff in S. unfold moved. rewrite S. fold o. now rewrite B.
Qed.

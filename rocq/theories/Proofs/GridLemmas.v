(** Lemmas for Model/FitGrid.v. *)
From Coq Require Import Reals Lra Lia Sorting.
From Verif Require Import Model.Base Model.FitGrid.
Local Open Scope R_scope.

Lemma nth_map_seq {A} (f : nat -> A) n k d : (k < n)%nat -> nth k (map f (seq 0 n)) d = f k.
Proof.
  intro H. rewrite (nth_indep _ d (f 0%nat)) by (rewrite map_length, seq_length; exact H).
  rewrite map_nth, seq_nth by exact H. reflexivity.
Qed.
Lemma rev_map_seq {A} (f : nat -> A) n : rev (map f (seq 0 n)) = map (fun k => f (n - 1 - k)%nat) (seq 0 n).
Proof.
  destruct n as [|m]; [reflexivity|].
  apply nth_ext with (d := f 0%nat) (d' := f 0%nat); rewrite rev_length, !map_length, seq_length; [reflexivity|].
  intros k H. rewrite rev_nth by (rewrite map_length, seq_length; exact H).
  rewrite map_length, seq_length, !nth_map_seq by lia. f_equal. lia.
Qed.
Lemma SS_map_seq (f : nat -> R) s n :
  (forall i j, (s <= i)%nat -> (i < j)%nat -> (j < s + n)%nat -> f i < f j) -> StronglySorted Rlt (map f (seq s n)).
Proof.
  revert s. induction n as [|n IH]; intros s H; cbn; constructor.
  - apply IH. intros. apply H; lia.
  - apply Forall_forall. intros x I. apply in_map_iff in I as (j & <- & J). apply in_seq in J. apply H; lia.
Qed.
Lemma SS_app l m : StronglySorted Rlt l -> StronglySorted Rlt m -> (forall x y, In x l -> In y m -> x < y) ->
  StronglySorted Rlt (l ++ m).
Proof.
  induction 1 as [|x l Sl IH F]; intros Sm H; cbn; [exact Sm|]. constructor.
  - apply IH; [exact Sm|]. intros; apply H; [right|]; assumption.
  - apply Forall_app. split; [exact F|]. apply Forall_forall. intros y I. apply H; [left; reflexivity|exact I].
Qed.
Lemma rlin_ok a b n : (0 <= n)%Z ->
  rlinspace a b n = Ok (map (fun k => a + INR k * ((b - a) / IZR (n - 1))) (seq 0 (Z.to_nat n))).
Proof. intro H. unfold rlinspace. destruct (Z.ltb_spec n 0); [lia|reflexivity]. Qed.
Lemma INR_Z n : (0 <= n)%Z -> INR (Z.to_nat n) = IZR n.
Proof. intro H. rewrite INR_IZR_INZ, Z2Nat.id by exact H. reflexivity. Qed.
Lemma step_last a b n : (2 <= n)%Z -> a + INR (Z.to_nat n - 1) * ((b - a) / IZR (n - 1)) = b.
Proof.
  intro H. replace (Z.to_nat n - 1)%nat with (Z.to_nat (n - 1)) by lia. rewrite INR_Z by lia.
  field. apply not_0_IZR. lia.
Qed.
Lemma step_pos a b n : (2 <= n)%Z -> a < b -> 0 < (b - a) / IZR (n - 1).
Proof. intros H L. apply Rdiv_lt_0_compat; [lra|]. apply IZR_lt. lia. Qed.
Lemma step_mono c i j : 0 < c -> (i < j)%nat -> INR i * c < INR j * c.
Proof. intros H L. apply Rmult_lt_compat_r; [exact H|]. apply lt_INR, L. Qed.
Lemma last_nth' {A} (l : list A) d : last l d = nth (length l - 1) l d.
Proof.
  induction l as [|x l IH]; [reflexivity|]. destruct l as [|y l]; [reflexivity|].
  change (last (x :: y :: l) d) with (last (y :: l) d). rewrite IH. cbn. rewrite Nat.sub_0_r. reflexivity.
Qed.

Lemma linear_l g : gr_logscale g = false -> gr_logdev g = false -> gr_low g < gr_high g -> (2 <= gr_bins g)%Z ->
  exists l, grid_values g = Ok l /\ length l = Z.to_nat (gr_bins g) /\ StronglySorted Rlt l /\
    nth 0 l 0 = gr_low g /\ last l 0 = gr_high g /\
    (forall k, (k < length l)%nat ->
       nth k l 0 = gr_low g + INR k * ((gr_high g - gr_low g) / (IZR (gr_bins g) - 1))).
Proof.
  intros L1 L2 H B. unfold grid_values. rewrite L1, L2, rlin_ok by lia. eexists. split; [reflexivity|].
  rewrite map_length, seq_length. split; [reflexivity|].
  pose proof (step_pos _ _ _ B H) as P. split; [|split; [|split]].
  - apply SS_map_seq. intros i j _ J _. pose proof (step_mono _ _ _ P J). lra.
  - rewrite nth_map_seq by lia. cbn. lra.
  - rewrite last_nth', map_length, seq_length, nth_map_seq by lia. apply step_last, B.
  - intros k K. rewrite nth_map_seq by exact K. rewrite minus_IZR. reflexivity.
Qed.
Lemma linear_one_l g : gr_logscale g = false -> gr_logdev g = false -> gr_bins g = 1%Z ->
  grid_values g = Ok [gr_low g].
Proof. intros L1 L2 B. unfold grid_values. rewrite L1, L2, B, rlin_ok by lia.
  change (seq 0 (Z.to_nat 1)) with [0%nat]. cbn [map]. change (INR 0) with 0. rewrite Rmult_0_l, Rplus_0_r. reflexivity. Qed.

Lemma log_l g : gr_logscale g = true -> 0 < gr_low g < gr_high g -> (2 <= gr_bins g)%Z ->
  exists l, grid_values g = Ok l /\ length l = Z.to_nat (gr_bins g) /\ StronglySorted Rlt l /\
    nth 0 l 0 = gr_low g /\ last l 0 = gr_high g /\
    (forall k, (k < length l)%nat ->
       ln (nth k l 0) = ln (gr_low g) + INR k * ((ln (gr_high g) - ln (gr_low g)) / (IZR (gr_bins g) - 1))).
Proof.
  intros L1 [H0 H] B. unfold grid_values, log_values. rewrite L1.
  destruct (Rle_dec (gr_high g) 0); [lra|]. destruct (Rle_dec (gr_low g) 0); [lra|].
  rewrite rlin_ok by lia. eexists. split; [reflexivity|]. rewrite map_map, map_length, seq_length. split; [reflexivity|].
  pose proof (step_pos _ _ _ B (ln_increasing _ _ H0 H)) as P. split; [|split; [|split]].
  - apply SS_map_seq. intros i j _ J _. apply exp_increasing. pose proof (step_mono _ _ _ P J). lra.
  - rewrite nth_map_seq by lia. change (INR 0) with 0. rewrite Rmult_0_l, Rplus_0_r. apply exp_ln, H0.
  - rewrite last_nth', map_length, seq_length, nth_map_seq by lia. rewrite step_last by exact B. apply exp_ln. lra.
  - intros k K. rewrite nth_map_seq by exact K. rewrite ln_exp, minus_IZR. reflexivity.
Qed.
(** Non-positive low: the grid starts at 1/high instead. *)
Lemma log_neg_l g : gr_logscale g = true -> gr_low g <= 0 -> 1 < gr_high g -> (2 <= gr_bins g)%Z ->
  exists l, grid_values g = Ok l /\ nth 0 l 0 = / gr_high g /\ last l 0 = gr_high g /\ length l = Z.to_nat (gr_bins g).
Proof.
  intros L1 H0 H B. unfold grid_values, log_values. rewrite L1.
  destruct (Rle_dec (gr_high g) 0); [lra|]. destruct (Rle_dec (gr_low g) 0); [|lra].
  rewrite rlin_ok by lia. eexists. split; [reflexivity|]. rewrite map_map, map_length, seq_length. split; [|split; [|reflexivity]].
  - rewrite nth_map_seq by lia. change (INR 0) with 0. rewrite Rmult_0_l, Rplus_0_r, exp_Ropp, exp_ln by lra. reflexivity.
  - rewrite last_nth', map_length, seq_length, nth_map_seq by lia. rewrite step_last by exact B. apply exp_ln. lra.
Qed.

(** *** rint *)
Lemma rint_near x : IZR (rint x) - 1 / 2 <= x <= IZR (rint x) + 1 / 2.
Proof.
  unfold rint. pose proof (base_Int_part x) as [L U].
  destruct (Rlt_dec _ _); [lra|]. destruct (Rlt_dec _ _); [rewrite plus_IZR; lra|].
  destruct (Z.even _); [lra|rewrite plus_IZR; lra].
Qed.
Lemma rint_nonneg x : 0 <= x -> (0 <= rint x)%Z.
Proof. intro H. pose proof (rint_near x). assert (-1 < IZR (rint x)) by lra. apply lt_IZR in H1. lia. Qed.
Lemma rint_sum x y n : x + y = IZR n -> (forall k : Z, x <> IZR k + 1 / 2) -> (rint x + rint y = n)%Z.
Proof.
  intros E H. pose proof (rint_near x) as [A B]. pose proof (rint_near y) as [C D].
  assert (X1 : x < IZR (rint x) + 1 / 2) by (destruct B as [B|B]; [exact B|exfalso; eapply H, B]).
  assert (X2 : IZR (rint x) - 1 / 2 < x).
  { destruct A as [A|A]; [exact A|exfalso; apply (H (rint x - 1)%Z)]. rewrite minus_IZR. lra. }
  assert (L : IZR (rint x + rint y - n) < 1) by (rewrite minus_IZR, plus_IZR; lra).
  assert (U : -1 < IZR (rint x + rint y - n)) by (rewrite minus_IZR, plus_IZR; lra).
  apply lt_IZR in L. apply lt_IZR in U. lia.
Qed.

(** *** logscale_deviation *)
Definition dev (D : R) (n : Z) (k : nat) := exp (INR k * (ln (D + 1) / IZR (n - 1))) - 1.
(** deviations: 0 at 0, D at n-1, strictly increasing between *)
Lemma dev_0 D n : dev D n 0 = 0.
Proof. unfold dev. change (INR 0) with 0. rewrite Rmult_0_l, exp_0. ring. Qed.
Lemma dev_last D n : 0 <= D -> (2 <= n)%Z -> dev D n (Z.to_nat n - 1) = D.
Proof.
  intros H N. unfold dev. pose proof (step_last 0 (ln (D + 1)) n N) as E. rewrite Rplus_0_l, Rminus_0_r in E.
  rewrite E, exp_ln by lra. ring.
Qed.
Lemma dev_lt D n i j : 0 < D -> (2 <= n)%Z -> (i < j)%nat -> dev D n i < dev D n j.
Proof.
  intros H N L. unfold dev. assert (P : 0 < ln (D + 1) / IZR (n - 1)).
  { apply Rdiv_lt_0_compat; [rewrite <- ln_1; apply ln_increasing; lra|apply IZR_lt; lia]. }
  pose proof (exp_increasing _ _ (step_mono _ _ _ P L)). lra.
Qed.
Lemma dev_le D n k : 0 < D -> (k < Z.to_nat n)%nat -> 0 <= dev D n k <= D.
Proof.
  intros H K. destruct (Z_le_gt_dec 2 n) as [N|N].
  - split.
    + destruct k; [rewrite dev_0; lra|]. rewrite <- (dev_0 D n). left. apply dev_lt; [exact H|exact N|lia].
    + destruct (Nat.eq_dec k (Z.to_nat n - 1)) as [->|]; [rewrite dev_last by (lra || exact N); lra|].
      rewrite <- (dev_last D n) at 2 by (lra || exact N). left. apply dev_lt; [exact H|exact N|lia].
  - assert (k = 0%nat) as -> by lia. rewrite dev_0. lra.
Qed.
Section Dev.
Variables (low high prior : R) (bins : Z).
Hypotheses (Hl : low <= prior) (Hh : prior <= high) (Hlt : low < high) (Hb : (0 <= bins)%Z).
Let share_low := (prior - low) / (high - low) * (IZR bins + 1).
Let share_high := (high - prior) / (high - low) * (IZR bins + 1).
Let bl := rint share_low.
Let bh := rint share_high.
Lemma Hb0 : 0 <= IZR bins. Proof. apply (IZR_le 0), Hb. Qed.
Lemma share_low_nonneg : 0 <= share_low.
Proof.
  pose proof Hb0. unfold share_low, Rdiv. apply Rmult_le_pos; [apply Rmult_le_pos; [lra|]|lra].
  left. apply Rinv_0_lt_compat. lra.
Qed.
Lemma share_high_nonneg : 0 <= share_high.
Proof.
  pose proof Hb0. unfold share_high, Rdiv. apply Rmult_le_pos; [apply Rmult_le_pos; [lra|]|lra].
  left. apply Rinv_0_lt_compat. lra.
Qed.
Lemma bl_nonneg : (0 <= bl)%Z. Proof. apply rint_nonneg, share_low_nonneg. Qed.
Lemma bh_nonneg : (0 <= bh)%Z. Proof. apply rint_nonneg, share_high_nonneg. Qed.
Lemma dev_eq : logdev_values (Grid low high prior bins false true) =
  Ok (map (fun k => prior - dev (prior - low) bl (Z.to_nat bl - 1 - k)) (seq 0 (Z.to_nat bl)) ++
      map (fun k => prior + dev (high - prior) bh k) (seq 1 (Z.to_nat bh - 1))).
Proof.
  unfold logdev_values. cbn [gr_low gr_high gr_prior gr_bins].
  rewrite (Rabs_minus_sym low), (Rabs_right (prior - low)), (Rabs_right (high - prior)) by lra.
  replace (prior - low + (high - prior)) with (high - low) by ring.
  destruct (Req_EM_T (high - low) 0); [lra|]. fold share_low share_high. fold bl bh.
  rewrite (rlin_ok _ _ bl bl_nonneg), (rlin_ok _ _ bh bh_nonneg). cbn [rbind]. do 2 f_equal.
  - rewrite rev_map_seq, map_map. apply map_ext. intro k. unfold dev. rewrite Rplus_0_l, Rminus_0_r. ring.
  - destruct (Z.to_nat bh) as [|m]; [reflexivity|]. cbn [seq map tl]. rewrite Nat.sub_succ, Nat.sub_0_r.
    rewrite map_map. apply map_ext. intro k. unfold dev. rewrite Rplus_0_l, Rminus_0_r. ring.
Qed.
(** a share of at least 2 bins means a positive deviation *)
Lemma low_pos : (1 <= bl)%Z -> 0 < prior - low.
Proof.
  intro H. destruct (Req_dec prior low) as [E|]; [exfalso|lra].
  pose proof (rint_near share_low) as [A _]. assert (S0 : share_low = 0).
  { unfold share_low, Rdiv. rewrite E. ring. }
  fold bl in A. assert (1 <= IZR bl) by (apply (IZR_le 1), H). lra.
Qed.
Lemma high_pos : (1 <= bh)%Z -> 0 < high - prior.
Proof.
  intro H. destruct (Req_dec prior high) as [E|]; [exfalso|lra].
  pose proof (rint_near share_high) as [A _]. assert (S0 : share_high = 0).
  { unfold share_high, Rdiv. rewrite E. ring. }
  fold bh in A. assert (1 <= IZR bh) by (apply (IZR_le 1), H). lra.
Qed.
Lemma dev_l :
  exists l, grid_values (Grid low high prior bins false true) = Ok l /\
    length l = (Z.to_nat bl + (Z.to_nat bh - 1))%nat /\
    StronglySorted Rlt l /\ Forall (fun v => low <= v <= high) l /\
    ((1 <= bl)%Z -> In prior l) /\
    ((2 <= bl)%Z -> nth 0 l 0 = low) /\ ((2 <= bh)%Z -> last l 0 = high) /\
    (forall k, (k < Z.to_nat bl)%nat ->
       nth (Z.to_nat bl - 1 - k) l 0 = prior - (exp (INR k * (ln (prior - low + 1) / IZR (bl - 1))) - 1)) /\
    (forall k, (0 < k < Z.to_nat bh)%nat ->
       nth (Z.to_nat bl + (k - 1)) l 0 = prior + (exp (INR k * (ln (high - prior + 1) / IZR (bh - 1))) - 1)).
Proof.
  eexists. unfold grid_values. cbn [gr_logscale gr_logdev]. rewrite dev_eq. split; [reflexivity|].
  assert (L1 : length (map (fun k => prior - dev (prior - low) bl (Z.to_nat bl - 1 - k)) (seq 0 (Z.to_nat bl))) = Z.to_nat bl)
    by (rewrite map_length, seq_length; reflexivity).
  split; [rewrite app_length, L1, map_length, seq_length; reflexivity|].
  assert (IL : forall x, In x (map (fun k => prior - dev (prior - low) bl (Z.to_nat bl - 1 - k)) (seq 0 (Z.to_nat bl))) -> low <= x <= prior).
  { intros x I. apply in_map_iff in I as (k & <- & K). apply in_seq in K.
    assert (P : 0 < prior - low) by (apply low_pos; lia).
    pose proof (dev_le (prior - low) bl (Z.to_nat bl - 1 - k) P ltac:(lia)). lra. }
  assert (IH : forall x, In x (map (fun k => prior + dev (high - prior) bh k) (seq 1 (Z.to_nat bh - 1))) -> prior < x <= high).
  { intros x I. apply in_map_iff in I as (k & <- & K). apply in_seq in K.
    assert (P : 0 < high - prior) by (apply high_pos; lia).
    pose proof (dev_le (high - prior) bh k P ltac:(lia)).
    pose proof (dev_lt (high - prior) bh 0 k P ltac:(lia) ltac:(lia)) as Q. rewrite dev_0 in Q. lra. }
  split; [|split; [|split; [|split; [|split; [|split]]]]].
  - apply SS_app.
    + apply SS_map_seq. intros i j _ J K. assert (P : 0 < prior - low) by (apply low_pos; lia).
      pose proof (dev_lt (prior - low) bl (Z.to_nat bl - 1 - j) (Z.to_nat bl - 1 - i) P ltac:(lia) ltac:(lia)). lra.
    + apply SS_map_seq. intros i j I J K. assert (P : 0 < high - prior) by (apply high_pos; lia).
      pose proof (dev_lt (high - prior) bh i j P ltac:(lia) J). lra.
    + intros x y X Y. apply IL in X. apply IH in Y. lra.
  - apply Forall_forall. intros x I. apply in_app_iff in I as [I|I]; [apply IL in I|apply IH in I]; lra.
  - intro B. apply in_or_app. left. apply in_map_iff. exists (Z.to_nat bl - 1)%nat. split; [|apply in_seq; lia].
    rewrite Nat.sub_diag, dev_0. ring.
  - intro B. rewrite app_nth1 by (rewrite L1; lia). rewrite nth_map_seq by lia. rewrite Nat.sub_0_r, dev_last; [ring|lra|exact B].
  - intro B. rewrite last_nth', app_length, L1, map_length, seq_length, app_nth2 by (rewrite L1; lia). rewrite L1.
    rewrite (nth_indep _ 0 (prior + dev (high - prior) bh 0)) by (rewrite map_length, seq_length; lia).
    rewrite (map_nth (fun k => prior + dev (high - prior) bh k)), seq_nth by lia.
    replace (1 + (Z.to_nat bl + (Z.to_nat bh - 1) - 1 - Z.to_nat bl))%nat with (Z.to_nat bh - 1)%nat by lia.
    rewrite dev_last; [ring|lra|exact B].
  - intros k K. rewrite app_nth1 by (rewrite L1; lia). rewrite nth_map_seq by lia.
    replace (Z.to_nat bl - 1 - (Z.to_nat bl - 1 - k))%nat with k by lia. reflexivity.
  - intros k K. rewrite app_nth2 by (rewrite L1; lia). rewrite L1.
    rewrite (nth_indep _ 0 (prior + dev (high - prior) bh 0)) by (rewrite map_length, seq_length; lia).
    rewrite (map_nth (fun k => prior + dev (high - prior) bh k)), seq_nth by lia.
    replace (1 + (Z.to_nat bl + (k - 1) - Z.to_nat bl))%nat with k by lia. reflexivity.
Qed.
Lemma shares : share_low + share_high = IZR (bins + 1).
Proof. unfold share_low, share_high. rewrite plus_IZR. field. lra. Qed.
(** The number of values, when the share is not half-way between two integers. *)
Lemma dev_length_l : (forall k : Z, share_low <> IZR k + 1 / 2) -> (1 <= bh)%Z ->
  exists l, grid_values (Grid low high prior bins false true) = Ok l /\ length l = Z.to_nat bins.
Proof.
  intros H B. destruct dev_l as (l & E & L & _). exists l. split; [exact E|]. rewrite L.
  pose proof (rint_sum _ _ _ shares H) as S. fold bl bh in S. pose proof bl_nonneg. lia.
Qed.
End Dev.

(** Refutations: with an even number of bins around the prior the length is wrong; a
    prior at the lower end is missing. *)
Lemma Int_part_uniq x n : IZR n <= x < IZR n + 1 -> n = Int_part x.
Proof.
  intros [A B]. pose proof (base_Int_part x) as [C D].
  assert (IZR (Int_part x - n) < 1) as L by (rewrite minus_IZR; lra).
  assert (-1 < IZR (Int_part x - n)) as U by (rewrite minus_IZR; lra).
  apply lt_IZR in L. apply lt_IZR in U. lia.
Qed.
Lemma rint_half : rint (1 / 2 * (2 + 1)) = 2%Z.
Proof.
  pose proof (rint_near (1 / 2 * (2 + 1))) as [A B].
  assert (I : Int_part (1 / 2 * (2 + 1)) = 1%Z).
  { symmetry. apply Int_part_uniq. lra. }
  unfold rint. rewrite I. destruct (Rlt_dec _ _); [lra|]. destruct (Rlt_dec _ _); [lra|]. reflexivity.
Qed.
Lemma dev_length_refuted_l :
  exists l, grid_values (Grid (-1) 1 0 2 false true) = Ok l /\ length l = 3%nat.
Proof.
  destruct (dev_l (-1) 1 0 2 ltac:(lra) ltac:(lra) ltac:(lra) ltac:(lia)) as (l & E & L & _). exists l.
  split; [exact E|]. rewrite L.
  replace ((0 - -1) / (1 - -1) * (2 + 1)) with (1 / 2 * (2 + 1)) by field.
  replace ((1 - 0) / (1 - -1) * (2 + 1)) with (1 / 2 * (2 + 1)) by field.
  rewrite rint_half. reflexivity.
Qed.
Lemma dev_prior_refuted_l :
  exists l, grid_values (Grid 0 1 0 3 false true) = Ok l /\ ~ In 0 l.
Proof.
  assert (R0 : rint 0 = 0%Z).
  { assert (I : Int_part 0 = 0%Z) by (symmetry; apply Int_part_uniq; lra). unfold rint. rewrite I.
    destruct (Rlt_dec _ _); [reflexivity|lra]. }
  eexists. unfold grid_values. cbn [gr_logscale gr_logdev]. rewrite dev_eq by (lra || lia). split; [reflexivity|].
  replace ((0 - 0) / (1 - 0) * (3 + 1)) with 0 by field. rewrite R0. cbn [Z.to_nat seq map app].
  intro I. apply in_map_iff in I as (k & E & K). apply in_seq in K.
  replace ((1 - 0) / (1 - 0) * (3 + 1)) with 4 in * by field.
  assert (R4 : rint 4 = 4%Z).
  { assert (J : Int_part 4 = 4%Z) by (symmetry; apply Int_part_uniq; lra). unfold rint. rewrite J.
    destruct (Rlt_dec _ _); [reflexivity|lra]. }
  rewrite R4 in *. pose proof (dev_lt (1 - 0) 4 0 k ltac:(lra) ltac:(lia) ltac:(lia)) as D.
  rewrite dev_0 in D. lra.
Qed.

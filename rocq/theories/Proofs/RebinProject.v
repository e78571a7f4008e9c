(** The projections of a rebinned spectrum. *)
From Coq Require Import Lia.
From Verif Require Import Model.Base Model.PyStr Model.NDArray Model.Param Model.Config Model.Spectra.
From Verif Require Import Spec.AxisSpec Spec.ArraySpec Spec.SpectraSpec Spec.RebinSpec.
From Verif Require Import Proofs.QcLemmas Proofs.NDArrayLemmas Proofs.ParamLemmas Proofs.DictLemmas
  Proofs.FillLemmas Proofs.ProjectLemmas Proofs.RebinLemmas Proofs.SmearLemmas.

Definition same_key (a b : list nat) : bool := if list_eq_dec Nat.eq_dec a b then true else false.
(** Sums of sums over the bins that go to a bin. *)
Lemma pushed sh sh' (g : list nat -> list nat) f (Q : list nat -> bool) : (forall idx, valid_idx sh idx -> valid_idx sh' (g idx)) ->
  sum_where sh' (fun key => sum_where sh f (fun idx => same_key (g idx) key)) Q = sum_where sh f (fun idx => Q (g idx)).
Proof.
  intro V. rewrite !sum_where_over.
  transitivity (sum_over sh' (fun key => sum_over sh (fun idx => if Q key then if same_key (g idx) key then f idx else 0%Qc else 0%Qc))).
  { apply sum_over_ext. intros key _. rewrite sum_where_over. destruct (Q key); [reflexivity|]. symmetry. now apply sum_over_0. }
  rewrite sum_over_swap. apply sum_over_ext. intros idx Vi. rewrite (sum_over_single sh' _ (g idx) (V idx Vi)).
  - unfold same_key. destruct (list_eq_dec Nat.eq_dec (g idx) (g idx)); [reflexivity|congruence].
  - intros key _ N. unfold same_key. destruct (list_eq_dec Nat.eq_dec (g idx) key); [congruence|]. now destruct (Q key).
Qed.
Lemma where_ext sh f g P : (forall idx, valid_idx sh idx -> f idx = g idx) -> sum_where sh f P = sum_where sh g P.
Proof. intro H. rewrite !sum_where_over. apply sum_over_ext. intros i V. now rewrite H. Qed.
Lemma where_same sh f P Q : (forall idx, valid_idx sh idx -> P idx = Q idx) -> sum_where sh f P = sum_where sh f Q.
Proof. intro H. rewrite !sum_where_over. apply sum_over_ext. intros i V. now rewrite H. Qed.
Lemma coarse_valid b r idx : length b = length r -> valid_idx (zip_with Nat.mul b r) idx -> valid_idx b (coarse r idx).
Proof.
  unfold valid_idx. revert r idx. induction b as [|n b IH]; intros [|m r] idx L V; cbn in *; try discriminate L; [constructor|]; inversion V; subst; cbn.
  constructor; [|apply IH; [lia|assumption]]. apply Nat.div_lt_upper_bound; [nia|lia].
Qed.
Lemma coarse_nth k : forall r idx, k < length r -> k < length idx -> nth k (coarse r idx) 0 = nth k idx 0 / nth k r 0.
Proof.
  induction k as [|k IH]; intros r idx L1 L2; destruct r as [|m r], idx as [|i idx]; cbn [length] in L1, L2; try lia; cbn [coarse nth]; [reflexivity|].
  apply IH; lia.
Qed.
Lemma factors_length c bs : divides_bins c bs -> length (merge_factors c bs) = length c.
Proof. unfold divides_bins. induction 1 as [|[v p] b c bs _ _ IH]; [reflexivity|]. cbn. now rewrite IH. Qed.
Lemma valid_nth_lt k : forall sh idx, valid_idx sh idx -> k < length sh -> nth k idx 0 < nth k sh 0.
Proof. induction k as [|k IH]; intros sh idx V L; (destruct V as [|i n idx sh Hi V]; cbn in *; [lia|]); [exact Hi|]. apply IH; [exact V|lia]. Qed.
Lemma rebin_project_l s bs d axis : wf_spectra s -> divides_bins (s_cfg s) bs -> nth_error (map fst (s_cfg s)) axis = Some d ->
  exists s' a b, rebin bs s = (s', None) /\ project d s = Ok a /\ project d s' = Ok b /\ ashape b = [Z.to_nat (nth axis bs 0%Z)] /\
    forall j, j < Z.to_nat (nth axis bs 0%Z) -> aget b [j] = merged (ashape a) [nth axis (merge_factors (s_cfg s) bs) 0] (aget a) [j].
Proof.
  intros W D N. pose proof W as [[NDp Wa] C]. destruct (rebin_l s bs W D) as (s' & E & W' & Ec & _ & _ & _ & _ & G & _).
  destruct (project_l s d axis C N NDp) as (a & Pa & Sa & Ga & _).
  assert (N' : nth_error (map fst (s_cfg s')) axis = Some d) by (rewrite Ec, set_bins_pars; exact N).
  pose proof W' as [[NDp' _] C']. destruct (project_l s' d axis C' N' NDp') as (b & Pb & Sb & Gb & _).
  assert (Sh' : ashape (s_data s') = cfg_shape (set_bins (s_cfg s) bs)) by (rewrite C', Ec; reflexivity).
  assert (Lx : axis < length (s_cfg s)) by (rewrite <- (map_length fst); apply nth_error_Some; congruence).
  destruct (rebin_shape_ok (s_cfg s) bs Wa D) as (_ & Z & L1 & L2).
  assert (Lf := factors_length _ _ D).
  assert (Nb : nth axis (ashape (s_data s')) 0 = Z.to_nat (nth axis bs 0%Z)).
  { rewrite Sh'. clear - D Lx. revert axis Lx. unfold divides_bins in D. induction D as [|[v p] b c bs _ D IH]; intros axis L; cbn in L; [lia|].
    destruct axis as [|axis]; [reflexivity|]. cbn. apply IH. lia. }
  exists s', a, b. split; [exact E|]. split; [exact Pa|]. split; [exact Pb|]. split; [rewrite Sb, Nb; reflexivity|]. intros j J.
  rewrite Gb by (rewrite Nb; exact J). unfold marginal. set (f := aget (s_data s)). set (sh := ashape (s_data s)). set (r := merge_factors (s_cfg s) bs).
  rewrite (where_ext _ _ (fun key => sum_where sh f (fun idx => same_key (coarse r idx) key))) by (intros key V; exact (G key V)).
  assert (Zs : zip_with Nat.mul (ashape (s_data s')) r = sh) by (rewrite Sh'; unfold sh; rewrite C; exact Z).
  rewrite (pushed sh _ (coarse r)).
  2:{ intros idx V. apply coarse_valid; [rewrite Sh'; exact L1|rewrite Zs; exact V]. }
  unfold merged. rewrite Sa.
  rewrite (where_ext _ (aget a) (fun key => sum_where sh f (fun idx => same_key [nth axis idx 0] key))).
  2:{ intros key V. inversion V as [|i n ? ? Hi V0]; subst. inversion V0; subst. rewrite Ga by exact Hi. reflexivity. }
  rewrite (pushed sh _ (fun idx => [nth axis idx 0])).
  2:{ intros idx V. constructor; [|constructor]. apply valid_nth_lt; [exact V|]. rewrite C, cfg_shape_length. exact Lx. }
  apply where_same. intros idx V. assert (Li : length idx = length (s_cfg s)) by (apply valid_length in V; rewrite V; unfold sh; rewrite C; apply cfg_shape_length).
  cbn [map coarse]. rewrite coarse_nth by (unfold r; lia). reflexivity.
Qed.

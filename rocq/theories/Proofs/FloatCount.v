(** Filling event by event in binary64. *)
From Coq Require Import ZArith Reals Lra Lia Permutation.
From Flocq Require Import Core IEEE754.BinarySingleNaN IEEE754.Binary IEEE754.Bits.
From Verif Require Import Model.Base Model.NDArray Model.Spectra Model.FloatFill Model.FloatArray.
From Verif Require Import Spec.ArraySpec Spec.FloatSpec Spec.FloatRunSpec.
From Verif Require Import Proofs.QcLemmas Proofs.NDArrayLemmas Proofs.ExtLemmas Proofs.FloatLemmas Proofs.FloatSums Proofs.FloatRun.
Import ListNotations.
Local Open Scope nat_scope.

Lemma in_range_inside axes : forall vs, f_in_range axes vs = inside axes vs.
Proof. reflexivity. Qed.
Lemma range_finite lo hi v : is_number lo -> is_number hi -> f_le lo v = true -> f_lt v hi = true -> is_number v.
Proof.
  unfold is_number, f_le, f_lt, b64_compare. intros Fl Fh L H.
  destruct v as [s|s|s p e|s m e b]; try reflexivity; exfalso.
  - destruct s; destruct lo as [?|?|?|sl ? ? ?], hi as [?|?|?|sh ? ? ?]; cbn in *; try discriminate; try (destruct sl; discriminate); try (destruct sh; discriminate).
  - destruct lo; cbn in *; discriminate.
Qed.
Lemma index_accepts lo hi n v : axis_ok (lo, hi, n) -> f_le lo v = true -> f_lt v hi = true -> exists i, fill_index lo hi n v = Ok i.
Proof.
  intros (Fl & Fh & Fw & N) L H. pose proof (range_finite _ _ _ Fl Fh L H) as Fv.
  eexists. apply fill_index_ok; try assumption. split; [now apply le_ok|now apply lt_ok].
Qed.
Lemma bins_accept axes : forall vs, Forall axis_ok axes -> inside axes vs = true -> exists bins, f_bins axes vs = Ok bins /\
  match norm_indices bins (bins_of axes) with
  | Ok idx => forall j, lands axes vs j = true <-> j = idx
  | Err e => e = EIndexError
  end.
Proof.
  induction axes as [|[[lo hi] n] axes IH]; intros [|v vs] A I; cbn in I; try discriminate.
  - exists []. split; [reflexivity|]. cbn. intros [|j js]; split; intro H; try reflexivity; discriminate.
  - inversion A as [|? ? A1 A2]; subst. apply andb_prop in I as [I1 I2]. apply andb_prop in I1 as [L H].
    destruct (index_accepts lo hi n v A1 L H) as [i Ei]. destruct (IH vs A2 I2) as (bins & Eb & R).
    exists (i :: bins). cbn [f_bins]. rewrite Ei. cbn [rbind]. rewrite Eb. cbn [rbind]. split; [reflexivity|].
    cbn [bins_of map norm_indices snd]. fold (bins_of axes). destruct A1 as (_ & _ & _ & N).
    assert (X : fill_axis lo hi n v = match norm_index i (Z.to_nat n) with Ok k => Ok (Z.of_nat k) | Err _ => Err EIndexError end).
    { unfold fill_axis. rewrite Ei. cbn [rbind]. unfold norm_index. rewrite Z2Nat.id by lia.
      destruct (Z.ltb_spec i 0) as [Neg|Pos].
      - replace (0 <=? i)%Z with false by (symmetry; apply Z.leb_gt; lia). cbn [andb].
        destruct (Z.leb_spec (- n) i) as [G|G]; cbn [andb].
        + replace (0 <=? i + n)%Z with true by (symmetry; apply Z.leb_le; lia). replace (i + n <? n)%Z with true by (symmetry; apply Z.ltb_lt; lia).
          cbn [andb]. rewrite Z2Nat.id by lia. f_equal. lia.
        + replace (0 <=? i + n)%Z with false by (symmetry; apply Z.leb_gt; lia). reflexivity.
      - replace (0 <=? i)%Z with true by (symmetry; apply Z.leb_le; lia). cbn [andb].
        destruct (Z.ltb_spec i n) as [G|G].
        + rewrite Z2Nat.id by lia. reflexivity.
        + replace ((- n <=? i) && false)%Z with false by (now rewrite andb_false_r). reflexivity. }
    assert (Ne : forall m k e, norm_index m k = Err e -> e = EIndexError) by (intros m k e; unfold norm_index; destruct (_ && _)%bool; congruence).
    destruct (norm_index i (Z.to_nat n)) as [k|e] eqn:K; cbn [rbind].
    2:{ now apply Ne in K. }
    destruct (norm_indices bins (bins_of axes)) as [idx|e]; cbn [rbind]; [|exact R].
    intros [|j js]; cbn [lands]; [split; intro Z; discriminate|]. rewrite X. split.
    + intro Z. apply andb_prop in Z as [Z1 Z2]. apply Z.eqb_eq in Z1. apply R in Z2. subst. f_equal. lia.
    + intro Z. injection Z as -> ->. rewrite Z.eqb_refl. now apply R.
Qed.
Lemma lands_inside axes : forall vs j, lands axes vs j = true -> inside axes vs = true.
Proof.
  induction axes as [|[[lo hi] n] axes IH]; intros [|v vs] [|j js]; cbn; intro H; try discriminate; try reflexivity.
  apply andb_prop in H as [H1 H2]. apply IH in H2. rewrite H2, andb_true_r.
  unfold fill_axis, fill_index in H1. destruct (f_le lo v && f_lt v hi)%bool; [reflexivity|discriminate].
Qed.
Lemma one_whole : whole (f_int 1) /\ exact (f_int 1) = 1%Qc.
Proof.
  destruct (int_ok 1) as [A B]; [lia|]. assert (E : exact (f_int 1) = zq 1) by (apply Rof_inj; rewrite exact_real, Rof_zq; exact A).
  split; [|rewrite E; reflexivity]. split; [exact B|]. exists 1%Z. split; [lia|exact E].
Qed.
Lemma nq_S n : nq (S n) = (1 + nq n)%Qc.
Proof. unfold nq. rewrite Nat2Z.inj_succ. unfold Z.succ. rewrite zq_plus. change (zq 1) with 1%Qc. ring. Qed.
Lemma fill_all_l axes : Forall axis_ok axes -> forall evs s b s', fshape (fs_data s) = bins_of axes -> arel PW (fs_data s) b ->
  (asum b + nq (length evs) <= W)%Qc -> f_fill_all axes (f_int 1) evs s = (s', None) ->
  exists b', arel PW (fs_data s') b' /\ ashape b' = ashape b /\
    (forall idx, valid_idx (ashape b) idx -> aget b' idx = (aget b idx + nq (number_of (fun vs => lands axes vs idx) evs))%Qc) /\
    asum b' = (asum b + nq (number_of (inside axes) evs))%Qc.
Proof.
  intro A. induction evs as [|vs evs IH]; intros s b s' Sh R B H.
  - cbn in H. injection H as <-. exists b. split; [exact R|]. split; [reflexivity|]. change (nq (number_of _ [])) with 0%Qc. split; intros; ring.
  - cbn [f_fill_all] in H. cbn [length] in B. rewrite nq_S in B.
    assert (N0 : (0 <= nq (length evs))%Qc) by (unfold nq; change 0%Qc with (zq 0); apply zq_le; lia).
    destruct (inside axes vs) eqn:I.
    + unfold f_fill in H. rewrite in_range_inside, I in H. cbn [negb] in H.
      destruct (bins_accept axes vs A I) as (bins & Eb & La). rewrite Eb in H.
      destruct (whole_step (FFill bins (f_int 1)) s b 0%Qc (proj1 one_whole) Logic.I R) as (S1 & S2 & S3).
      { cbn [put_in]. rewrite (proj2 one_whole). qlra. }
      cbn [f_step e_step] in *. unfold f_add_at, aadd_at in *. rewrite <- (proj1 R) in S1, S2, S3. rewrite Sh in *.
      destruct (norm_indices bins (bins_of axes)) as [idx|e] eqn:Ni; cbn [rbind] in *.
      2:{ subst e. discriminate. }
      cbn [fst snd fs_data] in S2. pose proof (norm_indices_valid _ _ _ Ni) as Vi.
      assert (Vb : valid_idx (ashape b) idx) by (rewrite <- (proj1 R), Sh; exact Vi).
      pose proof (fun Sh' R' B' => IH _ (aset b idx (aget b idx + exact (f_int 1))%Qc) s' Sh' R' B' H) as IH'. cbn [fs_data fshape] in IH'.
      assert (T : asum (aset b idx (aget b idx + exact (f_int 1))%Qc) = (asum b + 1)%Qc) by (rewrite aset_total, (proj2 one_whole) by exact Vb; reflexivity).
      rewrite T in IH'. destruct IH' as (b' & P1 & P2 & P3 & P4); [reflexivity|exact S2|qlra|].
      exists b'. split; [exact P1|]. split; [exact P2|]. split.
      * intros j V. rewrite (P3 j V). cbn [aset aget]. unfold number_of. cbn [filter].
        destruct (lands axes vs j) eqn:Lj.
        -- apply La in Lj. subst j. rewrite idx_eqb_refl. cbn [length]. rewrite nq_S, (proj2 one_whole). ring.
        -- rewrite idx_eqb_neq; [reflexivity|]. intro C. apply La in C. congruence.
      * rewrite P4. unfold number_of. cbn [filter]. rewrite I. cbn [length]. rewrite nq_S. ring.
    + unfold f_fill in H. rewrite in_range_inside, I in H. cbn [negb] in H.
      destruct (IH s b s' Sh R) as (b' & P1 & P2 & P3 & P4); [qlra|exact H|].
      exists b'. split; [exact P1|]. split; [exact P2|]. split.
      * intros j V. rewrite (P3 j V). unfold number_of. cbn [filter].
        destruct (lands axes vs j) eqn:Lj; [|reflexivity]. apply lands_inside in Lj. congruence.
      * rewrite P4. unfold number_of. cbn [filter]. now rewrite I.
Qed.

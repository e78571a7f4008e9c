(** C76: counting in binary64 is exact. *)
From Coq Require Import ZArith Reals Qreals Lia Permutation.
From Flocq Require Import Core IEEE754.Binary IEEE754.Bits.
From Verif Require Import Model.Base Model.NDArray Model.Param Model.Config Model.Spectra Model.FloatFill Model.FloatArray.
From Verif Require Import Spec.ArraySpec Spec.FloatSpec Spec.FloatRunSpec.
From Verif Require Import Proofs.QcLemmas Proofs.NDArrayLemmas Proofs.FloatLemmas Proofs.FloatSums Proofs.FloatRun Proofs.FloatCount Proofs.FloatLink.
Import ListNotations.

(** Filling event by event with the default weight: however the events are ordered, each bin
    holds the number of events that fall into it, and sum() the number of events inside the
    axes, whatever order numpy adds in. *)
Theorem C76_counts : forall axes evs d s,
  Forall axis_ok axes -> (Z.of_nat (length evs) <= 2 ^ 53)%Z ->
  f_fill_all axes (f_int 1) evs (FS (f_zeros (bins_of axes)) d) = (s, None) ->
  fshape (fs_data s) = bins_of axes /\
  (forall idx, in_shape idx (bins_of axes) = true ->
     is_number (fget (fs_data s) idx) /\
     exact (fget (fs_data s) idx) = nq (number_of (fun vs => lands axes vs idx) evs)) /\
  (forall t, adds_each_once (asize (bins_of axes)) t ->
     is_number (f_total t (fs_data s)) /\ exact (f_total t (fs_data s)) = nq (number_of (inside axes) evs)).
Proof.
  intros axes evs d s A L H.
  assert (R0 : arel PW (f_zeros (bins_of axes)) (azeros (bins_of axes))).
  { split; [reflexivity|]. intros idx _. cbn [f_zeros azeros fget aget]. split; [reflexivity|split; [reflexivity|]]. exists 0%Z. split; [lia|reflexivity]. }
  assert (T0 : asum (azeros (bins_of axes)) = 0%Qc) by (unfold asum; apply sum_over_zero).
  assert (B0 : (nq (length evs) <= W)%Qc) by (unfold nq, W; apply zq_le; exact L).
  destruct (fill_all_l axes A evs (FS (f_zeros (bins_of axes)) d) (azeros (bins_of axes)) s eq_refl R0) as (b & P1 & P2 & P3 & P4); [|exact H|].
  { rewrite T0. now rewrite Qcplus_0_l. }
  cbn [azeros ashape] in P2, P3. assert (Sh : fshape (fs_data s) = bins_of axes) by (rewrite (proj1 P1); exact P2).
  split; [exact Sh|]. split.
  - intros idx V. apply in_shape_valid in V. rewrite <- Sh in V. destruct (proj2 P1 idx V) as (N & E & _). split; [exact N|]. rewrite E, P3 by (rewrite <- Sh; exact V).
    cbn [azeros aget]. apply Qcplus_0_l.
  - intros t O. rewrite <- Sh in O. rewrite T0, Qcplus_0_l in P4.
    destruct (total_PW t _ _ P1) as (N & E & _); [|exact O|split; [exact N|congruence]].
    unfold total_W. rewrite P4. apply (Qcle_trans _ (nq (length evs))); [|exact B0]. unfold nq. apply zq_le.
    unfold number_of. apply Nat2Z.inj_le. clear. induction evs as [|v evs IH]; cbn; [lia|]. destruct (inside axes v); cbn; lia.
Qed.

(** Any history of fills, additions, shrinks, cuts and rebinnings with whole-number weights: the
    contents and the exceptions are those of exact arithmetic, whatever orders numpy adds in, as
    long as no more than 2^53 was put in altogether. *)
Theorem C76_history : forall p s m,
  whole_array (fs_data s) -> Forall op_whole p -> sums_ok_run p (exact_array (fs_data s), m) ->
  (asum (exact_array (fs_data s)) + put_in_all p <= zq (2 ^ 53))%Qc ->
  snd (f_run p s) = snd (e_run p (exact_array (fs_data s), m)) /\
  same_contents (fs_data (fst (f_run p s))) (fst (fst (e_run p (exact_array (fs_data s), m)))).
Proof.
  intros p s m Wh Ow So B. destruct (whole_run p s _ m Ow So (whole_arel _ Wh) B) as (A1 & A2 & _). split; [exact A1|now apply PW_same].
Qed.
(** So is sum() after such a history. *)
Theorem C76_sum : forall p s m t,
  whole_array (fs_data s) -> Forall op_whole p -> sums_ok_run p (exact_array (fs_data s), m) ->
  (asum (exact_array (fs_data s)) + put_in_all p <= zq (2 ^ 53))%Qc ->
  adds_each_once (asize (fshape (fs_data (fst (f_run p s))))) t ->
  is_number (f_total t (fs_data (fst (f_run p s)))) /\
  exact (f_total t (fs_data (fst (f_run p s)))) = asum (fst (fst (e_run p (exact_array (fs_data s), m)))).
Proof.
  intros p s m t Wh Ow So B O. destruct (whole_run p s _ m Ow So (whole_arel _ Wh) B) as (_ & A2 & A3).
  destruct (total_PW t _ _ A2) as (N & E & _); [|exact O|now split]. exact (Qcle_trans _ _ _ A3 B).
Qed.
(** A sum over an axis, of which the projections are made: exact, and the result is again an
    array of whole numbers with the same total. *)
Theorem C76_axis : forall a ord k,
  whole_array a -> (asum (exact_array a) <= zq (2 ^ 53))%Qc -> (k < length (fshape a))%nat ->
  (forall idx, adds_each_once (nth k (fshape a) 0%nat) (ord idx)) ->
  same_contents (f_sum_at ord k a) (sum_at k (exact_array a)) /\ whole_array (f_sum_at ord k a) /\
  asum (exact_array (f_sum_at ord k a)) = asum (exact_array a).
Proof.
  intros a ord k Wh B K O. destruct (sum_at_PW ord k a _ (whole_arel _ Wh) B K O) as [R S].
  split; [now apply PW_same|]. split.
  - intros idx V. apply in_shape_valid in V. apply (PW_whole _ (aget (sum_at k (exact_array a)) idx)). now apply R.
  - rewrite <- S. unfold asum. cbn [exact_array ashape]. rewrite (proj1 R). apply sum_over_ext. intros idx V. rewrite <- (proj1 R) in V. now apply R.
Qed.
(** The exact histories are those of the methods themselves (Model/Spectra.v). *)
Theorem C76_methods : forall s s' : spectra,
  let c (s : spectra) := (s_data s, s_decays s) in
  (forall w kw, fill (exact w) kw s = (s', None) -> exists bins, e_step (FFill bins w) (c s) = (c s', None)) /\
  (forall o fo, s_add o s = (s', None) -> s_data o = exact_array (fs_data fo) -> s_decays o = exact (fs_decays fo) ->
     e_step (FAdd fo) (c s) = (c s', None)) /\
  (forall n, scale (exact n) s = (s', None) -> e_step (FScale n) (c s) = (c s', None)) /\
  (forall kw, shrink kw s = (s', None) -> exists sl, e_step (FShrink sl) (c s) = (c s', None)) /\
  (forall kw, cut kw s = (s', None) -> exists sl, forall t1 t2, e_step (FCut sl t1 t2) (c s) = (c s', None)) /\
  (forall b, rebin b s = (s', None) -> forall ords, e_step (FRebin b ords) (c s) = (c s', None)).
Proof.
  intros s s' c. repeat split; intros.
  - now apply fill_link with kw.
  - now apply add_link with o.
  - now apply scale_link.
  - now apply shrink_link with kw.
  - now apply cut_link with kw.
  - now apply rebin_link.
Qed.
(** The numbers [exact] gives are the values of the binary64 numbers. *)
Theorem C76_exact : forall x, Q2R (this (exact x)) = real x.
Proof. exact exact_real. Qed.
(** 2^53 is the limit: a bin with 2^53 counts stays as it is when it is filled again. *)
Theorem C76_limit_refuted : exists s, exact (fget (fs_data s) [0%nat]) = zq (2 ^ 53) /\
  snd (f_step (FFill [0%Z] (f_int 1)) s) = None /\
  exact (fget (fs_data (fst (f_step (FFill [0%Z] (f_int 1)) s))) [0%nat]) = zq (2 ^ 53).
Proof.
  exists (FS (FND [1%nat] (fun _ => f_int (2 ^ 53))) (f_int 1)).
  split; [apply Qc_is_canon; vm_compute; reflexivity|]. split; [vm_compute; reflexivity|]. apply Qc_is_canon. vm_compute. reflexivity.
Qed.
(** With other weights the order of the fills matters: 0.1, 0.2, 0.3 against 0.3, 0.2, 0.1. *)
Definition frac (n : Z) : binary64 := f_div (f_int n) (f_int 10).
Theorem C76_order_refuted : exists w1 w2 w3 s,
  fget (fs_data (fst (f_run [FFill [0%Z] w1; FFill [0%Z] w2; FFill [0%Z] w3] s))) [0%nat] <>
  fget (fs_data (fst (f_run [FFill [0%Z] w3; FFill [0%Z] w2; FFill [0%Z] w1] s))) [0%nat].
Proof.
  exists (frac 1), (frac 2), (frac 3), (FS (f_zeros [1%nat]) (f_int 1)). intro H.
  apply (f_equal b64_compare) in H. apply (f_equal (fun f => f (fget (fs_data (fst (f_run [FFill [0%Z] (frac 3); FFill [0%Z] (frac 2); FFill [0%Z] (frac 1)] (FS (f_zeros [1%nat]) (f_int 1))))) [0%nat]))) in H.
  vm_compute in H. discriminate.
Qed.

(** Four events on an axis from 0 to 10 with 10 bins. *)
Definition ex_axes := [(f_int 0, f_int 10, 10%Z)].
Definition ex_events := [[f_div (f_int 1) (f_int 2)]; [f_div (f_int 16) (f_int 5)]; [f_int 12]; [f_div (f_int 39) (f_int 10)]].
Example C76_counts_ex : Forall axis_ok ex_axes /\ exists s,
  f_fill_all ex_axes (f_int 1) ex_events (FS (f_zeros (bins_of ex_axes)) (f_int 1)) = (s, None) /\
  this (exact (fget (fs_data s) [0%nat])) = inject_Z 1 /\ this (exact (fget (fs_data s) [3%nat])) = inject_Z 2 /\
  number_of (fun vs => lands ex_axes vs [3%nat]) ex_events = 2%nat /\ number_of (inside ex_axes) ex_events = 3%nat.
Proof.
  split.
  - constructor; [|constructor]. cbn [axis_ok ex_axes]. repeat split; try lia; vm_compute; reflexivity.
  - eexists. split; [reflexivity|]. repeat split; vm_compute; reflexivity.
Qed.
(** A history with a refused fill, an addition, a cut and a rebinning. *)
Definition ex_other := FS (FND [4%nat] (fun _ => f_int 2)) (f_int 1).
Definition ex_prog := [FFill [1%Z] (f_int 1); FFill [7%Z] (f_int 1); FFill [3%Z] (f_int 5); FAdd ex_other;
  FCut [(0%Z, 4%Z)] (Node (Node (Leaf 3) (Leaf 1)) (Node Start (Node (Leaf 0) (Leaf 2))))
                    (Node (Leaf 0) (Node (Leaf 1) (Node (Leaf 2) (Leaf 3))));
  FRebin [2%Z] (fun _ _ => Node (Leaf 1) (Leaf 0))].
Definition ex_start := FS (f_zeros [4%nat]) (f_int 1).
Lemma whole_int n : (0 <= n <= 2 ^ 53)%Z -> whole (f_int n).
Proof. intro H. destruct (int_ok n H) as [A B]. split; [exact B|]. exists n. split; [lia|]. apply Rof_inj. rewrite exact_real, Rof_zq. exact A. Qed.
Example C76_history_ex : whole_array (fs_data ex_start) /\ Forall op_whole ex_prog /\
  sums_ok_run ex_prog (exact_array (fs_data ex_start), 1%Qc) /\
  (asum (exact_array (fs_data ex_start)) + put_in_all ex_prog <= zq (2 ^ 53))%Qc /\
  snd (f_run ex_prog ex_start) = [None; Some EIndexError; None; None; None; None] /\
  this (exact (fget (fs_data (fst (f_run ex_prog ex_start))) [0%nat])) = inject_Z 5 /\
  this (exact (fget (fs_data (fst (f_run ex_prog ex_start))) [1%nat])) = inject_Z 9.
Proof.
  split. { intros idx _. cbn. split; [reflexivity|]. exists 0%Z. split; [lia|reflexivity]. }
  split. { repeat constructor; cbn [op_whole]; try (apply whole_int; lia). }
  split.
  { split; [exact I|]. split; [exact I|]. split; [exact I|]. split; [exact I|]. split.
    { split.
      - change (Permutation [3; 1; 0; 2]%nat [0; 1; 2; 3]%nat). apply NoDup_Permutation; [repeat constructor; cbn; lia|repeat constructor; cbn; lia|cbn; lia].
      - change (Permutation [0; 1; 2; 3]%nat [0; 1; 2; 3]%nat). apply Permutation_refl. }
    split; [|exact I]. intros sh' H. vm_compute in H. injection H as <-. cbn [length seq orders_ok]. intros k Hk. vm_compute in Hk. injection Hk as <-.
    split; [|exact I]. intros _. change (Permutation [1; 0]%nat [0; 1]%nat). apply perm_swap. }
  split; [vm_compute; discriminate|]. repeat split; vm_compute; reflexivity.
Qed.

Print Assumptions C76_counts.
Print Assumptions C76_history.
Print Assumptions C76_sum.
Print Assumptions C76_axis.
Print Assumptions C76_methods.
Print Assumptions C76_exact.
Print Assumptions C76_limit_refuted.
Print Assumptions C76_order_refuted.

(** C96: statistics of bins in other orders and groups, and of closer models. *)
From Coq Require Import Reals Lra Permutation.
From Verif Require Import Model.Base Model.TestStat Spec.StatSpec Spec.StatOrderSpec Proofs.StatOrder.
Local Open Scope R_scope.

(** The order of the bins does not matter. *)
Theorem C96_order : forall t o e o' e', length o = length e -> length o' = length e' ->
  Permutation (List.combine o e) (List.combine o' e') -> answer t false o e = answer t false o' e'.
Proof. exact order_l. Qed.
(** Parts of the data add up. *)
Theorem C96_parts : forall t o1 e1 o2 e2, length o1 = length e1 -> length o2 = length e2 -> exists x y,
  answer t false o1 e1 = Ok (Total x) /\ answer t false o2 e2 = Ok (Total y) /\ answer t false (o1 ++ o2) (e1 ++ e2) = Ok (Total (x + y)).
Proof. exact parts_l. Qed.
(** Merging bins, in groups of any sizes, never raises the statistic. *)
Theorem C96_merging : forall t os es, grouped_alike os es -> taken_as_is t (concat os) (concat es) -> exists x y,
  answer t false (map Rsum os) (map Rsum es) = Ok (Total x) /\ answer t false (concat os) (concat es) = Ok (Total y) /\ x <= y.
Proof. exact merge_l. Qed.
(** A model that is nearer to the data in every bin never has the larger statistic. *)
Theorem C96_closer : forall t o e e', length o = length e -> length o = length e' -> taken_as_is t o e -> taken_as_is t o e' ->
  Forall2 (fun ab x => between (fst ab) x (snd ab)) (List.combine o e) e' ->
  exists x y, answer t false o e' = Ok (Total x) /\ answer t false o e = Ok (Total y) /\ x <= y.
Proof. exact closer_l. Qed.

Lemma small : / 10 ^ 34 <= 1.
Proof. rewrite <- Rinv_1. apply Rinv_le_contravar; [lra|]. rewrite <- (pow1 34). apply pow_incr. lra. Qed.
Example C96_sat : grouped_alike [[0; 2]; [3]] [[1; 2]; [2]] /\ taken_as_is BakerCousinsChi (concat [[0; 2]; [3]]) (concat [[1; 2]; [2]]) /\
  taken_as_is Neyman [3; 1] [1; 2] /\ Forall2 (fun ab x => between (fst ab) x (snd ab)) (List.combine [3; 1] [1; 2]) [2; 2].
Proof.
  pose proof small as H. unfold taken_as_is, regular, zero_or_regular, between, grouped_alike. cbn [concat app List.combine]. split; [|split; [|split]].
  - constructor; [split; [reflexivity|discriminate]|]. constructor; [split; [reflexivity|discriminate]|constructor].
  - split; [|split; [|discriminate]]; repeat (constructor; [lra|]); constructor.
  - split; [|split; [|intros _]]; repeat (constructor; [lra|]); constructor.
  - repeat (constructor; [cbn [fst snd]; lra|]). constructor.
Qed.
(** Merging may lose all of the disagreement. *)
Example C96_merged_away : exists y, answer BakerCousinsChi false [1 + 3] [3 + 1] = Ok (Total 0) /\ answer BakerCousinsChi false [1; 3] [3; 1] = Ok (Total y) /\ 0 < y.
Proof.
  pose proof small. assert (K : taken_as_is BakerCousinsChi [1; 3] [3; 1]) by (unfold taken_as_is, regular, zero_or_regular; split; [|split; [|discriminate]]; repeat (constructor; [lra|]); constructor).
  exists (sum2 (tterm BakerCousinsChi) [1; 3] [3; 1]). rewrite !answer_sum by reflexivity. split; [|split; [reflexivity|]].
  - do 2 f_equal. rewrite sum2_reg by (constructor; [split; [lra|split; [right; lra|discriminate]]|constructor]). cbn [sum2 rterm]. replace (3 + 1) with (1 + 3) by ring. rewrite dev_same by lra. ring.
  - rewrite (sum2_reg _ _ _ (bins_ok BakerCousinsChi [1; 3] [3; 1] eq_refl K)). cbn [sum2 rterm]. unfold deviance. replace (3 / 1) with 3 by field. replace (1 / 3) with (/ 3) by field. rewrite ln_Rinv by lra.
    assert (0 < ln 3) by (rewrite <- ln_1; apply ln_increasing; lra). lra.
Qed.

Print Assumptions C96_order.
Print Assumptions C96_parts.
Print Assumptions C96_merging.
Print Assumptions C96_closer.

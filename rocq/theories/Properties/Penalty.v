(** C35: penalty terms of all kinds of numbers. *)
From Coq Require Import Reals ZArith Lra.
From Verif Require Import Model.Base Model.TestStat Spec.PenaltySpec Proofs.Penalty.
Local Open Scope R_scope.

(** One float among the numbers is enough, or a statistic that converts sigma. *)
Theorem C35_mixed : forall t v p s, converts t || negb (all_ints v p s) = true -> to_R s <> 0 ->
  penalty t v p s = Ok (penalty_of t (to_R v) (to_R p) (to_R s)).
Proof. exact mixed_l. Qed.
(** Three integers give that number exactly when sigma divides the difference. *)
Theorem C35_integers_exact : forall t v p s, converts t = false -> s <> 0%Z ->
  (penalty t (PInt v) (PInt p) (PInt s) = Ok (penalty_of t (IZR v) (IZR p) (IZR s)) <-> (s | v - p)%Z).
Proof. exact ints_exact_l. Qed.
(** Otherwise the quotient is rounded down. *)
Theorem C35_integers_floor : forall t v p s, converts t = false -> s <> 0%Z ->
  penalty t (PInt v) (PInt p) (PInt s) = Ok (penalty_of t (IZR ((v - p) / s)) 0 1).
Proof.
  intros t v p s C N. rewrite (ints_l t v p s C N). f_equal. unfold penalty_of, Proofs.StatLemmas.halves. destruct t; field.
Qed.
Theorem C35_zero_any : forall t v p s, to_R s = 0 -> penalty t v p s = Err EZeroDivisionError.
Proof. exact zero_any_l. Qed.
Example C35_sat_mixed : penalty Neyman (PInt 3) (PInt 0) (PFloat 2) = Ok (9 / 4) /\ penalty BakerCousinsLL (PInt 6) (PInt 2) (PInt 2) = Ok 2.
Proof.
  split.
  - rewrite C35_mixed; [|reflexivity|cbn; lra]. f_equal. unfold penalty_of. cbn. field.
  - rewrite (proj2 (C35_integers_exact BakerCousinsLL 6 2 2 eq_refl ltac:(discriminate))); [|now exists 2%Z]. f_equal. unfold penalty_of. field.
Qed.

Print Assumptions C35_mixed.
Print Assumptions C35_integers_exact.
Print Assumptions C35_integers_floor.
Print Assumptions C35_zero_any.

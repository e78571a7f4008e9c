(** Penalty terms of integers and of mixed numbers. *)
From Coq Require Import Reals Lra ZArith Lia.
From Verif Require Import Model.Base Model.TestStat.
From Verif Require Import Spec.PenaltySpec Proofs.StatLemmas.
Local Open Scope R_scope.

Lemma sub_R a b : to_R (py_sub a b) = to_R a - to_R b.
Proof. destruct a, b; cbn; try reflexivity. apply minus_IZR. Qed.
Lemma sub_int a b : is_int (py_sub a b) = is_int a && is_int b.
Proof. destruct a, b; reflexivity. Qed.
Lemma div_R a b : is_int a && is_int b = false -> to_R b <> 0 -> exists q, py_div a b = Ok q /\ to_R q = to_R a / to_R b.
Proof.
  intros H N. destruct a, b; try discriminate; unfold py_div; (destruct (Req_EM_T _ 0) as [E|E]; [elim N; exact E|]); eexists; (split; [reflexivity|reflexivity]).
Qed.
Lemma mixed_l t v p s : converts t || negb (all_ints v p s) = true -> to_R s <> 0 ->
  penalty t v p s = Ok (halves t * ((to_R v - to_R p) / to_R s) ^ 2).
Proof.
  intros H N. destruct (converts t) eqn:C.
  - destruct (div_R (py_sub v p) (to_float s)) as (q & E & Q); [now rewrite Bool.andb_false_r|exact N|]. cbn [to_R to_float] in Q. rewrite sub_R in Q.
    destruct t; try discriminate; unfold penalty; rewrite E; cbn [rbind halves]; rewrite Q; f_equal; unfold to_float; cbn [to_R]; ring.
  - cbn [orb] in H. apply Bool.negb_true_iff in H. destruct (div_R (py_sub v p) s) as (q & E & Q); [now rewrite sub_int|exact N|]. rewrite sub_R in Q.
    destruct t; try discriminate; unfold penalty; rewrite E; cbn [rbind halves]; rewrite Q; f_equal; ring.
Qed.
Lemma zero_any_l t v p s : to_R s = 0 -> penalty t v p s = Err EZeroDivisionError.
Proof.
  intro Z. assert (D : forall a b, to_R b = 0 -> py_div a b = Err EZeroDivisionError).
  { intros a b E. destruct a, b; unfold py_div; cbn [to_R] in *; try (destruct (Req_EM_T _ 0); [reflexivity|contradiction]).
    apply eq_IZR in E. subst. reflexivity. }
  destruct t; unfold penalty; rewrite D; try reflexivity; exact Z.
Qed.
Lemma ints_l t v p s : converts t = false -> s <> 0%Z -> penalty t (PInt v) (PInt p) (PInt s) = Ok (halves t * IZR ((v - p) / s) ^ 2).
Proof.
  intros C N. apply Z.eqb_neq in N. destruct t; try discriminate; unfold penalty, py_sub, py_div; rewrite N; cbn [rbind to_R halves]; f_equal; ring.
Qed.
Lemma ints_exact_l t v p s : converts t = false -> s <> 0%Z ->
  (penalty t (PInt v) (PInt p) (PInt s) = Ok (halves t * ((IZR v - IZR p) / IZR s) ^ 2) <-> (s | v - p)%Z).
Proof.
  intros C N. rewrite (ints_l t v p s C N). assert (NS : IZR s <> 0) by (intro E; apply N; now apply eq_IZR in E).
  assert (HH : 0 < halves t) by (destruct t; cbn; lra). rewrite <- minus_IZR. split.
  - intro E. injection E as E. apply Rmult_eq_reg_l in E; [|lra]. change (IZR ((v - p) / s) ^ 2 = (IZR (v - p) / IZR s) ^ 2) in E. assert (X : (IZR ((v - p) / s)) * (IZR ((v - p) / s)) * (IZR s * IZR s) = IZR (v - p) * IZR (v - p)).
    { transitivity ((IZR ((v - p) / s)) ^ 2 * (IZR s * IZR s)); [ring|]. rewrite E. now field. }
    rewrite <- !mult_IZR in X. apply eq_IZR in X. set (a := (v - p)%Z) in *. set (q := (a / s)%Z) in *.
    assert (Y : ((q * s - a) * (q * s + a) = 0)%Z) by lia. apply Z.eq_mul_0 in Y as [Y|Y]; [exists q; lia|exists (- q)%Z; lia].
  - intros (k & K). rewrite K. rewrite Z.div_mul by exact N. rewrite mult_IZR. do 2 f_equal. field. exact NS.
Qed.

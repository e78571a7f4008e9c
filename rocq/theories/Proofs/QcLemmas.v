(** Arithmetic on [Qc]: a linear-arithmetic tactic and facts on floor, ceil, round. *)
From Coq Require Import Lqa Lia.
From Verif Require Import Model.Base.

Lemma this_add x y : (this (x + y)%Qc == this x + this y)%Q.
Proof. unfold Qcplus, Q2Qc; cbn [this]. apply Qred_correct. Qed.
Lemma this_mul x y : (this (x * y)%Qc == this x * this y)%Q.
Proof. unfold Qcmult, Q2Qc; cbn [this]. apply Qred_correct. Qed.
Lemma this_opp x : (this (- x)%Qc == - this x)%Q.
Proof. unfold Qcopp, Q2Qc; cbn [this]. apply Qred_correct. Qed.
Lemma this_sub x y : (this (x - y)%Qc == this x - this y)%Q.
Proof. unfold Qcminus. rewrite this_add, this_opp. reflexivity. Qed.
Lemma this_inv x : (this (/ x)%Qc == / this x)%Q.
Proof. unfold Qcinv, Q2Qc; cbn [this]. apply Qred_correct. Qed.
Lemma this_div x y : (this (x / y)%Qc == this x / this y)%Q.
Proof. unfold Qcdiv. rewrite this_mul, this_inv. reflexivity. Qed.
Lemma this_Q2Qc q : (this (Q2Qc q) == q)%Q.
Proof. unfold Q2Qc; cbn [this]. apply Qred_correct. Qed.
Lemma this_0 : (this 0%Qc == 0)%Q. Proof. reflexivity. Qed.
Lemma this_1 : (this 1%Qc == 1)%Q. Proof. reflexivity. Qed.
Lemma this_zq z : (this (zq z) == inject_Z z)%Q. Proof. apply this_Q2Qc. Qed.
Lemma this_nq n : (this (nq n) == inject_Z (Z.of_nat n))%Q. Proof. apply this_Q2Qc. Qed.
Lemma this_qq n d : (this (qq n d) == n # d)%Q. Proof. apply this_Q2Qc. Qed.

Lemma Qc_eq_this x y : (this x == this y)%Q <-> x = y.
Proof. split; [apply Qc_is_canon | intros ->; reflexivity]. Qed.

Ltac qc_push :=
  rewrite ?this_add, ?this_sub, ?this_mul, ?this_div, ?this_inv, ?this_opp,
    ?this_zq, ?this_nq, ?this_qq, ?this_Q2Qc, ?this_0, ?this_1.
Ltac qc_push_in H :=
  rewrite ?this_add, ?this_sub, ?this_mul, ?this_div, ?this_inv, ?this_opp,
    ?this_zq, ?this_nq, ?this_qq, ?this_Q2Qc, ?this_0, ?this_1 in H.

(** Move every [Qc] (in)equality in the context to [Q], then call a [Q] tactic. *)
Ltac qc2q :=
  repeat match goal with
  | H : @eq Qc ?a ?b |- _ => apply (proj2 (Qc_eq_this a b)) in H
  | H : Qcle ?a ?b |- _ => unfold Qcle in H
  | H : Qclt ?a ?b |- _ => unfold Qclt in H
  | H : ~ (@eq Qc ?a ?b) |- _ =>
      let H' := fresh H in let HH := fresh "HH" in
      assert (H' : ~ (this a == this b)%Q) by exact (fun HH => H (Qc_is_canon a b HH));
      clear H
  end;
  try match goal with
  | |- @eq Qc ?a ?b => apply Qc_is_canon
  | |- Qcle ?a ?b => unfold Qcle
  | |- Qclt ?a ?b => unfold Qclt
  end;
  repeat match goal with
  | H : context [this (_ _)] |- _ => progress qc_push_in H
  | H : context [this (_ _ _)] |- _ => progress qc_push_in H
  | H : context [this 0%Qc] |- _ => progress qc_push_in H
  | H : context [this 1%Qc] |- _ => progress qc_push_in H
  end;
  repeat (progress qc_push);
  repeat match goal with
  | H : context [inject_Z (Zpos ?p)] |- _ => change (inject_Z (Zpos p)) with (Zpos p # 1)%Q in H
  | |- context [inject_Z (Zpos ?p)] => change (inject_Z (Zpos p)) with (Zpos p # 1)%Q
  | H : context [inject_Z (Zneg ?p)] |- _ => change (inject_Z (Zneg p)) with (Zneg p # 1)%Q in H
  | |- context [inject_Z (Zneg ?p)] => change (inject_Z (Zneg p)) with (Zneg p # 1)%Q
  | H : context [inject_Z Z0] |- _ => change (inject_Z Z0) with (0 # 1)%Q in H
  | |- context [inject_Z Z0] => change (inject_Z Z0) with (0 # 1)%Q
  end.
Ltac qlra := intros; qc2q; lra.
Ltac qnra := intros; qc2q; nra.

(** ** Boolean comparisons *)
Lemma qle_iff x y : qle x y = true <-> (x <= y)%Qc.
Proof. unfold qle, Qcle. apply Qle_bool_iff. Qed.
Lemma qle_false x y : qle x y = false <-> (y < x)%Qc.
Proof.
  destruct (qle x y) eqn:E; split; intro H; try discriminate; try reflexivity.
  - apply qle_iff in E. exfalso. qlra.
  - destruct (Qclt_le_dec y x) as [L|L]; [exact L|].
    apply qle_iff in L. congruence.
Qed.
Lemma qlt_iff x y : qlt x y = true <-> (x < y)%Qc.
Proof. unfold qlt. rewrite negb_true_iff. apply qle_false. Qed.
Lemma qlt_false x y : qlt x y = false <-> (y <= x)%Qc.
Proof. unfold qlt. rewrite negb_false_iff. apply qle_iff. Qed.
Lemma qeq_iff x y : qeq x y = true <-> x = y.
Proof.
  unfold qeq. split; [apply Qc_eq_bool_correct|]. intros ->.
  unfold Qc_eq_bool. destruct (Qc_eq_dec y y); congruence.
Qed.
Lemma qeq_false x y : qeq x y = false <-> x <> y.
Proof.
  split; intro H.
  - intro E. apply qeq_iff in E. congruence.
  - destruct (qeq x y) eqn:E; [apply qeq_iff in E; contradiction | reflexivity].
Qed.
Lemma qleP x y : reflect (x <= y)%Qc (qle x y).
Proof. destruct (qle x y) eqn:E; constructor; [apply qle_iff | apply Qclt_not_le, qle_false]; assumption. Qed.
Lemma qltP x y : reflect (x < y)%Qc (qlt x y).
Proof. destruct (qlt x y) eqn:E; constructor; [apply qlt_iff | apply Qcle_not_lt, qlt_false]; assumption. Qed.
Lemma qeqP x y : reflect (x = y) (qeq x y).
Proof. destruct (qeq x y) eqn:E; constructor; [apply qeq_iff | apply qeq_false]; assumption. Qed.

Lemma Qclt_irrefl' (x : Qc) : ~ (x < x)%Qc. Proof. intro H; qlra. Qed.
Lemma Qcnot_le_lt (x y : Qc) : ~ (x <= y)%Qc -> (y < x)%Qc.
Proof. apply Qcnot_le_lt. Qed.

(** ** Integers inside the rationals *)
Lemma zq_add a b : zq (a + b) = (zq a + zq b)%Qc.
Proof. apply Qc_is_canon. qc_push. rewrite inject_Z_plus. reflexivity. Qed.
Lemma zq_sub a b : zq (a - b) = (zq a - zq b)%Qc.
Proof. apply Qc_is_canon. qc_push. unfold Z.sub. rewrite inject_Z_plus, inject_Z_opp. reflexivity. Qed.
Lemma zq_opp a : zq (- a) = (- zq a)%Qc.
Proof. apply Qc_is_canon. qc_push. rewrite inject_Z_opp. reflexivity. Qed.
Lemma zq_mul a b : zq (a * b) = (zq a * zq b)%Qc.
Proof. apply Qc_is_canon. qc_push. rewrite inject_Z_mult. reflexivity. Qed.
Lemma zq_0 : zq 0 = 0%Qc. Proof. apply Qc_is_canon; reflexivity. Qed.
Lemma zq_1 : zq 1 = 1%Qc. Proof. apply Qc_is_canon; reflexivity. Qed.
Lemma zq_le a b : (a <= b)%Z <-> (zq a <= zq b)%Qc.
Proof. unfold Qcle. rewrite !this_zq. symmetry; rewrite <- Zle_Qle. reflexivity. Qed.
Lemma zq_lt a b : (a < b)%Z <-> (zq a < zq b)%Qc.
Proof. unfold Qclt. rewrite !this_zq. symmetry; rewrite <- Zlt_Qlt. reflexivity. Qed.
Lemma zq_inj a b : zq a = zq b -> a = b.
Proof.
  intro H. apply (proj2 (Qc_eq_this _ _)) in H. rewrite !this_zq in H.
  apply inject_Z_injective. exact H.
Qed.
Lemma nq_zq n : nq n = zq (Z.of_nat n). Proof. reflexivity. Qed.
Lemma nq_S n : nq (S n) = (nq n + 1)%Qc.
Proof. unfold nq. rewrite Nat2Z.inj_succ, <- Z.add_1_r, zq_add, zq_1. reflexivity. Qed.
Lemma nq_0 : nq 0 = 0%Qc. Proof. apply zq_0. Qed.
Lemma nq_add a b : nq (a + b) = (nq a + nq b)%Qc.
Proof. unfold nq. rewrite Nat2Z.inj_add. apply zq_add. Qed.
Lemma nq_mul a b : nq (a * b) = (nq a * nq b)%Qc.
Proof. unfold nq. rewrite Nat2Z.inj_mul. apply zq_mul. Qed.
Lemma nq_le a b : (a <= b)%nat <-> (nq a <= nq b)%Qc.
Proof. unfold nq. rewrite <- zq_le. lia. Qed.
Lemma nq_lt a b : (a < b)%nat <-> (nq a < nq b)%Qc.
Proof. unfold nq. rewrite <- zq_lt. lia. Qed.
Lemma nq_nonneg n : (0 <= nq n)%Qc.
Proof. rewrite <- nq_0. apply nq_le. lia. Qed.

(** ** floor, ceil, int(), round *)
Lemma qfloor_le x : (zq (qfloor x) <= x)%Qc.
Proof. unfold Qcle, qfloor. rewrite this_zq. apply Qfloor_le. Qed.
Lemma qfloor_lt x : (x < zq (qfloor x) + 1)%Qc.
Proof.
  rewrite <- zq_1, <- zq_add. unfold Qclt, qfloor. rewrite this_zq. apply Qlt_floor.
Qed.
Lemma qfloor_uniq x n : (zq n <= x)%Qc -> (x < zq n + 1)%Qc -> qfloor x = n.
Proof.
  intros H1 H2. pose proof (qfloor_le x) as H3. pose proof (qfloor_lt x) as H4.
  assert (A : (zq n < zq (qfloor x) + 1)%Qc) by qlra.
  assert (B : (zq (qfloor x) < zq n + 1)%Qc) by qlra.
  rewrite <- zq_1, <- zq_add, <- zq_lt in A, B. lia.
Qed.
Lemma qfloor_zq n : qfloor (zq n) = n.
Proof. apply qfloor_uniq; qlra. Qed.
Lemma qfloor_mono x y : (x <= y)%Qc -> (qfloor x <= qfloor y)%Z.
Proof.
  intro H. pose proof (qfloor_le x) as H1. pose proof (qfloor_lt y) as H2.
  assert (A : (zq (qfloor x) < zq (qfloor y) + 1)%Qc) by qlra.
  rewrite <- zq_1, <- zq_add, <- zq_lt in A. lia.
Qed.
Lemma qfloor_ge x n : (zq n <= x)%Qc -> (n <= qfloor x)%Z.
Proof. intro H. rewrite <- (qfloor_zq n). apply qfloor_mono, H. Qed.
Lemma qfloor_lt_z x n : (x < zq n)%Qc -> (qfloor x < n)%Z.
Proof. intro H. pose proof (qfloor_le x). apply zq_lt. qlra. Qed.
Lemma qfloor_add_z x n : qfloor (x + zq n)%Qc = (qfloor x + n)%Z.
Proof.
  pose proof (qfloor_le x). pose proof (qfloor_lt x).
  apply qfloor_uniq; rewrite zq_add; qlra.
Qed.

Lemma qceil_ge x : (x <= zq (qceil x))%Qc.
Proof. unfold qceil. rewrite zq_opp. pose proof (qfloor_le (- x)%Qc). qlra. Qed.
Lemma qceil_lt x : (zq (qceil x) < x + 1)%Qc.
Proof. unfold qceil. rewrite zq_opp. pose proof (qfloor_lt (- x)%Qc). qlra. Qed.
Lemma qceil_uniq x n : (x <= zq n)%Qc -> (zq n < x + 1)%Qc -> qceil x = n.
Proof.
  intros H1 H2. pose proof (qceil_ge x) as H3. pose proof (qceil_lt x) as H4.
  assert (A : (zq n < zq (qceil x) + 1)%Qc) by qlra.
  assert (B : (zq (qceil x) < zq n + 1)%Qc) by qlra.
  rewrite <- zq_1, <- zq_add, <- zq_lt in A, B. lia.
Qed.
Lemma qceil_zq n : qceil (zq n) = n.
Proof. apply qceil_uniq; qlra. Qed.
Lemma qceil_le_z x n : (x <= zq n)%Qc -> (qceil x <= n)%Z.
Proof. intro H. pose proof (qceil_lt x) as H2.
  assert (A : (zq (qceil x) < zq n + 1)%Qc) by qlra.
  rewrite <- zq_1, <- zq_add, <- zq_lt in A. lia.
Qed.
Lemma qceil_gt_z x n : (zq n < x)%Qc -> (n < qceil x)%Z.
Proof. intro H. pose proof (qceil_ge x). apply zq_lt. qlra. Qed.

Lemma qtrunc_nonneg x : (0 <= x)%Qc -> qtrunc x = qfloor x.
Proof. intro H. unfold qtrunc. destruct (qleP 0 x); [reflexivity|contradiction]. Qed.
Lemma qtrunc_neg x : (x < 0)%Qc -> qtrunc x = qceil x.
Proof. intro H. unfold qtrunc. destruct (qleP 0 x); [exfalso; qlra|reflexivity]. Qed.
Lemma qtrunc_zq n : qtrunc (zq n) = n.
Proof. unfold qtrunc. destruct (qle 0 (zq n)); [apply qfloor_zq | apply qceil_zq]. Qed.

Lemma qround_zq n : qround (zq n) = n.
Proof.
  unfold qround. destruct (qleP 0 (zq n)).
  - apply qfloor_uniq; qlra.
  - apply qceil_uniq; qlra.
Qed.

(** ** Absolute value *)
Lemma qabs_nonneg x : (0 <= qabs x)%Qc.
Proof. unfold qabs. destruct (qleP 0 x) as [H|H]; [exact H|]. apply Qcnot_le_lt in H. qlra. Qed.
Lemma qabs_pos x : (0 <= x)%Qc -> qabs x = x.
Proof. intro H. unfold qabs. destruct (qleP 0 x); [reflexivity|contradiction]. Qed.
Lemma qabs_neg x : (x <= 0)%Qc -> qabs x = (- x)%Qc.
Proof. intro H. unfold qabs. destruct (qleP 0 x); [|reflexivity].
  assert (x = 0%Qc) by qlra. subst. apply Qc_is_canon; reflexivity. Qed.
Lemma qabs_0 : qabs 0 = 0%Qc. Proof. apply qabs_pos. qlra. Qed.
Lemma isclose_refl x : isclose x x = true.
Proof.
  unfold isclose. apply qle_iff. replace (x - x)%Qc with 0%Qc by ring. rewrite qabs_0.
  pose proof (qabs_nonneg x). qlra.
Qed.

(** ** Multiplication and division monotonicity *)
Lemma Qcmul_pos x y : (0 < x -> 0 < y -> 0 < x * y)%Qc.
Proof. qnra. Qed.
Lemma Qcmul_nonneg x y : (0 <= x -> 0 <= y -> 0 <= x * y)%Qc.
Proof. qnra. Qed.
Lemma Qcinv_pos x : (0 < x -> 0 < / x)%Qc.
Proof.
  intro H. destruct (Qclt_le_dec 0 (/ x)%Qc) as [L|L]; [exact L|].
  assert (x <> 0)%Qc by (intro; subst; revert H; apply Qclt_irrefl').
  assert (E : (x * / x = 1)%Qc) by (apply Qcmult_inv_r; assumption).
  exfalso. qnra.
Qed.
Lemma Qcdiv_nonneg x y : (0 <= x -> 0 < y -> 0 <= x / y)%Qc.
Proof. intros. unfold Qcdiv. apply Qcmul_nonneg; [assumption|]. apply Qclt_le_weak, Qcinv_pos; assumption. Qed.
Lemma Qcdiv_pos x y : (0 < x -> 0 < y -> 0 < x / y)%Qc.
Proof. intros. unfold Qcdiv. apply Qcmul_pos; [assumption|]. apply Qcinv_pos; assumption. Qed.
Lemma Qc_pos_neq x : (0 < x -> x <> 0)%Qc.
Proof. intros H E; subst. revert H. apply Qclt_irrefl'. Qed.
Lemma Qcdiv_mul_id x y : (y <> 0 -> x / y * y = x)%Qc.
Proof. intro H. field. exact H. Qed.
Lemma Qcle_div_iff a b c : (0 < c -> (a <= b / c <-> a * c <= b))%Qc.
Proof.
  intro H. pose proof (Qc_pos_neq _ H) as N. pose proof (Qcdiv_mul_id b c N) as E.
  set (d := (b / c)%Qc) in *. rewrite <- E. clearbody d. clear E. split; intro; qnra.
Qed.
Lemma Qcdiv_lt_iff a b c : (0 < c -> (b / c < a <-> b < a * c))%Qc.
Proof.
  intro H. pose proof (Qc_pos_neq _ H) as N. pose proof (Qcdiv_mul_id b c N) as E.
  set (d := (b / c)%Qc) in *. rewrite <- E. clearbody d. clear E. split; intro; qnra.
Qed.
Lemma Qcdiv_le_iff a b c : (0 < c -> (b / c <= a <-> b <= a * c))%Qc.
Proof.
  intro H. pose proof (Qc_pos_neq _ H) as N. pose proof (Qcdiv_mul_id b c N) as E.
  set (d := (b / c)%Qc) in *. rewrite <- E. clearbody d. clear E. split; intro; qnra.
Qed.
Lemma Qclt_div_iff a b c : (0 < c -> (a < b / c <-> a * c < b))%Qc.
Proof.
  intro H. pose proof (Qc_pos_neq _ H) as N. pose proof (Qcdiv_mul_id b c N) as E.
  set (d := (b / c)%Qc) in *. rewrite <- E. clearbody d. clear E. split; intro; qnra.
Qed.

(** ** Sums *)
Lemma qsum_app l1 l2 : qsum (l1 ++ l2) = (qsum l1 + qsum l2)%Qc.
Proof. unfold qsum. induction l1 as [|a l1 IH]; cbn; [ring|]. rewrite IH. ring. Qed.
Lemma qsum_nonneg l : (forall x, In x l -> 0 <= x)%Qc -> (0 <= qsum l)%Qc.
Proof.
  induction l as [|a l IH]; cbn; intro H; [qlra|].
  pose proof (H a (or_introl eq_refl)). specialize (IH (fun x Hx => H x (or_intror Hx))).
  unfold qsum in IH. qlra.
Qed.

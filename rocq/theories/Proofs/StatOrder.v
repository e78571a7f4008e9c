(** Bins of a statistic in other orders and groups. *)
From Coq Require Import Reals Lra Lia Permutation.
From Verif Require Import Model.Base Model.TestStat Spec.StatSpec Spec.StatOrderSpec Proofs.StatLemmas.
Local Open Scope R_scope.

(** ** The contribution of a bin *)
Definition tterm (t : tstat) (a b : R) : R :=
  match t with
  | BakerCousinsChi | BakerCousinsChiUp => 2 * snd (total_step t a b)
  | ExtendedLL => b - a * ln (clamp b)
  | _ => snd (total_step t a b)
  end.
Lemma loop_sum step : forall o e, Rsum (snd (loop step o e)) = sum2 (fun a b => snd (step a b)) o e.
Proof.
  induction o as [|a o IH]; intros [|b e]; try reflexivity. cbn [loop sum2]. specialize (IH e). destruct (step a b) as [[a' b'] v]. destruct (loop step o e) as [[o' e'] vs]. cbn in *. now rewrite IH.
Qed.
Lemma sum2_scale f k : forall o e, sum2 (fun a b => k * f a b) o e = k * sum2 f o e.
Proof. induction o as [|a o IH]; intros [|b e]; cbn; try ring. rewrite IH. ring. Qed.
Lemma sum2_minus f : forall o e, length o = length e -> sum2 (fun a b => b - f a b) o e = Rsum e - sum2 f o e.
Proof. induction o as [|a o IH]; intros [|b e] L; try discriminate; cbn; [ring|]. rewrite IH by (now injection L). unfold Rsum. ring. Qed.
Lemma sum2_ext f g : (forall a b, f a b = g a b) -> forall o e, sum2 f o e = sum2 g o e.
Proof. intro H. induction o as [|a o IH]; intros [|b e]; cbn; try reflexivity. now rewrite H, IH. Qed.
Lemma answer_sum t o e : length o = length e -> answer t false o e = Ok (Total (sum2 (tterm t) o e)).
Proof.
  intro L. unfold answer, compute_statistic, vec1. cbn [a_shape a_flat length hd]. rewrite L. cbn [Nat.eqb negb]. rewrite Nat.eqb_refl. cbn [negb]. unfold compute.
  pose proof (loop_sum (total_step t) o e) as H. destruct (loop (total_step t) o e) as [[o' e'] vs]. cbn [snd] in H.
  destruct t; cbn [snd]; rewrite H; do 2 f_equal; unfold tterm; try (rewrite sum2_scale; reflexivity); try reflexivity.
  symmetry. rewrite (sum2_minus (fun a b => a * ln (clamp b))) by exact L. reflexivity.
Qed.
Lemma sum2_app f : forall o1 e1 o2 e2, length o1 = length e1 -> sum2 f (o1 ++ o2) (e1 ++ e2) = sum2 f o1 e1 + sum2 f o2 e2.
Proof. induction o1 as [|a o IH]; intros [|b e] o2 e2 L; try discriminate; cbn; [ring|]. rewrite IH by (now injection L). ring. Qed.
Lemma sum2_combine f : forall o e, sum2 f o e = Rsum (map (fun ab => f (fst ab) (snd ab)) (List.combine o e)).
Proof. induction o as [|a o IH]; intros [|b e]; cbn; try reflexivity. now rewrite IH. Qed.
Lemma Rsum_perm l l' : Permutation l l' -> Rsum l = Rsum l'.
Proof. induction 1; cbn; unfold Rsum in *; try lra. Qed.
Lemma order_l t o e o' e' : length o = length e -> length o' = length e' -> Permutation (List.combine o e) (List.combine o' e') -> answer t false o e = answer t false o' e'.
Proof. intros L L' P. rewrite !answer_sum by assumption. do 2 f_equal. rewrite !sum2_combine. apply Rsum_perm. now apply Permutation_map. Qed.
Lemma parts_l t o1 e1 o2 e2 : length o1 = length e1 -> length o2 = length e2 -> exists x y,
  answer t false o1 e1 = Ok (Total x) /\ answer t false o2 e2 = Ok (Total y) /\ answer t false (o1 ++ o2) (e1 ++ e2) = Ok (Total (x + y)).
Proof.
  intros L1 L2. exists (sum2 (tterm t) o1 e1), (sum2 (tterm t) o2 e2). rewrite !answer_sum by (rewrite ?app_length; lia). now rewrite sum2_app.
Qed.

(** ** Regular contents *)
Lemma eps_pos : 0 < / 10 ^ 34.
Proof. apply Rinv_0_lt_compat. apply pow_lt. lra. Qed.
Lemma clamp_reg x : / 10 ^ 34 <= x -> clamp x = x.
Proof. intro H. unfold clamp, eps. destruct (Rlt_dec x (/ 10 ^ 34)); [lra|reflexivity]. Qed.
Lemma below_reg x : / 10 ^ 34 <= x -> below_eps x = false.
Proof. intro H. unfold below_eps, eps. destruct (Rlt_dec x (/ 10 ^ 34)); [lra|reflexivity]. Qed.
Lemma below_0 : below_eps 0 = true.
Proof. pose proof eps_pos. unfold below_eps, eps. destruct (Rlt_dec 0 (/ 10 ^ 34)); [reflexivity|lra]. Qed.
Definition rterm (t : tstat) (o e : R) : R :=
  match t with
  | BakerCousinsChi => 2 * deviance o e
  | BakerCousinsChiUp => if Rlt_dec e o then 0 else 2 * deviance o e
  | BakerCousinsLL => deviance o e
  | Neyman => chi2_term o e o
  | Pearson => chi2_term o e e
  | ExtendedLL => e - o * ln e
  end.
Definition okbin (t : tstat) (o e : R) : Prop := / 10 ^ 34 <= e /\ (o = 0 \/ / 10 ^ 34 <= o) /\ (t = Neyman -> / 10 ^ 34 <= o).
Lemma dev_0 e : deviance 0 e = e.
Proof. unfold deviance. ring. Qed.
Lemma tterm_reg t o e : okbin t o e -> tterm t o e = rterm t o e.
Proof.
  intros (E & O & N). pose proof eps_pos. assert (E0 : e <> 0) by lra.
  assert (D : (if below_eps o then clamp e else clamp e - o + o * ln (o / clamp e)) = deviance o e).
  { rewrite (clamp_reg e E). destruct O as [->|O]; [rewrite below_0; now rewrite dev_0|]. rewrite (below_reg o O). reflexivity. }
  destruct t; cbn [tterm total_step stats_step rterm snd].
  - now rewrite D.
  - destruct (Rlt_dec e o); [cbn; ring|]. cbn [snd]. now rewrite D.
  - now rewrite D.
  - rewrite (below_reg e E). specialize (N eq_refl). rewrite (clamp_reg o N). unfold chi2_term. field. lra.
  - destruct O as [->|O].
    + rewrite below_0, (clamp_reg e E). unfold chi2_term. field. exact E0.
    + rewrite (below_reg o O), (clamp_reg e E). unfold chi2_term. field. exact E0.
  - now rewrite (clamp_reg e E).
Qed.

(** ** Inequalities for one and two bins *)
Lemma ln_le z : 0 < z -> ln z <= z - 1.
Proof. intro Z. pose proof (exp_ineq1_le (ln z)) as H. rewrite (exp_ln z Z) in H. lra. Qed.
Lemma tangent o c : 0 <= o -> 0 < c -> o - c <= o * ln (o / c).
Proof.
  intros O C. destruct (Req_dec o 0) as [->|N]; [lra|]. assert (P : 0 < o) by lra. replace (o / c) with (/ (c / o)) by (field; lra).
  assert (Q : 0 < c / o) by (apply Rdiv_lt_0_compat; lra). rewrite ln_Rinv by exact Q. pose proof (ln_le (c / o) Q) as L.
  assert (o * ln (c / o) <= o * (c / o - 1)) by (apply Rmult_le_compat_l; lra). replace (o * (c / o - 1)) with (c - o) in H by (field; lra). lra.
Qed.
Lemma ln_quot a b : 0 < a -> 0 < b -> ln (a / b) = ln a - ln b.
Proof. intros A B. unfold Rdiv. rewrite ln_mult, ln_Rinv; [ring|exact B|exact A|now apply Rinv_0_lt_compat]. Qed.
Lemma xln a s c : 0 <= a -> 0 < s -> 0 < c -> a * ln (a / (c * s)) = a * ln (a / c) - a * ln s.
Proof.
  intros A S C. destruct (Req_dec a 0) as [->|N]; [ring|]. rewrite !ln_quot, ln_mult; try lra; try ring. now apply Rmult_lt_0_compat.
Qed.
Lemma log_sum a b c d : 0 <= a -> 0 <= b -> 0 < c -> 0 < d -> deviance (a + b) (c + d) <= deviance a c + deviance b d.
Proof.
  intros A B C D. unfold deviance. destruct (Req_dec (a + b) 0) as [Z|N].
  - assert (a = 0) as -> by lra. assert (b = 0) as -> by lra. replace (0 + 0) with 0 by ring. rewrite !Rmult_0_l. lra.
  - assert (S : 0 < (a + b) / (c + d)) by (apply Rdiv_lt_0_compat; lra). set (s := (a + b) / (c + d)) in *.
    assert (H1 := tangent a (c * s) A ltac:(now apply Rmult_lt_0_compat)). assert (H2 := tangent b (d * s) B ltac:(now apply Rmult_lt_0_compat)).
    rewrite xln in H1, H2 by assumption. assert (E : (c + d) * s = a + b) by (unfold s; field; lra). nra.
Qed.
Lemma dev_e o e' e : 0 <= o -> 0 < e -> 0 < e' -> between o e' e -> e' - o * ln e' <= e - o * ln e.
Proof.
  intros O E E' [(H1 & H2)|(H1 & H2)].
  - pose proof (ln_le (e / e') ltac:(now apply Rdiv_lt_0_compat)) as L. rewrite ln_quot in L by assumption.
    assert (Q : e / e' - 1 = (e - e') * / e') by (field; lra). rewrite Q in L. assert (o * (ln e - ln e') <= o * ((e - e') * / e')) by (apply Rmult_le_compat_l; assumption).
    assert (X : o * ((e - e') * / e') <= e' * ((e - e') * / e')). { apply Rmult_le_compat_r; [|exact H1]. apply Rmult_le_pos; [lra|]. left. now apply Rinv_0_lt_compat. }
    replace (e' * ((e - e') * / e')) with (e - e') in X by (field; lra). lra.
  - pose proof (ln_le (e / e') ltac:(now apply Rdiv_lt_0_compat)) as L. rewrite ln_quot in L by assumption.
    assert (Q : e / e' - 1 = - ((e' - e) * / e')) by (field; lra). rewrite Q in L. assert (o * (ln e - ln e') <= o * - ((e' - e) * / e')) by (apply Rmult_le_compat_l; assumption).
    assert (X : e' * ((e' - e) * / e') <= o * ((e' - e) * / e')). { apply Rmult_le_compat_r; [|exact H2]. apply Rmult_le_pos; [lra|]. left. now apply Rinv_0_lt_compat. }
    replace (e' * ((e' - e) * / e')) with (e' - e) in X by (field; lra). lra.
Qed.
Lemma dev_split o e : 0 <= o -> 0 < e -> deviance o e = (e - o * ln e) + (o * ln o - o).
Proof.
  intros O E. unfold deviance. destruct (Req_dec o 0) as [->|N]; [ring|]. rewrite ln_quot by lra. ring.
Qed.
Lemma dev_mono o e' e : 0 <= o -> 0 < e -> 0 < e' -> between o e' e -> deviance o e' <= deviance o e.
Proof. intros O E E' B. rewrite !dev_split by assumption. pose proof (dev_e o e' e O E E' B). lra. Qed.
Lemma dev_o o o' e : 0 <= o -> o <= o' -> o' <= e -> 0 < e -> deviance o' e <= deviance o e.
Proof.
  intros O H H' E. destruct (Req_dec o' 0) as [Z|N]; [assert (o = o') as -> by lra; lra|]. assert (P : 0 < o') by lra.
  pose proof (tangent o o' O P) as T. assert (X : o * ln (o / e) = o * ln (o / o') + o * ln (o' / e)).
  { destruct (Req_dec o 0) as [->|No]; [ring|]. rewrite !ln_quot by lra. ring. }
  unfold deviance. rewrite X. assert (L : ln (o' / e) <= 0). { pose proof (ln_le (o' / e) ltac:(now apply Rdiv_lt_0_compat)) as L. assert (o' / e <= 1) by (apply Rmult_le_reg_r with e; [exact E|]; unfold Rdiv; rewrite Rmult_assoc, Rinv_l; lra). lra. }
  nra.
Qed.
Lemma dev_same e : 0 < e -> deviance e e = 0.
Proof. intro E. unfold deviance. replace (e / e) with 1 by (field; lra). rewrite ln_1. ring. Qed.
Lemma square_sum u v c d : 0 < c -> 0 < d -> (u + v) * (u + v) / (c + d) <= u * u / c + v * v / d.
Proof.
  intros C D. assert (E : u * u / c + v * v / d - (u + v) * (u + v) / (c + d) = (u * d - v * c) * (u * d - v * c) * / (c * d * (c + d))) by (field; lra).
  assert (0 <= (u * d - v * c) * (u * d - v * c) * / (c * d * (c + d))); [|lra]. apply Rmult_le_pos; [apply (Rle_0_sqr (u * d - v * c))|]. left. apply Rinv_0_lt_compat. apply Rmult_lt_0_compat; [now apply Rmult_lt_0_compat|lra].
Qed.
Definition posbin (t : tstat) (o e : R) : Prop := 0 < e /\ 0 <= o /\ (t = Neyman -> 0 < o).
Lemma two_bins t a b c d : posbin t a c -> posbin t b d -> rterm t (a + b) (c + d) <= rterm t a c + rterm t b d.
Proof.
  intros (C & A & NA) (D & B & NB). destruct t; cbn [rterm].
  - pose proof (log_sum a b c d A B C D). lra.
  - assert (PC : forall x y, 0 <= x -> 0 < y -> x <= y -> 0 <= deviance x y).
    { intros x y X Y H. pose proof (dev_o x y y X H (Rle_refl y) Y). rewrite (dev_same y Y) in H0. exact H0. }
    assert (W : forall a b c d, 0 <= a -> 0 <= b -> 0 < c -> 0 < d -> c < a -> b <= d -> a + b <= c + d -> deviance (a + b) (c + d) <= deviance b d).
    { clear. intros a b c d A B C D H1 H2 H3. assert (M : deviance (a + b) (c + d) <= deviance (c + b) (c + d)) by (apply dev_o; lra). assert (S := log_sum c b c d ltac:(lra) B C D). rewrite (dev_same c C) in S. lra. }
    destruct (Rlt_dec c a), (Rlt_dec d b), (Rlt_dec (c + d) (a + b)); try lra.
    + assert (H := PC b d B D ltac:(lra)). lra.
    + assert (H := W a b c d A B C D ltac:(lra) ltac:(lra) ltac:(lra)). lra.
    + assert (H := PC a c A C ltac:(lra)). lra.
    + assert (H := W b a d c B A D C ltac:(lra) ltac:(lra) ltac:(lra)). rewrite (Rplus_comm b a), (Rplus_comm d c) in H. lra.
    + pose proof (log_sum a b c d A B C D). lra.
  - exact (log_sum a b c d A B C D).
  - unfold chi2_term. replace (a + b - (c + d)) with ((a - c) + (b - d)) by ring. apply square_sum; auto.
  - unfold chi2_term. replace (a + b - (c + d)) with ((a - c) + (b - d)) by ring. now apply square_sum.
  - assert (L1 : ln c <= ln (c + d)) by (left; apply ln_increasing; lra). assert (L2 : ln d <= ln (c + d)) by (left; apply ln_increasing; lra). nra.
Qed.
Lemma closer t o e' e : posbin t o e -> 0 < e' -> between o e' e -> rterm t o e' <= rterm t o e.
Proof.
  intros (E & O & N) E' B. destruct t; cbn [rterm].
  - pose proof (dev_mono o e' e O E E' B). lra.
  - destruct (Rlt_dec e' o), (Rlt_dec e o); try lra.
    + destruct B as [B|B]; [lra|]. lra.
    + assert (e' = o) as -> by (destruct B; lra). rewrite dev_same by exact E'. lra.
    + pose proof (dev_mono o e' e O E E' B). lra.
  - exact (dev_mono o e' e O E E' B).
  - specialize (N eq_refl). unfold chi2_term, Rdiv. apply Rmult_le_compat_r; [left; now apply Rinv_0_lt_compat|]. destruct B; nra.
  - unfold chi2_term. assert (X : (o - e) * (o - e) / e - (o - e') * (o - e') / e' = (e - e') * (e * e' - o * o) * / (e * e')) by (field; lra).
    assert (0 <= (e - e') * (e * e' - o * o) * / (e * e')); [|lra]. apply Rmult_le_pos; [|left; apply Rinv_0_lt_compat; nra]. destruct B as [(B1 & B2)|(B1 & B2)].
    + apply Rmult_le_pos; [lra|]. nra.
    + replace ((e - e') * (e * e' - o * o)) with ((e' - e) * (o * o - e * e')) by ring. apply Rmult_le_pos; [lra|]. nra.
  - exact (dev_e o e' e O E E' B).
Qed.

(** ** Lists *)
Lemma bins_ok t : forall o e, length o = length e -> taken_as_is t o e -> Forall2 (okbin t) o e.
Proof.
  induction o as [|a o IH]; intros [|b e] L (E & O & N); try discriminate; constructor.
  - inversion E; inversion O; subst. split; [assumption|]. split; [assumption|]. intro T. specialize (N T). now inversion N.
  - apply IH; [now injection L|]. split; [now inversion E|]. split; [now inversion O|]. intro T. specialize (N T). now inversion N.
Qed.
Lemma ok_pos t o e : okbin t o e -> posbin t o e.
Proof. intros (E & O & N). pose proof eps_pos. split; [lra|]. split; [destruct O; lra|]. intro T. specialize (N T). lra. Qed.
Lemma sum2_reg t : forall o e, Forall2 (okbin t) o e -> sum2 (tterm t) o e = sum2 (rterm t) o e.
Proof. induction 1; cbn; [reflexivity|]. now rewrite tterm_reg, IHForall2. Qed.
Lemma closer_list t : forall o e, Forall2 (okbin t) o e -> forall e', Forall2 (okbin t) o e' -> Forall2 (fun ab x => between (fst ab) x (snd ab)) (List.combine o e) e' ->
  sum2 (rterm t) o e' <= sum2 (rterm t) o e.
Proof.
  induction 1 as [|a b o e H H1 IH]; intros e' O' B; [inversion O'; cbn; lra|]. inversion O' as [|? x ? e2 O1 O2]; subst. cbn [List.combine] in B. inversion B; subst. cbn [sum2].
  assert (rterm t a x <= rterm t a b) by (apply closer; [now apply ok_pos|destruct O1; pose proof eps_pos; lra|assumption]). pose proof (IH e2 O2 H6). lra.
Qed.
Lemma closer_l t o e e' : length o = length e -> length o = length e' -> taken_as_is t o e -> taken_as_is t o e' ->
  Forall2 (fun ab x => between (fst ab) x (snd ab)) (List.combine o e) e' -> exists x y, answer t false o e' = Ok (Total x) /\ answer t false o e = Ok (Total y) /\ x <= y.
Proof.
  intros L L' K K' B. exists (sum2 (tterm t) o e'), (sum2 (tterm t) o e). rewrite !answer_sum by assumption. split; [reflexivity|]. split; [reflexivity|].
  rewrite !sum2_reg by (now apply bins_ok). apply closer_list; [now apply bins_ok|now apply bins_ok|exact B].
Qed.
(** A group, and groups *)
Lemma reg_sum_pos l : regular l -> 0 <= Rsum l.
Proof. pose proof eps_pos. induction 1; cbn; unfold Rsum in *; lra. Qed.
Lemma reg_sum l : l <> [] -> regular l -> / 10 ^ 34 <= Rsum l.
Proof. intros N R. destruct R as [|x l X R]; [congruence|]. pose proof (reg_sum_pos l R). cbn. unfold Rsum in *. lra. Qed.
Lemma zr_sum l : zero_or_regular l -> Rsum l = 0 \/ / 10 ^ 34 <= Rsum l.
Proof.
  pose proof eps_pos. induction 1 as [|x l X R IH]; [now left|]. cbn. unfold Rsum in *. destruct X as [->|X], IH as [IH|IH]; try (left; lra); right; lra.
Qed.
Lemma group_ok t o e : length o = length e -> o <> [] -> taken_as_is t o e -> okbin t (Rsum o) (Rsum e).
Proof.
  intros L NE (E & O & N). split; [apply reg_sum; [intros ->; destruct o; [congruence|discriminate]|exact E]|]. split; [now apply zr_sum|]. intro T. apply reg_sum; [exact NE|now apply N].
Qed.
Lemma group_le t : forall o e, o <> [] -> Forall2 (okbin t) o e -> rterm t (Rsum o) (Rsum e) <= sum2 (rterm t) o e /\ posbin t (Rsum o) (Rsum e).
Proof.
  intros o e NE F. induction F as [|a b o e H F IH]; [congruence|]. destruct F as [|a2 b2 o e H2 F].
  - cbn. rewrite !Rplus_0_r. split; [lra|now apply ok_pos].
  - destruct IH as (IH & P); [discriminate|]. assert (PA := ok_pos _ _ _ H). set (o' := a2 :: o) in *. set (e' := b2 :: e) in *. change (Rsum (a :: o')) with (a + Rsum o'). change (Rsum (b :: e')) with (b + Rsum e').
    split; [pose proof (two_bins t a (Rsum o') b (Rsum e') PA P); cbn [sum2]; lra|]. destruct PA as (P1 & P2 & P3), P as (Q1 & Q2 & Q3). split; [lra|]. split; [lra|]. intro T. specialize (P3 T). specialize (Q3 T). lra.
Qed.
Lemma groups_le t : forall os es, grouped_alike os es -> taken_as_is t (concat os) (concat es) ->
  sum2 (rterm t) (map Rsum os) (map Rsum es) <= sum2 (rterm t) (concat os) (concat es) /\ Forall2 (okbin t) (map Rsum os) (map Rsum es) /\ length (concat os) = length (concat es).
Proof.
  induction 1 as [|o e os es (L & NE) G IH]; cbn [map concat]; [intros _; split; [cbn; lra|]; split; [constructor|reflexivity]|]. intros (E & O & N).
  unfold regular, zero_or_regular in *. apply Forall_app in E as (E1 & E2), O as (O1 & O2).
  assert (K1 : taken_as_is t o e) by (split; [exact E1|]; split; [exact O1|]; intro T; exact (proj1 (proj1 (Forall_app _ _ _) (N T)))).
  assert (K2 : taken_as_is t (concat os) (concat es)) by (split; [exact E2|]; split; [exact O2|]; intro T; exact (proj2 (proj1 (Forall_app _ _ _) (N T)))).
  destruct (IH K2) as (I1 & I2 & I3). cbn [sum2]. rewrite sum2_app by exact L. destruct (group_le t o e NE (bins_ok t o e L K1)) as (A & _). split; [lra|]. split; [constructor; [now apply group_ok|exact I2]|]. rewrite !app_length. lia.
Qed.
Lemma merge_l t os es : grouped_alike os es -> taken_as_is t (concat os) (concat es) -> exists x y,
  answer t false (map Rsum os) (map Rsum es) = Ok (Total x) /\ answer t false (concat os) (concat es) = Ok (Total y) /\ x <= y.
Proof.
  intros G K. destruct (groups_le t os es G K) as (A & B & C). assert (L : length os = length es) by (clear - G; induction G; cbn; congruence).
  exists (sum2 (tterm t) (map Rsum os) (map Rsum es)), (sum2 (tterm t) (concat os) (concat es)). rewrite !answer_sum by (rewrite ?map_length; assumption).
  split; [reflexivity|]. split; [reflexivity|]. rewrite (sum2_reg t _ _ B), (sum2_reg t _ _ (bins_ok t _ _ C K)). exact A.
Qed.

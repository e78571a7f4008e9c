(** Sums in binary64, in any order. *)
From Coq Require Import ZArith Reals Qreals Lra Lia Permutation.
From Flocq Require Import Core IEEE754.BinarySingleNaN IEEE754.Binary IEEE754.Bits Plus_error Relative.
From Verif Require Import Model.Base Model.NDArray Model.Spectra Model.FloatFill Model.FloatArray.
From Verif Require Import Spec.FloatSpec Spec.FloatRunSpec Proofs.FloatLemmas.
Import ListNotations.
Local Open Scope R_scope.

(* rational numbers as reals *)
Lemma Rof_Q2Qc q : Rof (Q2Qc q) = Q2R q.
Proof. apply Qeq_eqR. apply Qred_correct. Qed.
Lemma Rof_plus a b : Rof (a + b)%Qc = Rof a + Rof b.
Proof. unfold Qcplus. rewrite Rof_Q2Qc. apply Q2R_plus. Qed.
Lemma Rof_mult a b : Rof (a * b)%Qc = Rof a * Rof b.
Proof. unfold Qcmult. rewrite Rof_Q2Qc. apply Q2R_mult. Qed.
Lemma Rof_0 : Rof 0%Qc = 0.
Proof. unfold Rof, Q2R. cbn. lra. Qed.
Lemma Rof_zq z : Rof (zq z) = IZR z.
Proof. unfold zq. rewrite Rof_Q2Qc. unfold Q2R, inject_Z. cbn. lra. Qed.
Lemma Rof_inj a b : Rof a = Rof b -> a = b.
Proof. intro H. apply Qc_is_canon. now apply eqR_Qeq. Qed.
Lemma Rof_le a b : (a <= b)%Qc <-> Rof a <= Rof b.
Proof. split; intro H; [now apply Qle_Rle | now apply Rle_Qle]. Qed.
Lemma Rof_div a b : b <> 0%Qc -> Rof (a / b)%Qc = Rof a / Rof b.
Proof.
  intro N. apply (Rmult_eq_reg_r (Rof b)).
  - rewrite <- Rof_mult. unfold Rdiv. rewrite Rmult_assoc, Rinv_l.
    + rewrite Rmult_1_r. f_equal. unfold Qcdiv. rewrite <- Qcmult_assoc, (Qcmult_comm (/ b)%Qc), Qcmult_inv_r by exact N. apply Qcmult_1_r.
    + intro Z. apply N. apply Rof_inj. now rewrite Rof_0.
  - intro Z. apply N. apply Rof_inj. now rewrite Rof_0.
Qed.
Lemma exact_real x : Rof (exact x) = real x.
Proof.
  unfold real. destruct x as [s|s|s p H|s m e H]; cbn [exact B2R]; try apply Rof_0.
  set (z := if s then Zneg m else Zpos m).
  replace (cond_Zopp s (Zpos m)) with z by (unfold z; now destruct s).
  unfold F2R. cbn [Fnum Fexp]. destruct (Z.leb_spec 0 e) as [L|L].
  - rewrite Rof_zq, mult_IZR. f_equal. rewrite <- IZR_Zpower by exact L. reflexivity.
  - unfold qq. rewrite Rof_Q2Qc. unfold Q2R. cbn [Qnum Qden]. unfold Rdiv. f_equal.
    assert (P : (0 < 2 ^ (- e))%Z) by (apply Z.pow_pos_nonneg; lia).
    rewrite Z2Pos.id by exact P. replace e with (- (- e))%Z at 2 by lia. rewrite bpow_opp. f_equal.
    rewrite <- IZR_Zpower by lia. reflexivity.
Qed.

(* additions *)
Lemma zero64 : real f_zero64 = 0 /\ is_number f_zero64.
Proof. split; reflexivity. Qed.
Lemma add_args x y : is_number (f_add x y) -> is_number x /\ is_number y.
Proof.
  unfold is_number, f_add, b64_plus, Bplus. unfold BSN2B, build_nan. intro F.
  destruct x as [s|s|s p H|s m e H], y as [s'|s'|s' p' H'|s' m' e' H']; cbn in *; try (split; reflexivity); try discriminate.
  destruct s, s'; cbn in *; discriminate.
Qed.
Lemma add_ok x y : is_number x -> is_number y -> Rabs (rnd (real x + real y)) < bpow radix2 1024 ->
  real (f_add x y) = rnd (real x + real y) /\ is_number (f_add x y).
Proof.
  intros Fx Fy B. pose proof (Bplus_correct 53 1024 eq_refl eq_refl binop_nan_pl64 mode_NE x y Fx Fy) as C.
  change (SpecFloat.fexp 53 1024) with fexp in C. cbn [round_mode] in C.
  rewrite Rlt_bool_true in C by exact B. destruct C as (C1 & C2 & _). split; assumption.
Qed.
Lemma add_finite x y : is_number (f_add x y) -> real (f_add x y) = rnd (real x + real y).
Proof.
  intro F. destruct (add_args _ _ F) as [Fx Fy]. apply add_ok; [exact Fx|exact Fy|].
  pose proof (Bplus_correct 53 1024 eq_refl eq_refl binop_nan_pl64 mode_NE x y Fx Fy) as C.
  change (SpecFloat.fexp 53 1024) with fexp in C. cbn [round_mode] in C.
  change (B2R 53 1024 x + B2R 53 1024 y) with (real x + real y) in C.
  destruct (Rlt_bool_spec (Rabs (rnd (real x + real y))) (bpow radix2 1024)) as [L|L]; [exact L|].
  exfalso. destruct C as (C & _). change (Bplus 53 1024 eq_refl eq_refl binop_nan_pl64 mode_NE x y) with (f_add x y) in C.
  unfold is_number in F. destruct (f_add x y); cbn in *; unfold binary_overflow in C; cbn in C; discriminate.
Qed.
Lemma fmt_real x : fmt (real x). Proof. apply fmt_toR. Qed.

(* orders of summation *)
Fixpoint tsum (f : nat -> Qc) (t : tree) : Qc :=
  match t with Start => 0%Qc | Leaf i => f i | Node l r => (tsum f l + tsum f r)%Qc end.
Fixpoint lsum (l : list Qc) : Qc := match l with [] => 0%Qc | x :: r => (x + lsum r)%Qc end.
Lemma lsum_app l m : lsum (l ++ m) = (lsum l + lsum m)%Qc.
Proof. induction l as [|x l IH]; cbn; [ring|rewrite IH; ring]. Qed.
Lemma lsum_perm l m : Permutation l m -> lsum l = lsum m.
Proof. induction 1; cbn; [reflexivity|now rewrite IHPermutation|ring|congruence]. Qed.
Lemma tsum_leaves f t : tsum f t = lsum (map f (leaves t)).
Proof. induction t as [|i|l IHl r IHr]; cbn; [reflexivity|ring|]. now rewrite IHl, IHr, map_app, lsum_app. Qed.
Lemma lsum_seq f n : lsum (map f (seq 0 n)) = qsumn n f.
Proof. induction n as [|n IH]; [reflexivity|]. rewrite seq_S, map_app, lsum_app, IH. cbn. ring. Qed.
Lemma tsum_ok f t n : adds_each_once n t -> tsum f t = qsumn n f.
Proof. intro P. rewrite tsum_leaves, <- lsum_seq. apply lsum_perm, Permutation_map, P. Qed.
Lemma once_lt n t i : adds_each_once n t -> In i (leaves t) -> (i < n)%nat.
Proof. intros P H. apply (Permutation_in _ P) in H. apply in_seq in H. lia. Qed.
Lemma once_in n t i : adds_each_once n t -> (i < n)%nat -> In i (leaves t).
Proof. intros P H. apply (Permutation_in _ (Permutation_sym P)). apply in_seq. lia. Qed.

Lemma tree_args f t : is_number (tree_sum f t) -> forall i, In i (leaves t) -> is_number (f i).
Proof.
  induction t as [|j|l IHl r IHr]; cbn; intros F i H; [easy|destruct H as [<-|[]]; exact F|].
  apply add_args in F. destruct F. apply in_app_iff in H. destruct H; auto.
Qed.
Lemma tree_none f t : leaves t = [] -> real (tree_sum f t) = 0 /\ is_number (tree_sum f t).
Proof.
  induction t as [|i|l IHl r IHr]; cbn; intro H; [apply zero64|discriminate|].
  apply app_eq_nil in H. destruct H as [Hl Hr]. destruct (IHl Hl) as [Al Bl], (IHr Hr) as [Ar Br].
  destruct (add_ok _ _ Bl Br) as [A B].
  - rewrite Al, Ar, Rplus_0_l, (rnd_id 0) by apply fmt0. rewrite Rabs_R0. apply bpow_gt_0.
  - split; [|exact B]. rewrite A, Al, Ar, Rplus_0_l. apply rnd_id, fmt0.
Qed.
Lemma tsum_none f t : leaves t = [] -> tsum f t = 0%Qc.
Proof. intro H. now rewrite tsum_leaves, H. Qed.

(* whole numbers *)
Lemma two53_lt x : Rabs x <= bpow radix2 53 -> Rabs x < bpow radix2 1024.
Proof. intro H. apply Rle_lt_trans with (1 := H). exact big. Qed.
Definition W := zq (2 ^ 53).
Lemma whole_add x y n m : is_number x -> is_number y -> exact x = zq n -> exact y = zq m -> (0 <= n)%Z -> (0 <= m)%Z -> (n + m <= 2 ^ 53)%Z ->
  is_number (f_add x y) /\ exact (f_add x y) = zq (n + m).
Proof.
  intros Fx Fy X Y Hn Hm H.
  assert (E : real x + real y = IZR (n + m)) by (rewrite <- !exact_real, X, Y, !Rof_zq, plus_IZR; reflexivity).
  assert (A : Rabs (IZR (n + m)) <= bpow radix2 53).
  { rewrite <- two53, Rabs_pos_eq by (apply IZR_le; lia). now apply IZR_le. }
  destruct (add_ok x y Fx Fy) as [P Q].
  - rewrite E, rnd_id by (apply fmt_int; lia). now apply two53_lt.
  - split; [exact Q|]. apply Rof_inj. rewrite exact_real, P, E, Rof_zq. apply rnd_id, fmt_int. lia.
Qed.
Lemma zq_plus n m : zq (n + m) = (zq n + zq m)%Qc.
Proof. apply Rof_inj. now rewrite Rof_plus, !Rof_zq, plus_IZR. Qed.
Lemma zq_le n m : (zq n <= zq m)%Qc <-> (n <= m)%Z.
Proof. rewrite Rof_le, !Rof_zq. split; [apply le_IZR|apply IZR_le]. Qed.
Lemma tree_whole f t : (forall i, In i (leaves t) -> whole (f i)) -> (tsum (fun i => exact (f i)) t <= W)%Qc ->
  is_number (tree_sum f t) /\ exact (tree_sum f t) = tsum (fun i => exact (f i)) t /\ exists n, (0 <= n)%Z /\ tsum (fun i => exact (f i)) t = zq n.
Proof.
  induction t as [|i|l IHl r IHr]; cbn [tree_sum tsum leaves]; intros H B.
  - split; [apply zero64|split; [reflexivity|]]. exists 0%Z. split; [lia|reflexivity].
  - destruct (H i (or_introl eq_refl)) as (A & n & N & E). split; [exact A|split; [reflexivity|]]. now exists n.
  - assert (Nl : exists n, (0 <= n)%Z /\ tsum (fun i => exact (f i)) l = zq n).
    { assert (Hl : forall i, In i (leaves l) -> whole (f i)) by (intros; apply H, in_app_iff; auto). clear -Hl.
      induction l as [|i|l IHl r IHr]; cbn in *; [exists 0%Z; split; [lia|reflexivity]| |].
      - destruct (Hl i (or_introl eq_refl)) as (_ & n & N & E). now exists n.
      - destruct IHl as (n & N & E); [intros; apply Hl, in_app_iff; auto|]. destruct IHr as (m & M & E'); [intros; apply Hl, in_app_iff; auto|].
        exists (n + m)%Z. split; [lia|]. now rewrite E, E', zq_plus. }
    assert (Nr : exists n, (0 <= n)%Z /\ tsum (fun i => exact (f i)) r = zq n).
    { assert (Hl : forall i, In i (leaves r) -> whole (f i)) by (intros; apply H, in_app_iff; auto). clear -Hl.
      induction r as [|i|l IHl r IHr]; cbn in *; [exists 0%Z; split; [lia|reflexivity]| |].
      - destruct (Hl i (or_introl eq_refl)) as (_ & n & N & E). now exists n.
      - destruct IHl as (n & N & E); [intros; apply Hl, in_app_iff; auto|]. destruct IHr as (m & M & E'); [intros; apply Hl, in_app_iff; auto|].
        exists (n + m)%Z. split; [lia|]. now rewrite E, E', zq_plus. }
    destruct Nl as (n & N & E), Nr as (m & M & E').
    rewrite E, E', <- zq_plus in B. unfold W in B. apply (proj1 (zq_le _ _)) in B.
    destruct IHl as (A1 & A2 & _); [intros; apply H, in_app_iff; auto|rewrite E; unfold W; apply zq_le; lia|].
    destruct IHr as (B1 & B2 & _); [intros; apply H, in_app_iff; auto|rewrite E'; unfold W; apply zq_le; lia|].
    destruct (whole_add (tree_sum f l) (tree_sum f r) n m) as [P Q]; try assumption; try congruence.
    split; [exact P|]. rewrite E, E', <- zq_plus. split; [exact Q|]. exists (n + m)%Z. split; [lia|reflexivity].
Qed.

(* nearness *)
Notation u := unit_roundoff.
Lemma u_pos : 0 < u. Proof. unfold unit_roundoff. apply Rinv_0_lt_compat, pow_lt. lra. Qed.
Lemma u_bpow : u = bpow radix2 (-53).
Proof. unfold unit_roundoff. change (-53)%Z with (- (53))%Z. rewrite bpow_opp. f_equal. rewrite <- two53. rewrite pow_IZR. reflexivity. Qed.
Lemma u_ro_u : u_ro radix2 53 = u.
Proof. unfold u_ro. rewrite u_bpow, bpow_plus. change (bpow radix2 1) with 2. change (Z.opp 53) with (-53)%Z. lra. Qed.
Definition g (k : nat) : R := (1 + u) ^ k.
Lemma g_pos k : 0 < g k. Proof. apply pow_lt. pose proof u_pos. lra. Qed.
Lemma g_ge1 k : 1 <= g k. Proof. apply pow_R1_Rle. pose proof u_pos. lra. Qed.
Lemma g_plus k l : g (k + l) = g k * g l. Proof. apply pow_add. Qed.
Lemma g_mono k l : (k <= l)%nat -> g k <= g l.
Proof. intro H. apply Rle_pow; [pose proof u_pos; lra|exact H]. Qed.
Lemma eps_g eps : Rabs eps <= u / (1 + u) -> / g 1 <= 1 + eps <= g 1.
Proof.
  intro H. pose proof u_pos as U. unfold g. rewrite pow_1. apply Rabs_le_inv in H.
  assert (A : 1 - u / (1 + u) = / (1 + u)) by (field; lra).
  assert (B : u / (1 + u) <= u).
  { apply (Rmult_le_reg_r (1 + u)); [lra|]. unfold Rdiv. rewrite Rmult_assoc, Rinv_l by lra. nra. }
  lra.
Qed.
(* the relation on reals *)
Definition nr (k : nat) (x r : R) : Prop := 0 <= r /\ r / g k <= x <= r * g k.
Lemma near_nr k x q : near k x q <-> is_number x /\ nr k (real x) (Rof q).
Proof. unfold near, nr, g. tauto. Qed.
Lemma nr_nonneg k x r : nr k x r -> 0 <= x.
Proof.
  intros (R0 & L & _). apply Rle_trans with (2 := L). apply Rmult_le_pos; [exact R0|].
  apply Rlt_le, Rinv_0_lt_compat, g_pos.
Qed.
Lemma nr_id r : 0 <= r -> nr 0 r r.
Proof. intro H. unfold nr, g. cbn. lra. Qed.
Lemma inv_g_mono k l : (k <= l)%nat -> / g l <= / g k.
Proof. intro H. apply Rinv_le_contravar; [apply g_pos|now apply g_mono]. Qed.
Lemma nr_weaken k l x r : (k <= l)%nat -> nr k x r -> nr l x r.
Proof.
  intros H (R0 & L & U). pose proof (g_mono k l H). pose proof (inv_g_mono k l H). unfold nr, Rdiv in *. split; [exact R0|].
  split; nra.
Qed.
Lemma nr_step k x r eps : nr k x r -> Rabs eps <= u / (1 + u) -> nr (k + 1) (x * (1 + eps)) r.
Proof.
  intros N E. pose proof (nr_nonneg _ _ _ N) as X. destruct N as (R0 & L & U). apply eps_g in E.
  unfold nr, Rdiv in *. rewrite g_plus, Rinv_mult. pose proof (g_pos k). pose proof (g_pos 1).
  assert (0 < / g k) by now apply Rinv_0_lt_compat. assert (0 < / g 1) by now apply Rinv_0_lt_compat.
  assert (0 <= r * / g k) by (apply Rmult_le_pos; lra).
  split; [exact R0|]. split.
  - rewrite <- Rmult_assoc. apply Rmult_le_compat; lra.
  - rewrite <- Rmult_assoc. apply Rmult_le_compat; lra.
Qed.
Lemma nr_plus k x y r s : nr k x r -> nr k y s -> nr k (x + y) (r + s).
Proof. unfold nr, Rdiv. intros (A & B) (C & D). split; [lra|]. split; lra. Qed.
Lemma nr_mult k l x y r s : nr k x r -> nr l y s -> nr (k + l) (x * y) (r * s).
Proof.
  intros N M. pose proof (nr_nonneg _ _ _ N). pose proof (nr_nonneg _ _ _ M). destruct N as (A & B & C), M as (D & E & F).
  unfold nr, Rdiv in *. rewrite g_plus, Rinv_mult. pose proof (Rinv_0_lt_compat _ (g_pos k)). pose proof (Rinv_0_lt_compat _ (g_pos l)).
  split; [now apply Rmult_le_pos|]. split.
  - replace (r * s * (/ g k * / g l)) with ((r * / g k) * (s * / g l)) by ring. apply Rmult_le_compat; try assumption; apply Rmult_le_pos; lra.
  - replace (r * s * (g k * g l)) with ((r * g k) * (s * g l)) by ring. now apply Rmult_le_compat.
Qed.
Lemma nr_zero k x r : nr k x r -> x = 0 <-> r = 0.
Proof.
  intros (A & B & C). pose proof (g_pos k). pose proof (Rinv_0_lt_compat _ (g_pos k)). unfold Rdiv in B. split; intro Z; subst; nra.
Qed.
Lemma nr_inv k x r : 0 < r -> nr k x r -> nr k (/ x) (/ r).
Proof.
  intros P N. assert (X : 0 < x).
  { pose proof (nr_nonneg _ _ _ N). destruct (Req_dec x 0) as [Z|Z]; [|lra]. apply (nr_zero _ _ _ N) in Z. lra. }
  destruct N as (A & B & C). pose proof (g_pos k). unfold nr, Rdiv in *. split; [apply Rlt_le, Rinv_0_lt_compat, P|]. split.
  - rewrite <- Rinv_mult. apply Rinv_le_contravar; [exact X|lra].
  - replace (/ r * g k) with (/ (r * / g k)) by (field; split; lra). apply Rinv_le_contravar; [|exact B].
    apply Rmult_lt_0_compat; [exact P|now apply Rinv_0_lt_compat].
Qed.

#[local] Instance p53 : Prec_gt_0 53 := eq_refl.
Lemma plus_eps x y : fmt x -> fmt y -> exists eps, Rabs eps <= u / (1 + u) /\ rnd (x + y) = (x + y) * (1 + eps).
Proof.
  intros Fx Fy. destruct (FLT_plus_error_N_ex radix2 (-1074) 53 (fun x => negb (Z.even x)) x y Fx Fy) as (eps & A & B).
  exists eps. rewrite u_ro_u in A. split; [exact A|exact B].
Qed.
Lemma held_eps z : 0 <= z -> held z -> exists eps, Rabs eps <= u / (1 + u) /\ rnd z = z * (1 + eps).
Proof.
  intros P [->|H].
  - exists 0. split; [rewrite Rabs_R0; pose proof u_pos; apply Rmult_le_pos; [lra|apply Rlt_le, Rinv_0_lt_compat; lra]|].
    rewrite rnd_id by apply fmt0. ring.
  - destruct (relative_error_N_FLX'_ex radix2 53 eq_refl (fun x => negb (Z.even x)) z) as (eps & A & B).
    rewrite u_ro_u in A. exists eps. split; [exact A|]. rewrite <- B. apply round_FLT_FLX.
    rewrite Rabs_pos_eq by exact P. apply Rle_trans with (2 := H). change (-1074 + 53 - 1)%Z with (- (1022))%Z. rewrite bpow_opp.
    apply Rinv_le_contravar; [apply pow_lt; lra|]. rewrite <- IZR_Zpower by lia. rewrite pow_IZR. apply IZR_le. reflexivity.
Qed.
Lemma near_add k x y q r : near k x q -> near k y r -> is_number (f_add x y) -> near (k + 1) (f_add x y) (q + r)%Qc.
Proof.
  rewrite !near_nr. intros [Fx Nx] [Fy Ny] F. split; [exact F|]. rewrite (add_finite _ _ F), Rof_plus.
  destruct (plus_eps (real x) (real y) (fmt_real x) (fmt_real y)) as (eps & A & ->).
  apply nr_step; [now apply nr_plus|exact A].
Qed.
Lemma near_weaken k l x q : (k <= l)%nat -> near k x q -> near l x q.
Proof. rewrite !near_nr. intros H [F N]. split; [exact F|now apply nr_weaken with k]. Qed.
Lemma near_exact x : nonneg x -> near 0 x (exact x).
Proof. intros [F P]. apply near_nr. split; [exact F|]. rewrite exact_real. now apply nr_id. Qed.
Lemma add_zero_r x y : is_number x -> real y = 0 -> is_number y -> is_number (f_add x y) /\ real (f_add x y) = real x.
Proof.
  intros Fx Y Fy. assert (E : rnd (real x + real y) = real x) by (rewrite Y, Rplus_0_r; apply rnd_id, fmt_real).
  destruct (add_ok x y Fx Fy) as [A B]; [rewrite E; apply abs_B2R_lt_emax|]. split; [exact B|now rewrite A].
Qed.
Lemma add_zero_l x y : is_number y -> real x = 0 -> is_number x -> is_number (f_add x y) /\ real (f_add x y) = real y.
Proof.
  intros Fx Y Fy. assert (E : rnd (real x + real y) = real y) by (rewrite Y, Rplus_0_l; apply rnd_id, fmt_real).
  destruct (add_ok x y Fy Fx) as [A B]; [rewrite E; apply abs_B2R_lt_emax|]. split; [exact B|now rewrite A].
Qed.
Lemma near_tree k f h t : (forall i, In i (leaves t) -> near k (f i) (h i)) -> is_number (tree_sum f t) ->
  near (k + depth t) (tree_sum f t) (tsum h t).
Proof.
  induction t as [|i|l IHl r IHr]; intros H F.
  - cbn. apply near_nr. split; [apply zero64|]. rewrite Rof_0. destruct zero64 as [-> _]. unfold nr, Rdiv. lra.
  - cbn. rewrite Nat.add_0_r. apply H. now left.
  - cbn [tree_sum] in F. destruct (add_args _ _ F) as [Fl Fr].
    assert (Hl := IHl (fun i Hi => H i (in_or_app _ _ _ (or_introl Hi))) Fl).
    assert (Hr := IHr (fun i Hi => H i (in_or_app _ _ _ (or_intror Hi))) Fr).
    cbn [tree_sum tsum depth]. destruct (leaves l) as [|a la] eqn:El; [|destruct (leaves r) as [|b lb] eqn:Er].
    + destruct (tree_none f l El) as [A B]. destruct (add_zero_l _ _ Fr A B) as [C D].
      rewrite (tsum_none h l El). replace (0 + tsum h r)%Qc with (tsum h r) by ring.
      apply near_nr. apply near_nr in Hr. split; [exact F|]. rewrite D. apply Hr.
    + destruct (tree_none f r Er) as [A B]. destruct (add_zero_r _ _ Fl A B) as [C D].
      rewrite (tsum_none h r Er). replace (tsum h l + 0)%Qc with (tsum h l) by ring.
      apply near_nr. apply near_nr in Hl. split; [exact F|]. rewrite D. apply Hl.
    + replace (k + S (Nat.max (depth l) (depth r)))%nat with (k + Nat.max (depth l) (depth r) + 1)%nat by lia.
      apply near_add; [apply near_weaken with (2 := Hl); lia|apply near_weaken with (2 := Hr); lia|exact F].
Qed.
Lemma depth_lt t : (depth t <= length (leaves t) - 1)%nat.
Proof.
  induction t as [|i|l IHl r IHr]; cbn; [lia|lia|]. rewrite app_length.
  destruct (leaves l) as [|a la] eqn:El; cbn in *; [lia|]. destruct (leaves r) as [|b lb] eqn:Er; cbn in *; lia.
Qed.
Lemma once_depth n t : adds_each_once n t -> (depth t <= n - 1)%nat.
Proof. intro P. pose proof (depth_lt t). apply Permutation_length in P. rewrite seq_length in P. lia. Qed.

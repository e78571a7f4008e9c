From Coq Require Import Reals Lra.
From Verif Require Import Model.Base Model.Resolution.
Local Open Scope R_scope.

Lemma ly_compose_l own new cur : 0 < new -> new < cur ->
  exists ly, calc_smear_ly own new (Some cur) = Ok ly /\ 0 < ly /\ set_ly ly = Ok ly /\
    forall e, 0 <= e -> ly_sigma cur e ^ 2 + ly_sigma ly e ^ 2 = ly_sigma new e ^ 2.
Proof.
  intros N L. unfold calc_smear_ly, set_ly. destruct (Req_EM_T cur 0); [lra|].
  destruct (Rlt_dec cur new); [lra|]. destruct (Req_EM_T (cur - new) 0); [lra|].
  eexists. split; [reflexivity|].
  assert (P : 0 < new * cur / (cur - new)).
  { apply Rdiv_lt_0_compat; [apply Rmult_lt_0_compat; lra|lra]. }
  split; [exact P|]. destruct (Rlt_dec 0 (new * cur / (cur - new))); [|lra]. split; [reflexivity|].
  intros e E. unfold ly_sigma. rewrite !pow2_sqrt.
  - field. lra.
  - apply Rle_mult_inv_pos; lra.
  - apply Rle_mult_inv_pos; [exact E|exact P].
  - apply Rle_mult_inv_pos; lra.
Qed.
Lemma ly_better_l own new cur : cur <> 0 -> cur < new -> calc_smear_ly own new (Some cur) = Err EValueError.
Proof.
  intros N L. unfold calc_smear_ly. destruct (Req_EM_T cur 0); [lra|]. destruct (Rlt_dec cur new); [reflexivity|lra].
Qed.
Lemma ly_default_l own new : calc_smear_ly own new None = calc_smear_ly own new (Some 0).
Proof. unfold calc_smear_ly. destruct (Req_EM_T 0 0); [reflexivity|lra]. Qed.
Lemma ly_equal_l own cur : cur <> 0 -> calc_smear_ly own cur (Some cur) = Err EZeroDivisionError.
Proof.
  intros N. unfold calc_smear_ly. destruct (Req_EM_T cur 0); [lra|]. destruct (Rlt_dec cur cur); [lra|].
  destruct (Req_EM_T (cur - cur) 0); [reflexivity|lra].
Qed.

Lemma res_compose_l own new cur : 0 < cur -> cur <= new ->
  exists r, calc_smear_res own new (Some cur) = Ok r /\ 0 <= r /\
    forall e, 0 <= e -> res_sigma cur e ^ 2 + res_sigma r e ^ 2 = res_sigma new e ^ 2.
Proof.
  intros N L. unfold calc_smear_res. destruct (Req_EM_T cur 0); [lra|].
  destruct (Rlt_dec new cur); [lra|]. eexists. split; [reflexivity|]. split; [apply Rabs_pos|].
  intros e E. unfold res_sigma.
  assert (D : 0 <= new ^ 2 - cur ^ 2) by nra.
  rewrite !Rpow_mult_distr. rewrite <- (Rsqr_pow2 (Rabs _)), <- Rsqr_abs, Rsqr_pow2.
  rewrite (pow2_sqrt (new ^ 2 - cur ^ 2)) by exact D. ring.
Qed.
Lemma res_better_l own new cur : cur <> 0 -> new < cur -> calc_smear_res own new (Some cur) = Err EValueError.
Proof.
  intros N L. unfold calc_smear_res. destruct (Req_EM_T cur 0); [lra|]. destruct (Rlt_dec new cur); [reflexivity|lra].
Qed.
Lemma res_default_l own new : calc_smear_res own new None = calc_smear_res own new (Some 0).
Proof. unfold calc_smear_res. destruct (Req_EM_T 0 0); [reflexivity|lra]. Qed.
Lemma res_usable_l own new cur : 0 < cur -> cur < new -> new < 1 ->
  exists r, calc_smear_res own new (Some cur) = Ok r /\ set_res r = Ok r.
Proof.
  intros C N L. unfold calc_smear_res. destruct (Req_EM_T cur 0); [lra|]. destruct (Rlt_dec new cur); [lra|].
  eexists. split; [reflexivity|]. assert (D : 0 < new ^ 2 - cur ^ 2 < 1) by nra.
  rewrite (Rabs_pos_eq _ (sqrt_pos _)). unfold set_res.
  assert (0 < sqrt (new ^ 2 - cur ^ 2)) by (apply sqrt_lt_R0; lra).
  assert (sqrt (new ^ 2 - cur ^ 2) < 1) by (rewrite <- sqrt_1; apply sqrt_lt_1; lra).
  destruct (Rlt_dec 0 _); [|lra]. destruct (Rlt_dec _ 1); [reflexivity|lra].
Qed.
Lemma res_equal_l own cur : cur <> 0 -> calc_smear_res own cur (Some cur) = Ok 0 /\ set_res 0 = Err EValueError.
Proof.
  intro C. unfold calc_smear_res, set_res. destruct (Req_EM_T cur 0); [lra|]. destruct (Rlt_dec cur cur); [lra|].
  rewrite Rminus_diag_eq by reflexivity. rewrite sqrt_0, Rabs_R0. destruct (Rlt_dec 0 0); [lra|]. split; reflexivity.
Qed.

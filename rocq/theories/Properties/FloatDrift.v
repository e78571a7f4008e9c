(** C77: how far rounding takes a spectrum from exact arithmetic. *)
From Coq Require Import ZArith Reals Qreals Lra Lia Permutation.
From Flocq Require Import Core IEEE754.Binary IEEE754.Bits.
From Verif Require Import Model.Base Model.NDArray Model.Param Model.Config Model.Spectra Model.FloatFill Model.FloatArray.
From Verif Require Import Spec.ArraySpec Spec.FloatSpec Spec.FloatRunSpec.
From Verif Require Import Proofs.QcLemmas Proofs.NDArrayLemmas Proofs.FloatLemmas Proofs.FloatSums Proofs.FloatRun Proofs.FloatNear Proofs.FloatScale.
Import ListNotations.

(** Any history of fills, additions, scalings, shrinks, cuts and rebinnings with weights, contents
    and numbers of decays that are not negative, in any orders of summation: as long as nothing
    overflows or underflows, the exceptions are those of exact arithmetic, and the contents and the
    decays are within as many factors 1 + 2^-53 of the exact ones as [rounds_run] counts. *)
Theorem C77_history : forall p s,
  nonneg_spectrum s -> Forall op_nonneg64 p -> no_flow_run p s ->
  let e := (exact_array (fs_data s), exact (fs_decays s)) in
  sums_ok_run p e ->
  snd (f_run p s) = snd (e_run p e) /\
  near_array (fst (rounds_run p e (0, 0)%nat)) (fs_data (fst (f_run p s))) (fst (fst (e_run p e))) /\
  near (snd (rounds_run p e (0, 0)%nat)) (fs_decays (fst (f_run p s))) (snd (fst (e_run p e))).
Proof.
  intros p s [N D] On Nf e So. destruct (near_run p s (exact_array (fs_data s)) (exact (fs_decays s)) 0 0 On So Nf) as (A & B & C).
  - split; [reflexivity|]. intros idx V. apply near_exact, N. now apply in_shape_valid.
  - now apply near_exact.
  - split; [exact A|]. split; [|exact C]. destruct B as [B1 B2]. split; [exact B1|]. intros idx V. apply B2. now apply in_shape_valid.
Qed.
(** What sum() adds to that: the depth of its order of summation. *)
Theorem C77_sum : forall k a b t,
  near_array k a b -> adds_each_once (asize (fshape a)) t -> is_number (f_total t a) -> near (k + depth t) (f_total t a) (asum b).
Proof.
  intros k a b t [E H] O F. apply total_near; [|exact O|exact F]. split; [exact E|]. intros idx V. apply H. now apply in_shape_valid.
Qed.
(** A sum of n numbers, in any order, is n - 1 additions deep at most. *)
Theorem C77_depth : forall n t, adds_each_once n t -> (depth t <= n - 1)%nat.
Proof. exact once_depth. Qed.
(** k roundings are a relative error of at most k * 2^-52, up to 2^52 of them. *)
Theorem C77_bound : forall k x q, near k x q -> (INR k <= 2 ^ 52)%R -> (Rabs (real x - Rof q) <= Rof q * (INR k * / 2 ^ 52))%R.
Proof. exact near_bound. Qed.
(** Scaling any number of times: each bin is within 2 roundings per scaling of its first content
    times the last number of decays over the first.  No assumption on what happens on the way. *)
Theorem C77_scalings : forall ns s,
  usual s -> Forall usual_decays ns -> (INR (2 * length ns) <= 2 ^ 52)%R ->
  let r := f_run (map FScale ns) s in
  snd r = map (fun _ => None) ns /\ fs_decays (fst r) = last ns (fs_decays s) /\ fshape (fs_data (fst r)) = fshape (fs_data s) /\
  forall idx, in_shape idx (fshape (fs_data s)) = true ->
    let want := (real (fget (fs_data s) idx) * (real (last ns (fs_decays s)) / real (fs_decays s)))%R in
    is_number (fget (fs_data (fst r)) idx) /\
    (Rabs (real (fget (fs_data (fst r)) idx) - want) <= want * (INR (2 * length ns) * / 2 ^ 52))%R.
Proof.
  intros ns s [Uc Ud] Un K r.
  assert (Nz : exact (fs_decays s) <> 0%Qc).
  { intro C. pose proof (usual_pos _ Ud). rewrite <- exact_real, C, Rof_0 in *. lra. }
  destruct (scalings_l (fs_decays s) (fs_data s) Ud (fun idx V => Uc idx (proj2 (in_shape_valid idx _) V)) ns 0 s Un Ud eq_refl) as (A & B & C & D).
  - intros idx V. replace (exact (fget (fs_data s) idx) * (exact (fs_decays s) / exact (fs_decays s)))%Qc with (exact (fget (fs_data s) idx)) by (field; exact Nz).
    apply near_exact. destruct (Uc idx (proj2 (in_shape_valid idx _) V)) as [F [Z|[L _]]]; (split; [exact F|]); [lra|].
    apply Rle_trans with (2 := L). apply Rlt_le, Rinv_0_lt_compat, pow_lt. lra.
  - exact K.
  - rewrite lastn_last in *. split; [exact A|]. split; [exact B|]. split; [exact C|]. intros idx V want. apply in_shape_valid in V.
    specialize (D idx V). split; [apply D|]. pose proof (near_bound _ _ _ D K) as X.
    rewrite Rof_mult, Rof_div, !exact_real in X by exact Nz. exact X.
Qed.
(** Scaling there and back does not give the contents back: 1 decay to 49 and back to 1. *)
Theorem C77_back_refuted : exists s n, real (fget (fs_data s) [0%nat]) = 1%R /\
  snd (f_run [FScale n; FScale (fs_decays s)] s) = [None; None] /\
  (real (fget (fs_data (fst (f_run [FScale n; FScale (fs_decays s)] s))) [0%nat]) < 1)%R.
Proof.
  exists (FS (FND [1%nat] (fun _ => f_int 1)) (f_int 1)), (f_int 49).
  split; [apply (proj1 (int_ok 1 ltac:(lia)))|]. split; [vm_compute; reflexivity|].
  rewrite <- exact_real. set (q := exact _). assert (E : q = qq 9007199254740991 9007199254740992) by (apply Qc_is_canon; vm_compute; reflexivity).
  rewrite E. unfold qq. rewrite Rof_Q2Qc. unfold Q2R. cbn. lra.
Qed.

(** Example: two bins with 3 and 3, 1 decay; scale to 10, rebin to one bin, fill 0.5, cut. *)
Definition dx_start := FS (FND [2%nat] (fun _ => f_int 3)) (f_int 1).
Definition dx_half := f_div (f_int 1) (f_int 2).
Definition dx_prog := [FScale (f_int 10); FRebin [1%Z] (fun _ _ => Node (Leaf 1) (Leaf 0)); FFill [0%Z] dx_half; FCut [(0%Z, 1%Z)] (Leaf 0) (Leaf 0)].
Lemma dx_nonneg n : (0 <= n <= 2 ^ 53)%Z -> nonneg (f_int n).
Proof. intro H. destruct (int_ok n H) as [A B]. split; [exact B|]. change (toR (f_int n)) with (real (f_int n)) in A. rewrite A. apply IZR_le. lia. Qed.
Lemma held_1 z : (1 <= z)%R -> held z.
Proof. intro H. right. apply Rle_trans with (2 := H). rewrite <- Rinv_1. apply Rinv_le_contravar; [lra|]. apply pow_R1_Rle. lra. Qed.
Ltac one_index := let idx := fresh in let V := fresh in
  intros idx V; match type of V with in_shape _ ?sh = true => let n := eval vm_compute in sh in change (in_shape idx n = true) in V end;
  destruct idx as [|[|[|?]] [|? ?]]; try discriminate V.
Example C77_history_ex : nonneg_spectrum dx_start /\ Forall op_nonneg64 dx_prog /\ no_flow_run dx_prog dx_start /\
  sums_ok_run dx_prog (exact_array (fs_data dx_start), exact (fs_decays dx_start)) /\
  rounds_run dx_prog (exact_array (fs_data dx_start), exact (fs_decays dx_start)) (0, 0)%nat = (4, 10)%nat.
Proof.
  assert (H : real dx_half = (/ 2)%R).
  { rewrite <- exact_real. replace (exact dx_half) with (qq 1 2) by (apply Qc_is_canon; vm_compute; reflexivity). unfold qq. rewrite Rof_Q2Qc. unfold Q2R. cbn. lra. }
  split. { split; [intros idx _; cbn [dx_start fs_data fget]; apply dx_nonneg; lia|cbn [dx_start fs_decays]; apply dx_nonneg; lia]. }
  split. { repeat (apply Forall_cons; [cbn [op_nonneg64]; first [exact I|apply dx_nonneg; lia|split; [vm_compute; reflexivity|rewrite H; lra]]|]). apply Forall_nil. }
  split.
  { assert (Q : forall x z, exact x = zq z -> real x = IZR z) by (intros x z E; rewrite <- exact_real, E; apply Rof_zq).
    split.
    { split; [split; [one_index; vm_compute; reflexivity|vm_compute; reflexivity]|].
      intro Nz. split; [vm_compute; reflexivity|]. split.
      - rewrite (Q (f_int 10) 10%Z), (Q (fs_decays dx_start) 1%Z) by (apply Qc_is_canon; vm_compute; reflexivity). apply held_1. lra.
      - intros idx _. cbn [dx_start fs_data fs_decays fget]. rewrite (Q (f_int 3) 3%Z), (Q (f_div (f_int 10) (f_int 1)) 10%Z) by (apply Qc_is_canon; vm_compute; reflexivity). apply held_1. lra. }
    split; [split; [split; [one_index; vm_compute; reflexivity|vm_compute; reflexivity]|exact I]|].
    split; [split; [split; [one_index; vm_compute; reflexivity|vm_compute; reflexivity]|exact I]|].
    split; [|exact I]. split; [split; [one_index; vm_compute; reflexivity|vm_compute; reflexivity]|].
    split; [vm_compute; reflexivity|]. intros a Ha _. match type of Ha with f_slice _ ?d = _ => set (S := d) in * end.
    assert (L : fshape S = [1%nat]) by (vm_compute; reflexivity). unfold f_slice in Ha. rewrite L in Ha. cbn [length Nat.eqb] in Ha. injection Ha as <-. split; [vm_compute; reflexivity|]. split; [vm_compute; reflexivity|]. split.
    - match goal with |- held (real ?a / real ?b) => set (x := a); set (y := b) end. assert (X : exact x = qq 121 2) by (apply Qc_is_canon; vm_compute; reflexivity).
      assert (Y : exact y = qq 121 2) by (apply Qc_is_canon; vm_compute; reflexivity). rewrite <- !exact_real, X, Y. unfold qq. rewrite Rof_Q2Qc. unfold Q2R. cbn. apply held_1. lra.
    - match goal with |- held (real ?a * real ?b) => set (x := a); set (y := b) end. assert (X : exact x = zq 10) by (apply Qc_is_canon; vm_compute; reflexivity).
      assert (Y : exact y = zq 1) by (apply Qc_is_canon; vm_compute; reflexivity). rewrite (Q _ _ X), (Q _ _ Y). apply held_1. lra. }
  split.
  { split; [exact I|]. split.
    { intros sh' E. vm_compute in E. injection E as <-. cbn [length seq orders_ok]. intros k Hk. vm_compute in Hk. injection Hk as <-.
      split; [|exact I]. intros _. change (Permutation [1; 0]%nat [0; 1]%nat). apply perm_swap. }
    split; [exact I|]. split; [|exact I]. split; apply Permutation_refl. }
  vm_compute. reflexivity.
Qed.
(** Example: ten and five decays, scaled to 49, 3 and 12. *)
Example C77_scalings_ex : usual (FS (FND [2%nat] (fun idx => match idx with [0%nat] => f_int 0 | _ => f_int 7 end)) (f_int 10)) /\
  Forall usual_decays [f_int 49; f_int 3; f_int 12] /\ (INR (2 * 3) <= 2 ^ 52)%R.
Proof.
  assert (B : forall n z, (0 < n)%nat -> (1 <= z <= 50)%R -> (/ 2 ^ (50 + n) <= z <= 2 ^ (50 + n))%R).
  { intros n z Hn Hz. assert (P : (50 <= 2 ^ (50 + n))%R) by (apply Rle_trans with (2 ^ 6)%R; [lra|]; apply Rle_pow; [lra|lia]).
    split; [|lra]. apply Rle_trans with 1%R; [|lra]. rewrite <- Rinv_1. apply Rinv_le_contravar; lra. }
  assert (I : forall n, (0 <= n <= 2 ^ 53)%Z -> real (f_int n) = IZR n) by (intros n H; apply int_ok, H).
  assert (Ud : forall n, (1 <= n <= 50)%Z -> usual_decays (f_int n)).
  { intros n H. split; [apply int_ok; lia|]. rewrite I by lia. apply (B 50%nat); [lia|]. split; apply IZR_le; lia. }
  split; [split|split].
  - intros idx _. cbn [fs_data fget]. assert (Z : usual_content (f_int 0)) by (split; [apply int_ok; lia|left; apply I; lia]).
    assert (S : usual_content (f_int 7)) by (split; [apply int_ok; lia|right; rewrite I by lia; apply (B 450%nat); [lia|lra]]).
    destruct idx as [|[|i] [|j js]]; assumption.
  - apply Ud. lia.
  - repeat (apply Forall_cons; [apply Ud; lia|]). apply Forall_nil.
  - cbn. lra.
Qed.

Print Assumptions C77_history.
Print Assumptions C77_sum.
Print Assumptions C77_depth.
Print Assumptions C77_bound.
Print Assumptions C77_scalings.
Print Assumptions C77_back_refuted.

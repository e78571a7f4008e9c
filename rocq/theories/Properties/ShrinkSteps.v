(** C98: shrinking in steps. *)
From Verif Require Import Model.Base Model.PyStr Model.NDArray Model.Param Model.Config Model.Spectra.
From Verif Require Import Spec.AxisSpec Spec.ArraySpec Spec.SpectraSpec Spec.ShrinkSpec.
From Verif Require Import Spec.ShrinkStepsSpec Proofs.ShrinkSteps.
From Verif Require Import Proofs.QcLemmas Proofs.ExtLemmas.
Local Open Scope string_scope.
Local Open Scope list_scope.

(** C98: shrinking with [kw1] and then with [kw2] leaves the same spectrum as shrinking once
    to what both ask for. Missing for the full statement: axes whose lower bound is not a multiple
    of the bin width, for which it is false. *)
Theorem C98_steps_partial : forall s kw1 kw2 kw s1, wf_spectra s -> s_cfg s <> [] -> Forall (fun vp => aligned (snd vp)) (s_cfg s) ->
  good_keywords (s_cfg s) kw1 -> good_keywords (s_cfg s) kw -> asks_both (s_cfg s) kw1 kw2 kw -> some_bin (req_substantial kw) (s_cfg s) ->
  shrink kw1 s = (s1, None) -> good_keywords (s_cfg s1) kw2 ->
  exists s2 s3, shrink kw2 s1 = (s2, None) /\ shrink kw s = (s3, None) /\ same_spectra s2 s3.
Proof. exact shrink_steps_l. Qed.
Lemma both_comm c kw1 kw2 kw : asks_both c kw1 kw2 kw -> asks_both c kw2 kw1 kw.
Proof.
  intros H v p I. destruct (H v p I) as [-> ->]. unfold later, earlier. split.
  - destruct (qleP (req_low kw1 v p) (req_low kw2 v p)) as [A|A]; destruct (qleP (req_low kw2 v p) (req_low kw1 v p)) as [B|B]; try reflexivity.
    + now apply Qcle_antisym.
    + apply Qcnot_le_lt in A. apply Qcnot_le_lt in B. destruct (Qclt_not_le _ _ A (Qclt_le_weak _ _ B)).
  - destruct (qleP (req_high kw1 v p) (req_high kw2 v p)) as [A|A]; destruct (qleP (req_high kw2 v p) (req_high kw1 v p)) as [B|B]; try reflexivity.
    + now apply Qcle_antisym.
    + apply Qcnot_le_lt in A. apply Qcnot_le_lt in B. destruct (Qclt_not_le _ _ A (Qclt_le_weak _ _ B)).
Qed.
(** C98: the order of the steps does not matter. *)
Theorem C98_order_partial : forall s kw1 kw2 kw s1 s2, wf_spectra s -> s_cfg s <> [] -> Forall (fun vp => aligned (snd vp)) (s_cfg s) ->
  good_keywords (s_cfg s) kw1 -> good_keywords (s_cfg s) kw2 -> good_keywords (s_cfg s) kw -> asks_both (s_cfg s) kw1 kw2 kw ->
  some_bin (req_substantial kw) (s_cfg s) ->
  shrink kw1 s = (s1, None) -> shrink kw2 s = (s2, None) -> good_keywords (s_cfg s1) kw2 -> good_keywords (s_cfg s2) kw1 ->
  exists a b, shrink kw2 s1 = (a, None) /\ shrink kw1 s2 = (b, None) /\ same_spectra a b.
Proof.
  intros s kw1 kw2 kw s1 s2 W NE Al G1 G2 G Bo Sb E1 E2 H1 H2.
  destruct (shrink_steps_l s kw1 kw2 kw s1 W NE Al G1 G Bo Sb E1 H1) as (a & c & A & C & Sa).
  destruct (shrink_steps_l s kw2 kw1 kw s2 W NE Al G2 G (both_comm _ _ _ _ Bo) Sb E2 H2) as (b & c' & B & C' & Sb').
  rewrite C in C'. injection C' as <-. exists a, b. split; [exact A|]. split; [exact B|]. exact (same_trans _ _ _ Sa (same_sym _ _ Sb')).
Qed.

Definition steps_sp (low : Qc) : spectra :=
  Spec "x" None [("energy_mc", SPar low (low + zq 10) 10); ("radial_mc", SPar (zq 2) (zq 4) 4)]
    (ND [10; 4] (fun idx => match idx with [i; j] => nq (4 * i + j) | _ => 0%Qc end)) 1 0 0 [].
Definition steps_1 : dict Qc := [("energy_mc_low", zq 2); ("energy_mc_high", qq 9 2)].
Definition steps_2 : dict Qc := [("energy_mc_low", zq 3); ("radial_mc_high", zq 3)].
Definition steps_12 : dict Qc := [("energy_mc_low", zq 3); ("energy_mc_high", qq 9 2); ("radial_mc_high", zq 3)].
(** Shrinking the energy, then the energy from below and the radius. *)
Example C98_ex : let s := steps_sp (zq 0) in
  wf_spectra s /\ Forall (fun vp => aligned (snd vp)) (s_cfg s) /\ good_keywords (s_cfg s) steps_1 /\ good_keywords (s_cfg s) steps_12 /\
  asks_both (s_cfg s) steps_1 steps_2 steps_12 /\ some_bin (req_substantial steps_12) (s_cfg s) /\
  snd (shrink steps_1 s) = None /\ good_keywords (s_cfg (fst (shrink steps_1 s))) steps_2 /\
  get_shape (s_cfg (fst (shrink steps_12 s))) = [2; 2]%Z.
Proof.
  cbn zeta. split; [split; [split; [repeat constructor; cbn; intuition congruence|repeat constructor; vm_compute; reflexivity]|reflexivity]|].
  split; [apply Forall_cons; [exists 0%Z; apply Qc_is_canon; vm_compute; reflexivity|apply Forall_cons; [exists 4%Z; apply Qc_is_canon; vm_compute; reflexivity|apply Forall_nil]]|].
  split. { intros k x [E|[E|[]]]; injection E as <- <-; (eexists "energy_mc", _; split; [reflexivity|]); [left|right]; (split; [reflexivity|vm_compute; discriminate]). }
  split. { intros k x [E|[E|[E|[]]]]; injection E as <- <-; [eexists "energy_mc", _|eexists "energy_mc", _|eexists "radial_mc", _]; (split; [reflexivity|]); [left|right|right]; (split; [reflexivity|vm_compute; discriminate]). }
  split. { intros v p [E|[E|[]]]; injection E as <- <-; split; apply Qc_is_canon; vm_compute; reflexivity. }
  split. { intros v p [E|[E|[]]]; injection E as <- <-; [exists 3%Z|exists 1%Z]; split; vm_compute; discriminate. }
  split; [vm_compute; reflexivity|]. split; [|vm_compute; reflexivity].
  intros k x [E|[E|[]]]; injection E as <- <-; [eexists "energy_mc", _|eexists "radial_mc", _]; (split; [vm_compute; reflexivity|]); [left|right]; (split; [reflexivity|vm_compute; discriminate]).
Qed.

(** On an axis that starts half a bin width off the multiples of the width, the bounds move with the
    first step, and the second step keeps a bin that shrinking at once does not. *)
Theorem C98_steps_refuted : exists s kw1 kw2 kw s1 s2 s3, wf_spectra s /\ good_keywords (s_cfg s) kw1 /\ good_keywords (s_cfg s) kw /\
  asks_both (s_cfg s) kw1 kw2 kw /\ some_bin (req_substantial kw) (s_cfg s) /\ shrink kw1 s = (s1, None) /\ good_keywords (s_cfg s1) kw2 /\
  shrink kw2 s1 = (s2, None) /\ shrink kw s = (s3, None) /\ get_shape (s_cfg s2) = [9; 4]%Z /\ get_shape (s_cfg s3) = [8; 4]%Z.
Proof.
  set (s := steps_sp (qq 1 2)). set (kw1 := [("energy_mc_low", qq 3 2)]). set (kw2 := [("energy_mc_low", qq 5 2)]).
  exists s, kw1, kw2, kw2, (fst (shrink kw1 s)), (fst (shrink kw2 (fst (shrink kw1 s)))), (fst (shrink kw2 s)).
  assert (E : forall x : spectra * out, snd x = None -> x = (fst x, None)) by (intros [x o] H; cbn in H; now subst).
  split; [split; [split; [repeat constructor; cbn; intuition congruence|repeat constructor; vm_compute; reflexivity]|reflexivity]|].
  split. { intros k x [F|[]]; injection F as <- <-. eexists "energy_mc", _. split; [reflexivity|]. left. split; [reflexivity|vm_compute; discriminate]. }
  split. { intros k x [F|[]]; injection F as <- <-. eexists "energy_mc", _. split; [reflexivity|]. left. split; [reflexivity|vm_compute; discriminate]. }
  split. { intros v p [F|[F|[]]]; injection F as <- <-; split; apply Qc_is_canon; vm_compute; reflexivity. }
  split. { intros v p [F|[F|[]]]; injection F as <- <-; [exists 3%Z|exists 1%Z]; split; vm_compute; discriminate. }
  split; [apply E; vm_compute; reflexivity|].
  split. { intros k x [F|[]]; injection F as <- <-. eexists "energy_mc", _. split; [vm_compute; reflexivity|]. left. split; [reflexivity|vm_compute; discriminate]. }
  split; [apply E; vm_compute; reflexivity|]. split; [apply E; vm_compute; reflexivity|]. split; vm_compute; reflexivity.
Qed.

Print Assumptions C98_steps_partial.
Print Assumptions C98_order_partial.
Print Assumptions C98_steps_refuted.

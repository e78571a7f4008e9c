(** C03-C05: filling a spectrum. *)
From Coq Require Import Permutation.
From Verif Require Import Model.Base Model.PyStr Model.NDArray Model.Param Model.Config Model.Spectra.
From Verif Require Import Spec.AxisSpec Spec.ArraySpec Spec.SpectraSpec Proofs.FillLemmas.
Local Open Scope string_scope.

(** C03: a complete in-range fill succeeds and adds the weight to the one bin whose edges
    contain the values; nothing else changes. *)
Theorem C03_fill_one_bin : forall s kw w,
  wf_spectra s -> valid_point (s_cfg s) kw ->
  exists s' idx, fill w kw s = (s', None) /\ same_meta s s' /\
    valid_idx (ashape (s_data s)) idx /\ point_in_bin (s_cfg s) kw idx /\
    (forall j, point_in_bin (s_cfg s) kw j -> j = idx) /\
    aget (s_data s') idx = (aget (s_data s) idx + w)%Qc /\
    (forall j, j <> idx -> aget (s_data s') j = aget (s_data s) j).
Proof. exact fill_success_l. Qed.

(** C04: an unknown or missing keyword raises Exception, a value out of range ValueError,
    without effect; and every fill that is not valid is rejected without effect. *)
Theorem C04_fill_unknown : forall s kw w k,
  In k (map fst kw) -> ~ In k (map fst (s_cfg s)) -> fill w kw s = (s, Some EException).
Proof. exact fill_unknown_l. Qed.
Theorem C04_fill_missing : forall s kw w k,
  In k (map fst (s_cfg s)) -> ~ In k (map fst kw) -> fill w kw s = (s, Some EException).
Proof. exact fill_missing_l. Qed.
Theorem C04_fill_out_of_range : forall s kw w,
  (forall k, In k (map fst kw) <-> In k (map fst (s_cfg s))) ->
  (exists v p x, In (v, p) (s_cfg s) /\ dget v kw = Some x /\ ((x < sp_low p)%Qc \/ (sp_high p <= x)%Qc)) ->
  fill w kw s = (s, Some EValueError).
Proof. exact fill_range_l. Qed.
Theorem C04_fill_rejected : forall s kw w,
  wf_spectra s -> ~ valid_point (s_cfg s) kw ->
  fst (fill w kw s) = s /\
  (snd (fill w kw s) = Some EException \/ snd (fill w kw s) = Some EValueError).
Proof. exact fill_rejected_l. Qed.

(** C05: a new spectrum filled by any history of calls is the histogram of the accepted
    ones. *)
Theorem C05_history_from_empty : forall name n c bg s h,
  wf_cfg c -> new_spectra name n c bg = Ok s ->
  (forall idx, valid_idx (cfg_shape c) idx ->
     aget (s_data (run fill1 h s)) idx = weight_of (fun kw => accepted c kw && inside c kw idx) h) /\
  s_sum (run fill1 h s) = weight_of (accepted c) h.
Proof. exact fills_from_empty_l. Qed.
(** C05: the same, from any spectrum. *)
Theorem C05_history : forall h s,
  wf_spectra s ->
  same_meta s (run fill1 h s) /\
  (forall idx, valid_idx (ashape (s_data s)) idx ->
     aget (s_data (run fill1 h s)) idx =
     (aget (s_data s) idx + weight_of (fun kw => accepted (s_cfg s) kw && inside (s_cfg s) kw idx) h)%Qc) /\
  s_sum (run fill1 h s) = (s_sum s + weight_of (accepted (s_cfg s)) h)%Qc.
Proof. exact fills_history. Qed.
(** C05: the booleans used above are the stated conditions. *)
Theorem C05_accepted_spec : forall c kw, accepted c kw = true <-> valid_point c kw.
Proof. exact accepted_iff. Qed.
Theorem C05_inside_spec : forall c kw idx, inside c kw idx = true <-> point_in_bin c kw idx.
Proof. exact inside_iff. Qed.
(** C05: order does not matter. *)
Theorem C05_order : forall h h' s,
  wf_spectra s -> Permutation h h' -> same_spectra (run fill1 h s) (run fill1 h' s).
Proof. exact fills_order_l. Qed.

(** A two-dimensional spectrum meeting the hypotheses, with a fill, a rejected fill and a
    history. *)
Definition ex_cfg : sconfig :=
  [("energy_mc", SPar (zq 0) (zq 10) 10); ("radial_mc", SPar (zq 0) (zq 6) 3)].
Example C03_ex : exists s, new_spectra "b_mc" (zq 100) ex_cfg None = Ok s /\ wf_spectra s /\
  valid_point (s_cfg s) [("radial_mc", zq 3); ("energy_mc", qq 9 2)] /\
  this (aget (s_data (fst (fill (zq 2) [("radial_mc", zq 3); ("energy_mc", qq 9 2)] s))) [4; 1]) = this (zq 2).
Proof.
  destruct (new_spectra_ok "b_mc" (zq 100) ex_cfg None) as (s & E & W & _).
  - split; [repeat constructor; cbn; intuition congruence|].
    repeat constructor; vm_compute; reflexivity.
  - exists s. split; [exact E|]. split; [exact W|]. vm_compute in E. injection E as <-.
    split; [apply accepted_iff; vm_compute; reflexivity|vm_compute; reflexivity].
Qed.
Example C04_ex :
  snd (fill 1%Qc [("energy_mc", qq 9 2)] (Spec "b" None ex_cfg (azeros [10; 3]) 1 0 0 [])) = Some EException /\
  snd (fill 1%Qc [("energy_mc", zq 10); ("radial_mc", zq 1)] (Spec "b" None ex_cfg (azeros [10; 3]) 1 0 0 [])) = Some EValueError.
Proof. split; vm_compute; reflexivity. Qed.
Example C05_ex :
  let h := [(zq 2, [("energy_mc", qq 9 2); ("radial_mc", zq 3)]); (zq 5, [("energy_mc", zq 10); ("radial_mc", zq 3)]);
            (zq 1, [("energy_mc", zq 4); ("radial_mc", zq 2)])] in
  this (weight_of (accepted ex_cfg) h) = this (zq 3) /\
  this (weight_of (fun kw => accepted ex_cfg kw && inside ex_cfg kw [4; 1]) h) = this (zq 3).
Proof. split; vm_compute; reflexivity. Qed.

Print Assumptions C03_fill_one_bin.
Print Assumptions C04_fill_rejected.
Print Assumptions C05_history_from_empty.
Print Assumptions C05_order.

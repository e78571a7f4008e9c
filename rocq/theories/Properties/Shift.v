(** C25, C26: shifting and scaling an axis. *)
From Verif Require Import Model.Base Model.PyStr Model.NDArray Model.Param Model.Config Model.Spectra Model.Smear Model.Shift.
From Verif Require Import Spec.AxisSpec Spec.ArraySpec Spec.SpectraSpec Spec.SmearSpec Spec.ShiftSpec Proofs.ShiftLemmas.
Local Open Scope string_scope.

(** C25: a shift by [d] bins translates the histogram by [d] bins along the axis, drops
    what leaves it and fills zeros; everything else (but the name) stays.  The shift may
    miss the multiple by what numpy.isclose tolerates. *)
Theorem C25_shift_bins : forall c k dim p suffix shift d s,
  wf_spectra s -> s_cfg s = c -> nth_error c k = Some (dim, p) -> nonneg s -> about_bins p shift d ->
  forall interp, exists s', shift_axis suffix shift interp dim s = Ok s' /\ shift_by_bin suffix shift dim s = Ok s' /\
    s_name s' = s_name s ++ suffix /\ same_but_name s s' /\
    forall idx, valid_idx (ashape (s_data s)) idx ->
      aget (s_data s') idx = moved (aget (s_data s)) k (sp_bins p) d idx.
Proof. exact shift_l. Qed.
(** C25: a zero shift changes nothing but the name. *)
Theorem C25_shift_zero : forall c k dim p suffix s,
  wf_spectra s -> s_cfg s = c -> nth_error c k = Some (dim, p) -> nonneg s ->
  forall interp, exists s', shift_axis suffix 0 interp dim s = Ok s' /\ same_but_name s s' /\
    forall idx, valid_idx (ashape (s_data s)) idx -> aget (s_data s') idx = aget (s_data s) idx.
Proof. exact shift_zero_l. Qed.
(** C25: two shifts in the same direction are one shift by the sum. *)
Theorem C25_shift_twice : forall c k dim p suffix suffix' sa sb a b s,
  wf_spectra s -> s_cfg s = c -> nth_error c k = Some (dim, p) -> nonneg s ->
  about_bins p sa a -> about_bins p sb b -> (0 <= a * b)%Z ->
  forall interp interp', exists s1 s2,
    shift_axis suffix sa interp dim s = Ok s1 /\ shift_axis suffix' sb interp' dim s1 = Ok s2 /\
    same_but_name s s2 /\
    forall idx, valid_idx (ashape (s_data s)) idx ->
      aget (s_data s2) idx = moved (aget (s_data s)) k (sp_bins p) (a + b) idx.
Proof. exact shift_twice_l. Qed.

(** C25, why contents must be non-negative: a line of bins whose sum is not positive is
    dropped by the shift. *)
Definition neg_line : spectra :=
  Spec "b" None [("e", SPar (zq 0) (zq 2) 2); ("r", SPar (zq 0) (zq 2) 2)]
       (ND [2; 2] (fun idx => if idx_eqb idx [0; 0] then zq 1 else if idx_eqb idx [0; 1] then zq (-1) else 0%Qc))
       (zq 1) 1 0 [].
Theorem C25_negative_refuted :
  ~ (forall s s', wf_spectra s -> shift_axis "_shift0" 0 (fun x => x) "e" s = Ok s' ->
       forall idx, valid_idx (ashape (s_data s)) idx -> aget (s_data s') idx = aget (s_data s) idx).
Proof.
  intro H. specialize (H neg_line).
  destruct (shift_axis "_shift0" 0 (fun x => x) "e" neg_line) as [s'|e] eqn:E; [|vm_compute in E; discriminate].
  assert (X : aget (s_data s') [0; 0] = aget (s_data neg_line) [0; 0]).
  { apply H; [|reflexivity|repeat constructor].
    split; [split; [repeat constructor; cbn; intuition congruence|]|reflexivity].
    repeat constructor; vm_compute; reflexivity. }
  vm_compute in E. injection E as <-. vm_compute in X. discriminate.
Qed.

(** C26: an interpolated shift keeps total, number of decays, description and sign of the
    contents, whatever the interpolation returns - or its result is empty and cannot be
    normalised (numpy then yields nan). *)
Theorem C26_shift_interpolated : forall c k dim p suffix shift interp s,
  wf_spectra s -> s_cfg s = c -> nth_error c k = Some (dim, p) -> (qq 2 1000000 <= bin_width p)%Qc ->
  is_multiple shift (bin_width p) = Ok false ->
  (exists s', shift_axis suffix shift interp dim s = Ok s' /\ s_name s' = s_name s ++ suffix /\
     same_but_name s s' /\ s_sum s' = s_sum s /\ (nonneg s -> nonneg s')) \/
  shift_axis suffix shift interp dim s = Err EZeroDivisionError.
Proof. exact shift_interp_l. Qed.
(** C26: the same for scaling an axis by any accepted factor. *)
Theorem C26_scale : forall c k dim p suffix sf interp s,
  wf_spectra s -> s_cfg s = c -> nth_error c k = Some (dim, p) -> (qq 2 1000000 <= bin_width p)%Qc ->
  set_scale_factor sf = Ok sf ->
  (exists s', scale_axis suffix sf interp dim s = Ok s' /\ s_name s' = s_name s ++ suffix /\
     same_but_name s s' /\ s_sum s' = s_sum s /\ (nonneg s -> nonneg s')) \/
  scale_axis suffix sf interp dim s = Err EZeroDivisionError.
Proof. exact scale_axis_l. Qed.
Theorem C26_scale_factor : forall sf, set_scale_factor sf = (if qlt 0 sf then Ok sf else Err EValueError).
Proof. exact scale_factor_l. Qed.

(** C26: without any condition on the spectrum: if the call returns, the total, the number
    of decays and the description are those of the original. *)
Theorem C26_shift_total : forall suffix shift interp dim s s' p step,
  get_par (s_cfg s) dim = Ok p -> get_width p = Ok step -> is_multiple shift step = Ok false ->
  shift_axis suffix shift interp dim s = Ok s' -> s_sum s' = s_sum s /\ same_but_name s s'.
Proof. exact shift_total_l. Qed.
Theorem C26_scale_total : forall suffix sf interp dim s s',
  scale_axis suffix sf interp dim s = Ok s' -> s_sum s' = s_sum s /\ same_but_name s s'.
Proof. exact scale_total_l. Qed.

Definition ex_sh : spectra :=
  Spec "b_mc" None [("radial_mc", SPar (zq 0) (zq 2) 2); ("energy_mc", SPar (zq 0) (zq 5) 5)]
       (ND [2; 5] (fun idx => nq (nth 0 idx 0 + nth 1 idx 0))) (zq 6) 6 0 [].
Example ex_sh_ok : wf_spectra ex_sh /\ nonneg ex_sh /\ nth_error (s_cfg ex_sh) 1 = Some ("energy_mc", SPar (zq 0) (zq 5) 5) /\
  about_bins (SPar (zq 0) (zq 5) 5) (zq (-2)) (-2).
Proof.
  split; [split; [split; [repeat constructor; cbn; intuition congruence|]|reflexivity]; repeat constructor; vm_compute; reflexivity|].
  split; [intros idx _; apply QcLemmas.nq_nonneg|]. split; [reflexivity|].
  exists 0%Qc. split; [apply Qc_is_canon; reflexivity|]. repeat split; vm_compute; discriminate.
Qed.
Example C25_ex :
  match shift_axis "_shift-2.0" (zq (-2)) (fun x => x) "energy_mc" ex_sh with
  | Ok s' => map (fun i => this (aget (s_data s') [1; i])) [0; 1; 2; 3; 4] = map this [zq 3; zq 4; zq 5; zq 0; zq 0]
  | Err _ => False
  end.
Proof. vm_compute. reflexivity. Qed.
Example C26_ex :
  is_multiple (qq 3 4) (bin_width (SPar (zq 0) (zq 5) 5)) = Ok false /\
  match shift_axis "_shift0.75" (qq 3 4) (fun x => x) "energy_mc" ex_sh with
  | Ok s' => this (s_sum s') = this (zq 25) /\ this (s_decays s') = this (zq 6) /\ this (aget (s_data s') [1; 0]) = this 0%Qc
             /\ qlt 0 (aget (s_data s') [1; 4]) = true
  | Err _ => False
  end /\
  match scale_axis "_sf1.1" (qq 11 10) (fun x => x) "energy_mc" ex_sh with
  | Ok s' => this (s_sum s') = this (zq 25) /\ this (s_decays s') = this (zq 6)
  | Err _ => False
  end.
Proof. vm_compute. repeat split. Qed.

Print Assumptions C25_shift_bins.
Print Assumptions C25_shift_twice.
Print Assumptions C26_shift_interpolated.
Print Assumptions C26_scale.

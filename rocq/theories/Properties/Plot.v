(** C72: a picture of a spectrum shows its counts on its axes.  Missing for the full statement:
    two-dimensional pictures of more than three dimensions (C08 is false there), the ROOT surface
    with the dimensions not in the order of the configuration, matplotlib axes whose width is
    not a binary64 number and a limit spectrum on another axis; all four are refuted below. *)
From Coq Require Import ZArith Reals Lra.
From Flocq Require Import Core IEEE754.Binary IEEE754.Bits.
From Verif Require Import Model.Base Model.PyStr Model.NDArray Model.Param Model.Config Model.Spectra Model.FloatFill Model.Plot.
From Verif Require Import Spec.AxisSpec Spec.ArraySpec Spec.SpectraSpec Spec.FloatSpec Spec.PlotSpec.
From Verif Require Import Proofs.QcLemmas Proofs.FloatLemmas Proofs.PlotLemmas Proofs.PlotFloatLemmas.
Local Open Scope string_scope.

(** plot_root.plot_projection *)
Theorem C72_root_projection : forall s d p, has_axis s d p ->
  exists h, root_projection s d = Ok h /\ shows h p (counts s d).
Proof. intros s d p H. destruct (has_axis_nth _ _ _ H) as (W & axis & N). exact (root_projection_l s d axis p W N). Qed.
(** plot.plot_projection, in exact arithmetic *)
Theorem C72_mpl_projection : forall s d p, has_axis s d p ->
  exists b, mpl_projection s d = Ok b /\ draws b p (counts s d).
Proof. intros s d p H. destruct (has_axis_nth _ _ _ H) as (W & axis & N). exact (mpl_projection_l s d axis p W N). Qed.
(** The number of values given to matplotlib, in binary64: as many as there are bins if the bin width
    is a binary64 number. *)
Theorem C72_float_partial : forall low high n w,
  is_number low -> is_number high -> is_number (f_sub high low) -> (real low < real high)%R -> (1 <= n <= 2 ^ 53)%Z ->
  is_number w -> (real w * IZR n = real (f_sub high low))%R -> f_hist_ok low high n = true.
Proof. exact hist_exact_l. Qed.
(** Thirteen bins from 0 to 15 and 49 bins from 0 to 1: one value too many, the plot raises. *)
Definition fifteen : binary64 := b64_of_bits 0x402E000000000000.
Definition one : binary64 := b64_of_bits 0x3FF0000000000000.
Definition zero : binary64 := b64_of_bits 0.
Theorem C72_float_refuted : f_hist_ok zero fifteen 13 = false /\ f_hist_ok zero one 49 = false /\
  f_arange_len zero fifteen (f_width zero fifteen 13) = 14%Z.
Proof. repeat split; vm_compute; reflexivity. Qed.

(** plot.spectral_plot: every spectrum, the summed background and the sum.  [l] pairs the spectra with
    whether they are background. *)
Theorem C72_spectral : forall l dim p, l <> [] -> Forall (fun sb => has_axis (fst sb) dim p) l ->
  exists pl, spectral_plot l dim None = Ok pl /\
    Forall2 (fun sb b => draws b p (counts (fst sb) dim)) l (pl_spectra pl) /\
    draws (pl_bg pl) p (fun i => qsum (map (fun sb => counts (fst sb) dim i) (filter snd l))) /\
    draws (pl_sum pl) p (fun i => qsum (map (fun sb => counts (fst sb) dim i) l)) /\
    pl_limit pl = None.
Proof.
  intros l dim p NE F. destruct (spectral_plot_l l dim p None NE F Logic.I) as (pl & E & A & B & C & D).
  exists pl. repeat (split; [assumption|]). destruct (pl_limit pl); [destruct D|reflexivity].
Qed.
Theorem C72_spectral_limit_partial : forall l dim p s, l <> [] -> Forall (fun sb => has_axis (fst sb) dim p) l -> has_axis s dim p ->
  exists pl b, spectral_plot l dim (Some s) = Ok pl /\
    Forall2 (fun sb b => draws b p (counts (fst sb) dim)) l (pl_spectra pl) /\
    draws (pl_bg pl) p (fun i => qsum (map (fun sb => counts (fst sb) dim i) (filter snd l))) /\
    draws (pl_sum pl) p (fun i => qsum (map (fun sb => counts (fst sb) dim i) l)) /\
    pl_limit pl = Some b /\ draws b p (counts s dim).
Proof.
  intros l dim p s NE F H. destruct (spectral_plot_l l dim p (Some s) NE F) as (pl & E & A & B & C & D).
  { exists p. auto. }
  destruct (pl_limit pl) as [b|] eqn:EL; [|destruct D]. exists pl, b. auto 10.
Qed.
(** Spectra with different axes are never drawn together ... *)
Theorem C72_spectral_axes : forall l dim lim pl, spectral_plot l dim lim = Ok pl ->
  exists p, Forall (fun sb => get_par (s_cfg (fst sb)) dim = Ok p) l.
Proof. exact spectral_same_l. Qed.
(** A spectrum on another axis is refused, by an AssertionError (here Exception), whatever comes after. *)
Theorem C72_spectral_differ : forall s b l1 s' b' l2 dim lim p q,
  Forall (fun sb => get_par (s_cfg (fst sb)) dim = Ok p) ((s, b) :: l1) -> get_par (s_cfg s') dim = Ok q -> q <> p ->
  spectral_plot (((s, b) :: l1) ++ (s', b') :: l2) dim lim = Err EException.
Proof.
  intros s b l1 s' b' l2 dim lim p q F G N. unfold spectral_plot. replace (check_axes _ _ _) with (@Err unit EException); [reflexivity|]. symmetry.
  inversion_clear F as [|x l' G0 F']. cbn [fst app check_axes] in *. rewrite G0. cbn [rbind]. induction F' as [|[t c] l G1 F' IH]; cbn [app check_axes fst] in *.
  - rewrite G. cbn [rbind]. destruct (qeqP (sp_low q) (sp_low p)) as [E1|]; [|reflexivity]. destruct (qeqP (sp_high q) (sp_high p)) as [E2|]; [|reflexivity]. cbn [negb].
    destruct (Z.eqb_spec (sp_bins q) (sp_bins p)) as [E3|]; [|reflexivity]. exfalso. apply N. destruct p, q. cbn in *. congruence.
  - rewrite G1. cbn [rbind]. destruct (qeqP (sp_low p) (sp_low p)); [|contradiction]. destruct (qeqP (sp_high p) (sp_high p)); [|contradiction]. rewrite Z.eqb_refl. exact IH.
Qed.
(** ... but the axis of the limit is not looked at: it is drawn on the axis of the others. *)
Theorem C72_limit_refuted : forall l dim p s q, l <> [] -> Forall (fun sb => has_axis (fst sb) dim p) l ->
  has_axis s dim q -> sp_bins q = sp_bins p -> q <> p ->
  exists pl b, spectral_plot l dim (Some s) = Ok pl /\ pl_limit pl = Some b /\ draws b p (counts s dim) /\ ~ draws b q (counts s dim).
Proof.
  intros l dim p s q NE F H EB D. destruct (spectral_plot_l l dim p (Some s) NE F) as (pl & E & _ & _ & _ & L).
  { exists q. auto. }
  destruct (pl_limit pl) as [b|] eqn:EL; [|destruct L]. exists pl, b. repeat (split; [assumption|]).
  intros [Q1 _]. destruct L as [L1 _]. apply D. rewrite L1 in Q1.
  assert (Wq : wf_axis q) by (destruct (has_axis_nth _ _ _ H) as (W & axis & N); apply (nth_axis_wf _ _ _ _ W N)).
  assert (Wp : wf_axis p).
  { destruct l as [|[s0 b0] l]; [contradiction|]. inversion F as [|? ? F1 F2]; subst.
    destruct (has_axis_nth _ _ _ F1) as (W & axis & N); apply (nth_axis_wf _ _ _ _ W N). }
  symmetry. exact (same_edges p q Wp Wq (eq_sym EB) Q1).
Qed.

(** plot_root.plot_surface, the dimensions in the order of the configuration *)
Theorem C72_root_surface_partial : forall s d1 d2 a1 a2 p1 p2, wf_spectra s ->
  nth_error (s_cfg s) a1 = Some (d1, p1) -> nth_error (s_cfg s) a2 = Some (d2, p2) -> a1 < a2 -> length (s_cfg s) <= 3 ->
  exists h, root_surface s d1 d2 = Ok h /\ shows2 h p1 p2 (counts2 s d1 d2).
Proof. exact root_surface_l. Qed.
(** In the other order the picture is transposed. *)
Theorem C72_root_surface_transposed : forall s d1 d2 a1 a2 p1 p2, wf_spectra s ->
  nth_error (s_cfg s) a1 = Some (d1, p1) -> nth_error (s_cfg s) a2 = Some (d2, p2) -> a2 < a1 -> length (s_cfg s) <= 3 ->
  sp_bins p1 = sp_bins p2 ->
  exists h, root_surface s d1 d2 = Ok h /\ shows2 h p1 p2 (fun i j => counts2 s d1 d2 j i).
Proof. exact root_surface_swap_l. Qed.
(** plot.plot_surface: rows along y, columns along x, whichever order the dimensions are given in *)
Theorem C72_mpl_surface_partial : forall s d1 d2 p1 p2, wf_spectra s ->
  In (d1, p1) (s_cfg s) -> In (d2, p2) (s_cfg s) -> d1 <> d2 -> length (s_cfg s) <= 3 ->
  exists m px py, mpl_surface s d1 d2 = Ok m /\
    (m_xdim m = d1 /\ m_ydim m = d2 \/ m_xdim m = d2 /\ m_ydim m = d1) /\
    In (m_xdim m, px) (s_cfg s) /\ In (m_ydim m, py) (s_cfg s) /\ m_x m = centres px /\ m_y m = centres py /\
    m_rows m = map (fun j => map (fun i => counts2 s (m_xdim m) (m_ydim m) i j) (seq 0 (Z.to_nat (sp_bins px))))
                   (seq 0 (Z.to_nat (sp_bins py))).
Proof. exact mpl_surface_l. Qed.

(** A 2 x 2 spectrum with a single count at a = 0, b = 1. *)
Definition plotted : spectra := Spec "x" None [("a", SPar (zq 0) (zq 2) 2); ("b", SPar (zq 5) (zq 6) 2)]
  (ND [2; 2] (fun idx => match idx with [0; 1] => zq 7 | [1; 1] => zq 2 | _ => 0%Qc end)) 1 0 0 [].
Lemma plotted_wf : wf_spectra plotted.
Proof. split; [split; [repeat constructor; cbn; intuition congruence|repeat constructor; vm_compute; reflexivity]|reflexivity]. Qed.
Theorem C72_root_surface_refuted : wf_spectra plotted /\ exists h, root_surface plotted "b" "a" = Ok h /\
  ~ shows2 h (SPar (zq 5) (zq 6) 2) (SPar (zq 0) (zq 2) 2) (counts2 plotted "b" "a").
Proof.
  split; [exact plotted_wf|].
  destruct (C72_root_surface_transposed plotted "b" "a" 1 0 (SPar (zq 5) (zq 6) 2) (SPar (zq 0) (zq 2) 2) plotted_wf eq_refl eq_refl)
    as (h & E & S); [repeat constructor|repeat constructor|reflexivity|].
  exists h. split; [exact E|]. intro S'. destruct S as (_ & _ & _ & _ & _ & _ & S & _). destruct S' as (_ & _ & _ & _ & _ & _ & S' & _).
  specialize (S 1 0 eq_refl eq_refl). specialize (S' 1 0 eq_refl eq_refl). rewrite S in S'.
  apply (f_equal this) in S'. vm_compute in S'. discriminate.
Qed.
Example C72_ex : has_axis plotted "b" (SPar (zq 5) (zq 6) 2) /\
  map (fun i => this (counts plotted "b" i)) [0; 1] = map this [zq 0; zq 9] /\
  (match root_projection plotted "b" with Ok h => map (fun b => this (h1_at h b)) [0; 1; 2; 3]%Z | Err _ => [] end) = map this [zq 0; zq 0; zq 9; zq 0] /\
  (match mpl_projection plotted "b" with Ok b => map this (b_heights b) | Err _ => [] end) = map this [zq 0; zq 9] /\
  (match spectral_plot [(plotted, true); (plotted, false); (plotted, true)] "a" None with
   | Ok pl => (map this (b_heights (pl_bg pl)), map this (b_heights (pl_sum pl))) | Err _ => ([], []) end)
   = (map this [zq 14; zq 4], map this [zq 21; zq 6]) /\
  length (s_cfg plotted) <= 3.
Proof.
  split. { split; [exact plotted_wf|]. right. left. reflexivity. }
  repeat (split; [vm_compute; reflexivity|]). repeat constructor.
Qed.
(** A width that is a binary64 number: ten bins from 0 to 15. *)
Definition one_half : binary64 := b64_of_bits 0x3FF8000000000000.
Example C72_float_ex : is_number zero /\ is_number fifteen /\ is_number (f_sub fifteen zero) /\ is_number one_half /\
  (real zero < real fifteen)%R /\ (real one_half * IZR 10 = real (f_sub fifteen zero))%R /\ f_hist_ok zero fifteen 10 = true.
Proof.
  assert (R1 : real one_half = (3 / 2)%R) by (unfold real, one_half; cbn; unfold F2R; cbn; lra).
  assert (R2 : real (f_sub fifteen zero) = 15%R).
  { replace (f_sub fifteen zero) with fifteen by (vm_compute; reflexivity). unfold real, fifteen. cbn. unfold F2R. cbn. lra. }
  assert (R3 : real fifteen = 15%R) by (unfold real, fifteen; cbn; unfold F2R; cbn; lra).
  assert (R0 : real zero = 0%R) by (unfold real, zero; reflexivity).
  repeat (split; [vm_compute; reflexivity|]). rewrite R0, R1, R2, R3. split; [lra|]. split; [lra|]. vm_compute. reflexivity.
Qed.

Print Assumptions C72_root_projection.
Print Assumptions C72_mpl_projection.
Print Assumptions C72_float_partial.
Print Assumptions C72_float_refuted.
Print Assumptions C72_spectral.
Print Assumptions C72_spectral_limit_partial.
Print Assumptions C72_limit_refuted.
Print Assumptions C72_root_surface_partial.
Print Assumptions C72_root_surface_transposed.
Print Assumptions C72_mpl_surface_partial.
Print Assumptions C72_root_surface_refuted.
Print Assumptions C72_spectral_differ.

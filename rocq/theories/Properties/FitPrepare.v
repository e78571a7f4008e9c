(** C53: preparation of a fit: every spectrum is restricted to the region of interest, and what
    that does to the spectra of the caller. *)
From Verif Require Import Model.Base Model.PyStr Model.NDArray Model.Param Model.Config Model.Spectra
  Model.Smear Model.Shift Model.Heap Model.Minimise Model.Fit Model.FitPrepare.
From Verif Require Import Spec.AxisSpec Spec.ArraySpec Spec.SpectraSpec Spec.ShrinkSpec Spec.HeapSpec Spec.FitRunSpec Spec.FitSetSpec.
From Verif Require Import Proofs.QcLemmas Proofs.HeapLemmas Proofs.FitLemmas Proofs.RoiLemmas Proofs.FitSetLemmas Proofs.FitSetReady.
From Verif Require Import Proofs.FitRun Proofs.FitKinds.
Local Open Scope string_scope.

(** Making a fit: the data, the floating backgrounds and the signal are the spectra given,
    restricted to the region; the fixed background is the sum of the spectra of the dict,
    each restricted and scaled; the check of all spectra finds nothing.  [shrink] makes no
    difference. *)
Theorem C53_region : forall config given roi h data fixed floating signal c shrink,
  wf_heap h -> snd (check_roi None given) = Ok roi ->
  own_configs h (ol data ++ map fst fixed ++ floating ++ ol signal) ->
  Forall (can roi h) (ol data ++ map fst fixed ++ floating ++ ol signal) ->
  Forall (fixes roi c h) fixed -> (forall r, In r floating -> config r = None) ->
  exists z, new_fit config None given data fixed floating signal shrink h = (z, None) /\ fit_made roi h data fixed floating signal z /\
    (data <> None -> roi <> [] -> fixed <> [] \/ floating <> [] -> check_all_spectra config z = None).
Proof.
  intros config given roi h data fixed floating signal c shrink W R [O _] C F G.
  exact (new_fit_l config roi given h data fixed floating signal c W R O C F G shrink).
Qed.
(** The region is the dict given, with low before high. *)
Theorem C53_roi : forall old given, (forall d l, In (d, l) given -> length l = 2%nat) ->
  exists roi, snd (check_roi old given) = Ok roi /\
    Forall2 (fun g x => fst x = fst g /\ exists a b, snd g = [a; b] /\ ordered_pair a b (snd x)) given roi.
Proof. exact check_roi_l. Qed.

(** All spectra used in the fit have the binning of the data. *)
Theorem C53_binning : forall roi h d fixed floating signal z sd,
  fit_made roi h (Some d) fixed floating signal z -> abs h d = Some sd ->
  Forall (can roi h) (d :: map fst fixed ++ floating ++ ol signal) ->
  (forall r s, In r (map fst fixed ++ floating ++ ol signal) -> abs h r = Some s -> alike roi (s_cfg sd) (s_cfg s)) ->
  exists d', abs (z_heap z) d = Some d' /\ cut_axes roi (s_cfg sd) (s_cfg d') /\
    (forall r, In r (floating ++ ol signal) -> exists s', abs (z_heap z) r = Some s' /\ same_dims (s_cfg d') (s_cfg s')) /\
    (forall t ps, z_fixed z = Some (t, ps) -> exists T, abs (z_heap z) t = Some T /\ same_dims (s_cfg d') (s_cfg T)).
Proof. exact binning_l. Qed.

(** The fixed background, and what building it does to the spectra of the caller: their
    contents stay, but their axes become those of the region (C53_originals_refuted); nothing
    else changes. *)
Theorem C53_fixed : forall z c l, l <> [] -> wf_heap (z_heap z) -> Forall (fixes (the_roi z) c (z_heap z)) l -> own_configs (z_heap z) (map fst l) ->
  exists z' t ps T, make_fixed_background l true z = (z', None) /\ z_fixed z' = Some (t, ps) /\ wf_heap (z_heap z') /\
    abs (z_heap z') t = Some T /\ is_total (the_roi z) (z_heap z) l T /\ roi_axes (the_roi z) (s_cfg T) ps /\
    (forall r n, In (r, n) l -> exists s s', abs (z_heap z) r = Some s /\ abs (z_heap z') r = Some s' /\ only_config s s' /\ cut_axes (the_roi z) (s_cfg s) (s_cfg s')) /\
    (forall r s, abs (z_heap z) r = Some s -> ~ In (cfg_of (z_heap z) r) (map (cfg_of (z_heap z)) (map fst l)) -> abs (z_heap z') r = Some s).
Proof. exact fixed_thm_l. Qed.
(** So the spectra of the caller are unaffected if their axes already are the region. *)
Theorem C53_originals_partial : forall z c l z', wf_heap (z_heap z) -> Forall (fixes (the_roi z) c (z_heap z)) l -> own_configs (z_heap z) (map fst l) ->
  make_fixed_background l true z = (z', None) ->
  (forall r s, In r (map fst l) -> abs (z_heap z) r = Some s -> cut_axes (the_roi z) (s_cfg s) (s_cfg s)) ->
  forall r s, abs (z_heap z) r = Some s -> abs (z_heap z') r = Some s.
Proof. exact originals_thm_l. Qed.

(** What the check guarantees: the bounds of data, fixed background and signal are those of
    the region, within the tolerance. *)
Theorem C53_check : forall config z, check_all_spectra config z = None ->
  exists d dp, z_data z = Some (d, dp) /\
    forall x r ps, In x [z_data z; z_fixed z; z_signal z] -> x = Some (r, ps) ->
      exists s, abs (z_heap z) r = Some s /\
        forall dim lo hi, In (dim, (lo, hi)) (the_roi z) -> exists v p, In (v, p) (s_cfg s) /\ get_dim v = dim /\ close lo (sp_low p) /\ close hi (sp_high p).
Proof. exact check_thm_l. Qed.

(** A fit that has been made meets the hypotheses of C52_history_partial: after any history
    of evaluations it compares the data with the sum of the parts. *)
Theorem C53_ready : forall roi h z d fixed floating signal str pars owns dp,
  fit_made roi h (Some d) fixed floating signal z -> z_data z = Some (d, dp) -> floating <> [] -> length owns = length floating ->
  own_configs h (d :: map fst fixed ++ floating ++ ol signal) -> Forall (can roi h) (d :: map fst fixed ++ floating ++ ol signal) ->
  (forall sd s r, abs h d = Some sd -> In r (floating ++ ol signal) -> abs h r = Some s -> alike roi (s_cfg sd) (s_cfg s)) ->
  (forall r s, signal = Some r -> abs h r = Some s -> s_decays s <> 0%Qc) ->
  (forall i p, nth_error pars i = Some p -> In i (global_from 0 pars) -> exists f, q_kind p = KDerive f) ->
  (forall p, In p pars -> sees (q_kind p)) ->
  NoDup (map (bg_name h) (floating ++ ol signal)) -> ~ In None (map (bg_name h) (floating ++ ol signal)) ->
  prepared (fit_of str pars owns z d dp) (z_heap z).
Proof. intros roi h z d fixed floating signal str pars owns dp M D N L [O _]. now apply (ready_l roi h z d fixed floating signal str pars owns dp M D N L O). Qed.

(** ** Example *)
Definition ax : sconfig := [("energy_mc", SPar 0%Qc (zq 4) 4)].
Definition at_bin (n : Z) : dict Qc := [("energy_mc", qq (2 * n + 1) 2)].
(** Data, two fixed backgrounds, one floating background, signal. *)
Definition ex_calls : list call :=
  [CNew "data" (zq 9) ax None; CFill (zq 4) (at_bin 1) 0; CFill (zq 5) (at_bin 3) 0;
   CNew "th" (zq 2) ax (Some "th"); CFill (zq 1) (at_bin 0) 1; CFill (zq 1) (at_bin 1) 1;
   CNew "pb" (zq 6) ax (Some "pb"); CFill (zq 2) (at_bin 1) 2; CFill (zq 4) (at_bin 2) 2;
   CNew "2n2b_mc" (zq 4) ax None; CFill (zq 3) (at_bin 0) 3; CFill (zq 1) (at_bin 1) 3;
   CNew "0n2b" (zq 5) ax (Some "0n2b"); CFill (zq 5) (at_bin 2) 4].
Definition ex_heap : heap := fst (h_run ex_calls empty_heap).
Definition ex_given : rgiven := [("energy", [zq 3; 1%Qc])].
Definition ex_roi : rdict := [("energy", (1%Qc, zq 3))].
Definition ex_dict : list (nat * Qc) := [(1, zq 4); (2, zq 3)].
Definition no_config (_ : nat) : out := None.
Definition shows (h : heap) (r : nat) : spectra :=
  match abs h r with Some s => s | None => Spec "" None [] (ND [] (fun _ => 0%Qc)) 0%Qc 0 0 [] end.
Definition numbers (h : heap) (r : nat) : list Q := let a := s_data (shows h r) in map (fun i => this (aget a i)) (all_idx (ashape a)).
Definition bounds (h : heap) (r : nat) : list (string * (Q * Q * Z)) := map (fun vp => (fst vp, (this (sp_low (snd vp)), this (sp_high (snd vp)), sp_bins (snd vp)))) (s_cfg (shows h r)).

Lemma ex_wf : wf_heap ex_heap.
Proof. apply run_wf. exact empty_wf. Qed.
Lemma ex_abs r : (r < 5)%nat -> abs ex_heap r = Some (shows ex_heap r) /\ s_cfg (shows ex_heap r) = ax /\ ashape (s_data (shows ex_heap r)) = [4].
Proof. intro H. do 5 (destruct r as [|r]; [repeat split; reflexivity|]). exfalso. do 5 apply le_S_n in H. inversion H. Qed.
Lemma ax_wf : wf_cfg ax.
Proof. split; [repeat constructor; intros []|]. repeat constructor. Qed.
Lemma ax_ok : axes_ok ax.
Proof.
  split; [discriminate|]. split; [constructor; [exists 0%Z; apply Qc_is_canon; reflexivity|constructor]|].
  split; [repeat constructor; intros []|]. constructor; [exists "energy", "mc"; reflexivity|constructor].
Qed.
Lemma ax_suits a b : (0 <= a < b)%Z -> (b <= 4)%Z -> suits [("energy", (zq a, zq b))] ax.
Proof.
  intros [A B] C. split; [repeat constructor; intros []|]. intros d lo hi [I|[]]. injection I as <- <- <-. split; [now apply (proj1 (zq_lt _ _))|].
  exists "energy_mc", (SPar 0%Qc (zq 4) 4). split; [now left|]. split; [reflexivity|]. cbn. split; [rewrite <- zq_0; now apply (proj1 (zq_le _ _))|]. split; [now apply (proj1 (zq_le _ _))|].
  assert (W : bin_width (SPar 0%Qc (zq 4) 4) = 1%Qc) by (apply Qc_is_canon; reflexivity).
  split; [exists a|exists b]; unfold edge; rewrite W; cbn; ring.
Qed.
Lemma ex_can a b r : (0 <= a < b)%Z -> (b <= 4)%Z -> (r < 5)%nat -> restrictable [("energy", (zq a, zq b))] (shows ex_heap r).
Proof.
  intros A B R. destruct (ex_abs r R) as (E1 & E2 & E3). unfold restrictable, wf_spectra, consistent. rewrite E2, E3.
  split; [split; [exact ax_wf|reflexivity]|]. split; [exact ax_ok|now apply ax_suits].
Qed.
Ltac small := repeat constructor.
Ltac absent := let H := fresh in vm_compute; intro H; repeat (destruct H as [H|H]; [discriminate|]); exact H.
Ltac distinct := vm_compute; repeat (constructor; [absent|]); constructor.
Lemma ex_fixes a b rn : (0 <= a < b)%Z -> (b <= 4)%Z -> In rn ex_dict -> fixes [("energy", (zq a, zq b))] ax ex_heap rn.
Proof.
  intros A B I. assert (R : (fst rn < 5)%nat) by (destruct I as [<-|[<-|[]]]; small). exists (shows ex_heap (fst rn)). destruct (ex_abs _ R) as (E1 & E2 & E3).
  split; [exact E1|]. split; [now apply ex_can|]. split.
  - destruct I as [<-|[<-|[]]]; intro E; apply (f_equal this) in E; vm_compute in E; discriminate.
  - rewrite E2. unfold alike. constructor; [repeat split|constructor].
Qed.
Lemma ex_roi_is : ex_roi = [("energy", (zq 1, zq 3))].
Proof. unfold ex_roi. now rewrite zq_1. Qed.

Example C53_region_ex :
  (wf_heap ex_heap /\ snd (check_roi None ex_given) = Ok ex_roi /\
   own_configs ex_heap (ol (Some 0) ++ map fst ex_dict ++ [3] ++ ol (Some 4)) /\
   Forall (can ex_roi ex_heap) (ol (Some 0) ++ map fst ex_dict ++ [3] ++ ol (Some 4)) /\
   Forall (fixes ex_roi ax ex_heap) ex_dict) /\
  let z := fst (new_fit no_config None ex_given (Some 0) ex_dict [3] (Some 4) true ex_heap) in
  z_data z = Some (0, ["energy_mc"]) /\ z_fixed z = Some (5, ["energy_mc"]) /\ z_floating z = Some ([3], [["energy_mc"]]) /\ z_signal z = Some (4, ["energy_mc"]) /\
  map (numbers (z_heap z)) [0; 5; 3; 4] = [[4; 0]; [3; 2]; [1; 0]; [0; 5]]%Q /\
  map (bounds (z_heap z)) [0; 5; 3; 4] = repeat [("energy_mc", (1, 3, 2%Z))]%Q 4 /\ check_all_spectra no_config z = None.
Proof.
  split.
  - split; [exact ex_wf|]. split; [reflexivity|]. split; [split; [distinct|absent]|].
    rewrite ex_roi_is. split.
    + apply Forall_forall. intros r I. assert (R : (r < 5)%nat) by (cbn in I; repeat (destruct I as [<-|I]; [small|]); destruct I). exists (shows ex_heap r). split; [now apply ex_abs|now apply ex_can].
    + apply Forall_forall. intros rn I. now apply ex_fixes.
  - vm_compute. repeat split.
Qed.
(** With this region the fit of C52 can be run. *)
Definition ex_pars : list fitpar := [FitPar "rate_2n2b" false KRate (zq 4) None].
Example C53_ready_ex :
  let z := fst (new_fit no_config None ex_given (Some 0) ex_dict [3] (Some 4) true ex_heap) in
  (forall sd s r, abs ex_heap 0 = Some sd -> In r ([3] ++ ol (Some 4)) -> abs ex_heap r = Some s -> alike ex_roi (s_cfg sd) (s_cfg s)) /\
  NoDup (map (bg_name ex_heap) ([3] ++ ol (Some 4))) /\ ~ In None (map (bg_name ex_heap) ([3] ++ ol (Some 4))) /\
  (forall p, In p ex_pars -> sees (q_kind p)) /\
  rmap (fun oe => (map this (contents false (fst oe)), map this (contents false (snd oe)))) (fitted (fit_of (fun _ => "") ex_pars [[0]] z 0 ["energy_mc"]) (z_heap z) [zq 8]) =
    Ok ([4; 0]%Q, [5; 7]%Q).
Proof.
  intro z. split; [|split; [|split; [|split]]].
  - intros sd s r A I B. destruct (ex_abs 0) as (E1 & E2 & _); [small|]. assert (R : (r < 5)%nat) by (cbn in I; repeat (destruct I as [<-|I]; [small|]); destruct I).
    destruct (ex_abs r R) as (E3 & E4 & _). assert (sd = shows ex_heap 0) as -> by congruence. assert (s = shows ex_heap r) as -> by congruence. rewrite E2, E4.
    constructor; [repeat split|constructor].
  - distinct.
  - absent.
  - intros p [<-|[]]. exact sees_rate.
  - vm_compute. reflexivity.
Qed.

(** ** What does not hold *)
(** The fixed background is built from copies, but copies share the axes: a spectrum the
    caller passes keeps its four bins and loses two of them from its axes. *)
Definition ex_z : fitset := FitSet ex_heap (Some ex_roi) None None None None.
Theorem C53_originals_refuted :
  exists z c l z' r n s s', (wf_heap (z_heap z) /\ Forall (fixes (the_roi z) c (z_heap z)) l /\ own_configs (z_heap z) (map fst l)) /\
    make_fixed_background l true z = (z', None) /\ In (r, n) l /\ abs (z_heap z) r = Some s /\ abs (z_heap z') r = Some s' /\
    s_cfg s' <> s_cfg s /\ wf_spectra s /\ ~ consistent s'.
Proof.
  pose (z' := fst (make_fixed_background ex_dict true ex_z)). exists ex_z, ax, ex_dict, z', 1, (zq 4), (shows ex_heap 1), (shows (z_heap z') 1).
  split. { split; [exact ex_wf|]. split; [|split; [distinct|absent]].
           unfold ex_z, the_roi. cbn [z_roi z_heap]. rewrite ex_roi_is. apply Forall_forall. intros rn I. now apply ex_fixes. }
  split. { assert (E : snd (make_fixed_background ex_dict true ex_z) = None) by (vm_compute; reflexivity). rewrite <- E. apply surjective_pairing. }
  split; [now left|]. split; [now apply ex_abs; small|]. split; [reflexivity|]. split; [|split].
  - intro E. apply (f_equal (map (fun vp => sp_bins (snd vp)))) in E. vm_compute in E. discriminate.
  - apply (ex_can 1 3); [split; [discriminate|reflexivity]|discriminate|small].
  - unfold consistent. intro E. vm_compute in E. discriminate.
Qed.

(** Two spectra made with one configuration object: the axes are cut once, the contents of
    the second spectrum are then cut by the axes that are already cut, so its first bins are
    taken instead of those of the region. *)
Definition sh_calls : list call :=
  [CNew "th" (zq 2) ax (Some "th"); CFill (zq 1) (at_bin 0) 0; CFill (zq 1) (at_bin 1) 0;
   CNewOn "pb" (zq 6) 0 (Some "pb"); CFill (zq 2) (at_bin 1) 1; CFill (zq 4) (at_bin 2) 1].
Definition sh_z : fitset := FitSet (fst (h_run sh_calls empty_heap)) (Some ex_roi) None None None None.
Definition sh_dict : list (nat * Qc) := [(0, zq 2); (1, zq 6)].
Theorem C53_shared_refuted :
  exists z l z' t ps, wf_heap (z_heap z) /\ make_fixed_background l true z = (z', None) /\ z_fixed z' = Some (t, ps) /\
    map (numbers (z_heap z)) (map fst l) = [[1; 1; 0; 0]; [0; 2; 4; 0]]%Q /\ map (fun rn => s_decays (shows (z_heap z) (fst rn))) l = map snd l /\
    the_roi z = [("energy", (1%Qc, zq 3))] /\
    (* 3 and 4 are in the region *)
    bounds (z_heap z') t = [("energy_mc", (1, 3, 2%Z))]%Q /\ numbers (z_heap z') t = [1; 2]%Q.
Proof.
  pose (z' := fst (make_fixed_background sh_dict true sh_z)). exists sh_z, sh_dict, z', 2, ["energy_mc"].
  split; [apply run_wf; exact empty_wf|].
  split. { assert (E : snd (make_fixed_background sh_dict true sh_z) = None) by (vm_compute; reflexivity). rewrite <- E. apply surjective_pairing. }
  split; [reflexivity|]. split; [vm_compute; reflexivity|]. split; [reflexivity|]. split; [reflexivity|]. split; vm_compute; reflexivity.
Qed.

(** The checks accept spectra with different bins in the region. *)
Definition w_calls : list call := [CNew "data" (zq 9) ax None; CNew "th" (zq 2) [("energy_mc", SPar 0%Qc (zq 4) 8)] (Some "th")].
Theorem C53_widths_refuted :
  exists z h given l, wf_heap h /\ new_fit no_config None given (Some 0) l [] None true h = (z, None) /\ check_all_spectra no_config z = None /\
    exists t ps, z_fixed z = Some (t, ps) /\ bounds (z_heap z) 0 = [("energy_mc", (1, 3, 2%Z))]%Q /\ bounds (z_heap z) t = [("energy_mc", (1, 3, 4%Z))]%Q.
Proof.
  pose (h := fst (h_run w_calls empty_heap)). pose (f := new_fit no_config None ex_given (Some 0) [(1, 1%Qc)] [] None true h).
  exists (fst f), h, ex_given, [(1, 1%Qc)]. split; [apply run_wf; exact empty_wf|].
  split. { assert (E : snd f = None) by (vm_compute; reflexivity). rewrite <- E. apply surjective_pairing. }
  split; [vm_compute; reflexivity|]. exists 2, ["energy_mc"]. split; [vm_compute; reflexivity|]. split; vm_compute; reflexivity.
Qed.
(** set_signal with shrink = False makes no check at all. *)
Theorem C53_signal_refuted :
  exists z r z' s, wf_heap (z_heap z) /\ set_signal r false z = (z', None) /\ abs (z_heap z') r = Some s /\ the_roi z = ex_roi /\ bounds (z_heap z') r = [("energy_mc", (0, 4, 4%Z))]%Q /\
    z_signal z' = Some (r, ["energy_mc"]).
Proof.
  exists ex_z, 4, (fst (set_signal 4 false ex_z)), (shows ex_heap 4). split; [exact ex_wf|].
  split. { assert (E : snd (set_signal 4 false ex_z) = None) by (vm_compute; reflexivity). rewrite <- E. apply surjective_pairing. }
  split; [reflexivity|]. split; [reflexivity|]. split; vm_compute; reflexivity.
Qed.
(** Fit(shrink=False) changes the spectra it is given all the same. *)
Theorem C53_no_shrink_refuted :
  exists z h, wf_heap h /\ new_fit no_config None ex_given (Some 0) [] [3] None false h = (z, None) /\
    bounds h 0 = [("energy_mc", (0, 4, 4%Z))]%Q /\ bounds (z_heap z) 0 = [("energy_mc", (1, 3, 2%Z))]%Q.
Proof.
  pose (f := new_fit no_config None ex_given (Some 0) [] [3] None false ex_heap). exists (fst f), ex_heap. split; [exact ex_wf|].
  split. { assert (E : snd f = None) by (vm_compute; reflexivity). rewrite <- E. apply surjective_pairing. }
  split; vm_compute; reflexivity.
Qed.
(** An entry of the wrong length is not reported as CompatibilityError. *)
Theorem C53_roi_length_refuted :
  snd (check_roi None [("energy", [1%Qc])]) = Err EAttributeError /\
  forall old d l r, dget d old = None -> length l <> 2%nat -> snd (check_roi (Some old) ((d, l) :: r)) = Err EKeyError.
Proof.
  split; [reflexivity|]. intros old d l r H L. destruct l as [|a [|b [|c l]]]; try (exfalso; apply L; reflexivity); cbn; now rewrite H.
Qed.

Example C53_fixed_ex :
  let z' := fst (make_fixed_background ex_dict true ex_z) in
  numbers (z_heap z') 5 = [3; 2]%Q /\ map (numbers (z_heap z')) [1; 2] = map (numbers ex_heap) [1; 2] /\ bounds (z_heap z') 1 = [("energy_mc", (1, 3, 2%Z))]%Q.
Proof. vm_compute. repeat split. Qed.
(** A region that is the whole axis. *)
Definition ex_all : fitset := FitSet ex_heap (Some [("energy", (zq 0, zq 4))]) None None None None.
Example C53_originals_ex :
  (Forall (fixes (the_roi ex_all) ax (z_heap ex_all)) ex_dict /\ own_configs (z_heap ex_all) (map fst ex_dict) /\ snd (make_fixed_background ex_dict true ex_all) = None /\
   (forall r s, In r (map fst ex_dict) -> abs (z_heap ex_all) r = Some s -> cut_axes (the_roi ex_all) (s_cfg s) (s_cfg s))) /\
  numbers (z_heap (fst (make_fixed_background ex_dict true ex_all))) 5 = [2; 3; 2; 0]%Q.
Proof.
  split; [|vm_compute; reflexivity]. split; [apply Forall_forall; intros rn I; apply ex_fixes; [split; [discriminate|reflexivity]|discriminate|exact I]|].
  split; [split; [distinct|absent]|]. split; [vm_compute; reflexivity|].
  intros r s I A. assert (R : (r < 5)%nat) by (cbn in I; repeat (destruct I as [<-|I]; [small|]); destruct I). destruct (ex_abs r R) as (E1 & E2 & _).
  assert (s = shows ex_heap r) as -> by (unfold ex_all in A; cbn [z_heap] in A; congruence). rewrite E2. constructor; [|constructor]. repeat split.
Qed.

Print Assumptions C53_region.
Print Assumptions C53_roi.
Print Assumptions C53_binning.
Print Assumptions C53_fixed.
Print Assumptions C53_originals_partial.
Print Assumptions C53_check.
Print Assumptions C53_ready.
Print Assumptions C53_originals_refuted.
Print Assumptions C53_shared_refuted.
Print Assumptions C53_widths_refuted.
Print Assumptions C53_signal_refuted.
Print Assumptions C53_no_shrink_refuted.
Print Assumptions C53_roi_length_refuted.

(** C84: the methods of a fit that take spectra: set_data, set_fixed_background, set_signal,
    set_floating_backgrounds, append_fixed_background, set_roi, and fit without floating
    backgrounds. *)
From Verif Require Import Model.Base Model.PyStr Model.NDArray Model.Param Model.Config Model.Spectra
  Model.Smear Model.Shift Model.Heap Model.Minimise Model.Fit Model.FitPrepare.
From Verif Require Import Spec.AxisSpec Spec.ArraySpec Spec.SpectraSpec Spec.ShrinkSpec Spec.HeapSpec Spec.FitRunSpec Spec.FitSetSpec Spec.FitMethodSpec.
From Verif Require Import Proofs.QcLemmas Proofs.HeapLemmas Proofs.FitLemmas Proofs.RoiLemmas Proofs.FitSetLemmas Proofs.FitMethods.
From Verif Require Import Properties.FitPrepare.
Local Open Scope string_scope.

(** With shrink, the spectrum is restricted to the region and becomes the data, the fixed
    background or the signal; no other attribute and no other spectrum changes. *)
Theorem C84_set : forall k r z s, wf_heap (z_heap z) -> abs (z_heap z) r = Some s -> restrictable (the_roi z) s ->
  exists z' s' ps, set_slot k r true z = (z', None) /\ in_slot k z' = Some (r, ps) /\ other_slots k z z' /\ wf_heap (z_heap z') /\
    abs (z_heap z') r = Some s' /\ in_region (the_roi z) s s' /\ roi_axes (the_roi z) (s_cfg s') ps /\ others_same (z_heap z) (z_heap z') [r].
Proof. exact set_l. Qed.
(** A spectrum without an axis for a dimension of the region is refused: nothing changes. *)
Theorem C84_set_missing : forall k r z s, abs (z_heap z) r = Some s -> (exists d, In d (map fst (the_roi z)) /\ ~ has_dim (s_cfg s) d) ->
  set_slot k r true z = (z, Some EIndexError).
Proof. exact set_missing_l. Qed.
(** Without shrink, data and fixed background are accepted as they are if their bounds are
    those of the region within the tolerance, and refused otherwise; nothing else changes.
    (The signal is not checked: C53_signal_refuted.) *)
Theorem C84_checked : forall k r z s, k <> Signal -> abs (z_heap z) r = Some s -> named_axes (s_cfg s) ->
  (within (the_roi z) (s_cfg s) -> exists z' ps, set_slot k r false z = (z', None) /\ in_slot k z' = Some (r, ps) /\ other_slots k z z' /\
     z_heap z' = z_heap z /\ roi_axes (the_roi z) (s_cfg s) ps) /\
  (~ within (the_roi z) (s_cfg s) -> exists e, set_slot k r false z = (z, Some e) /\
     (e = EValueError \/ e = EIndexError /\ exists d, In d (map fst (the_roi z)) /\ ~ has_dim (s_cfg s) d)).
Proof. exact checked_l. Qed.

(** set_floating_backgrounds restricts every background; an exception for one of them, from
    its configuration or because an axis is missing, leaves the fit without the new
    backgrounds although those before it are restricted already. *)
Theorem C84_floating : forall config l z, wf_heap (z_heap z) -> Forall (can (the_roi z) (z_heap z)) l -> own_configs (z_heap z) l -> (forall r, In r l -> config r = None) ->
  exists z' pss, set_floating_backgrounds config l true z = (z', None) /\ z_floating z' = Some (l, pss) /\
    (z_roi z' = z_roi z /\ forall k, in_slot k z' = in_slot k z) /\ wf_heap (z_heap z') /\
    Forall2 (fun r ps => one_made (the_roi z) (z_heap z) (z_heap z') (Some r) (Some (r, ps))) l pss /\ others_same (z_heap z) (z_heap z') l.
Proof. exact floating_l. Qed.
Theorem C84_floating_stop : forall config a r b z e, wf_heap (z_heap z) -> Forall (can (the_roi z) (z_heap z)) a -> own_configs (z_heap z) (a ++ [r]) -> (forall r, In r a -> config r = None) ->
  (config r = Some e \/ config r = None /\ e = EIndexError /\ exists s d, abs (z_heap z) r = Some s /\ In d (map fst (the_roi z)) /\ ~ has_dim (s_cfg s) d) ->
  exists z', set_floating_backgrounds config (a ++ r :: b) true z = (z', Some e) /\ same_fit z z' /\ Forall (restricted (the_roi z) (z_heap z) (z_heap z')) a /\
    others_same (z_heap z) (z_heap z') a.
Proof. exact floating_stop_l. Qed.

(** append_fixed_background adds to the fixed background each spectrum, restricted to the
    region and scaled to its number of decays. *)
Theorem C84_append : forall z t ps T l, wf_heap (z_heap z) -> z_fixed z = Some (t, ps) -> abs (z_heap z) t = Some T -> wf_spectra T ->
  cut_axes (the_roi z) (s_cfg T) (s_cfg T) -> Forall (fixes (the_roi z) (s_cfg T) (z_heap z)) l -> own_configs (z_heap z) (t :: map fst l) ->
  (forall r, In r (map fst l) -> own_array (z_heap z) t r) ->
  exists z' T' parts, append_fixed_background l true z = (z', None) /\ same_fit z z' /\ wf_heap (z_heap z') /\
    abs (z_heap z') t = Some T' /\ wf_spectra T' /\ s_cfg T' = s_cfg T /\ s_name T' = s_name T /\
    Forall2 (fixed_part (the_roi z) (z_heap z)) l parts /\
    (forall i, valid_idx (cfg_shape (s_cfg T)) i -> aget (s_data T') i = (aget (s_data T) i + qsum (map (fun p => scaled_content p i) parts))%Qc) /\
    s_decays T' = (s_decays T + qsum (map snd l))%Qc /\
    (forall r n, In (r, n) l -> exists s s', abs (z_heap z) r = Some s /\ abs (z_heap z') r = Some s' /\ only_config s s' /\ cut_axes (the_roi z) (s_cfg s) (s_cfg s')) /\
    (forall r s, abs (z_heap z) r = Some s -> own_array (z_heap z) t r -> ~ In (cfg_of (z_heap z) r) (map (cfg_of (z_heap z)) (map fst l)) -> abs (z_heap z') r = Some s).
Proof. exact append_l. Qed.
(** Without a fixed background it raises AttributeError, after the axes of the first spectrum
    have been cut. *)
Theorem C84_append_none : forall z r n l s, wf_heap (z_heap z) -> z_fixed z = None -> abs (z_heap z) r = Some s -> restrictable (the_roi z) s -> s_decays s <> 0%Qc ->
  exists z' s', append_fixed_background ((r, n) :: l) true z = (z', Some EAttributeError) /\ same_fit z z' /\
    abs (z_heap z') r = Some s' /\ only_config s s' /\ cut_axes (the_roi z) (s_cfg s) (s_cfg s').
Proof. exact append_none_l. Qed.

(** set_roi replaces the region by the one given, low before high, and nothing else; an entry
    that is not a pair is refused and the old region stays. *)
Theorem C84_roi : forall g z, (forall d l, In (d, l) g -> length l = 2%nat) -> exists roi z', set_roi g z = (z', None) /\ z_roi z' = Some roi /\ z_heap z' = z_heap z /\
  (forall k, in_slot k z' = in_slot k z) /\ z_floating z' = z_floating z /\
  Forall2 (fun g x => fst x = fst g /\ exists a b, snd g = [a; b] /\ ordered_pair a b (snd x)) g roi.
Proof. exact set_roi_l. Qed.
Theorem C84_roi_wrong : forall g z, (exists d l, In (d, l) g /\ length l <> 2%nat) -> exists e, set_roi g z = (z, Some e) /\
  (z_roi z = None -> e = EAttributeError) /\ (forall o, z_roi z = Some o -> e = ECompatibilityError \/ e = EKeyError) /\
  (forall o, z_roi z = Some o -> (forall d l, In (d, l) g -> dget d o <> None) -> e = ECompatibilityError).
Proof. exact set_roi_wrong_l. Qed.

(** fit without floating backgrounds: the statistic of the data and of the fixed background
    plus the signal, all projected onto the axes of the region. *)
Theorem C84_fit : forall stat sb z d dp f fp sd sf o e, z_data z = Some (d, dp) -> z_fixed z = Some (f, fp) -> abs (z_heap z) d = Some sd -> abs (z_heap z) f = Some sf ->
  nd_project dp sd = Ok o -> nd_project fp sf = Ok e ->
  (z_signal z = None -> fit_fixed stat sb z = stat (contents sb o) (contents sb e)) /\
  (forall s sp ss a, z_signal z = Some (s, sp) -> abs (z_heap z) s = Some ss -> nd_project sp ss = Ok a ->
     (ashape a = ashape e -> exists x, ashape x = ashape e /\ (forall i, valid_idx (ashape x) i -> aget x i = (aget e i + aget a i)%Qc) /\
        fit_fixed stat sb z = stat (contents sb o) (contents sb x)) /\
     (ashape a <> ashape e -> fit_fixed stat sb z = Err EValueError)).
Proof. exact fit_fixed_l. Qed.
Theorem C84_fit_none : forall stat sb z, z_data z = None \/ z_fixed z = None -> fit_fixed stat sb z = Err EAttributeError.
Proof. exact fit_none_l. Qed.

(** The constructor: a wrong region or data without an axis of the region. *)
Theorem C84_new_roi : forall config values g data fixed floating signal shrink h, (exists d l, In (d, l) g /\ length l <> 2%nat) ->
  exists z, new_fit config values g data fixed floating signal shrink h = (z, Some EAttributeError) /\ z_heap z = h.
Proof. exact new_wrong_roi_l. Qed.
Theorem C84_new_missing : forall config values g roi d fixed floating signal shrink h s, snd (check_roi None g) = Ok roi -> abs h d = Some s ->
  (exists dim, In dim (map fst roi) /\ ~ has_dim (s_cfg s) dim) ->
  exists z, new_fit config values g (Some d) fixed floating signal shrink h = (z, Some EIndexError) /\ z_heap z = h.
Proof. exact new_missing_l. Qed.

(** ** Examples *)
(** The heap of C53: data, th, pb, 2n2b, signal; region 1 to 3 of 0 to 4. *)
Example C84_set_ex :
  wf_heap (z_heap ex_z) /\ abs (z_heap ex_z) 4 = Some (shows ex_heap 4) /\ restrictable (the_roi ex_z) (shows ex_heap 4) /\
  let z' := fst (set_slot Signal 4 true ex_z) in
  in_slot Signal z' = Some (4, ["energy_mc"]) /\ in_slot Data z' = None /\ numbers (z_heap z') 4 = [0; 5]%Q /\ bounds (z_heap z') 4 = [("energy_mc", (1, 3, 2%Z))]%Q.
Proof.
  split; [exact ex_wf|]. split; [now apply ex_abs; small|]. split; [|vm_compute; repeat split].
  change (the_roi ex_z) with ex_roi. rewrite ex_roi_is. apply ex_can; [split; [discriminate|reflexivity]|discriminate|small].
Qed.
Definition far : fitset := FitSet ex_heap (Some [("radial", (zq 0, zq 6000))]) None None None None.
Example C84_set_missing_ex : (exists d, In d (map fst (the_roi far)) /\ ~ has_dim (s_cfg (shows ex_heap 0)) d) /\ snd (set_slot Fixed 0 true far) = Some EIndexError.
Proof.
  split; [|vm_compute; reflexivity]. exists "radial". split; [now left|]. destruct (ex_abs 0) as (_ & -> & _); [small|]. intros (v & p & [I|[]] & D). injection I as <- <-. vm_compute in D. discriminate.
Qed.
Example C84_checked_ex :
  named_axes (s_cfg (shows ex_heap 0)) /\ within (the_roi ex_all) (s_cfg (shows ex_heap 0)) /\ ~ within (the_roi ex_z) (s_cfg (shows ex_heap 0)) /\
  in_slot Data (fst (set_slot Data 0 false ex_all)) = Some (0, ["energy_mc"]) /\ snd (set_slot Data 0 false ex_z) = Some EValueError.
Proof.
  destruct (ex_abs 0) as (_ & -> & _); [small|]. split; [split; apply ax_ok|]. split.
  - intros d lo hi [I|[]]. injection I as <- <- <-. exists "energy_mc", (SPar 0%Qc (zq 4) 4). split; [now left|]. split; [reflexivity|]. split; apply (proj1 (qle_iff _ _)); vm_compute; reflexivity.
  - split; [|split; vm_compute; reflexivity]. intro H. destruct (H "energy" 1%Qc (zq 3) (or_introl eq_refl)) as (v & p & [I|[]] & _ & L & _). injection I as <- <-.
    apply (proj2 (qle_iff _ _)) in L. vm_compute in L. discriminate.
Qed.
Definition second_wrong (r : nat) : out := if (r =? 4)%nat then Some ECompatibilityError else None.
Example C84_floating_ex :
  own_configs ex_heap [3; 4] /\ Forall (can ex_roi ex_heap) [3; 4] /\
  z_floating (fst (set_floating_backgrounds no_config [3; 4] true ex_z)) = Some ([3; 4], [["energy_mc"]; ["energy_mc"]]) /\
  snd (set_floating_backgrounds second_wrong [3; 4] true ex_z) = Some ECompatibilityError /\
  numbers (z_heap (fst (set_floating_backgrounds second_wrong [3; 4] true ex_z))) 3 = [1; 0]%Q /\
  z_floating (fst (set_floating_backgrounds second_wrong [3; 4] true ex_z)) = None.
Proof.
  split; [split; [distinct|absent]|]. split; [|vm_compute; repeat split].
  rewrite ex_roi_is. apply Forall_forall. intros r I. assert (R : (r < 5)%nat) by (cbn in I; repeat (destruct I as [<-|I]; [small|]); destruct I).
  exists (shows ex_heap r). split; [now apply ex_abs|]. apply ex_can; [split; [discriminate|reflexivity]|discriminate|exact R].
Qed.
(** The fixed background made of th, to which pb is appended. *)
Definition ex_th : fitset := fst (make_fixed_background [(1, zq 4)] true ex_z).
Example C84_append_ex :
  (wf_heap (z_heap ex_th) /\ z_fixed ex_th = Some (5, ["energy_mc"]) /\ cut_axes (the_roi ex_th) (s_cfg (shows (z_heap ex_th) 5)) (s_cfg (shows (z_heap ex_th) 5)) /\
   own_configs (z_heap ex_th) [5; 2] /\ own_array (z_heap ex_th) 5 2) /\
  numbers (z_heap ex_th) 5 = [2; 0]%Q /\ numbers (z_heap ex_th) 2 = [0; 2; 4; 0]%Q /\
  numbers (z_heap (fst (append_fixed_background [(2, zq 3)] true ex_th))) 5 = [3; 2]%Q /\
  this (s_decays (shows (z_heap (fst (append_fixed_background [(2, zq 3)] true ex_th))) 5)) = 7%Q /\
  snd (append_fixed_background [(2, zq 3)] true ex_z) = Some EAttributeError.
Proof.
  split; [|vm_compute; repeat split].
  split. { destruct (C53_fixed ex_z ax [(1, zq 4)]) as (z' & t & ps & T & E & _ & W & _); [discriminate|exact ex_wf| |split; [distinct|absent]|unfold ex_th; now rewrite E].
           change (the_roi ex_z) with ex_roi. rewrite ex_roi_is. constructor; [|constructor]. apply ex_fixes; [split; [discriminate|reflexivity]|discriminate|now left]. }
  split; [vm_compute; reflexivity|]. split.
  - assert (Y : map fst (s_cfg (shows (z_heap ex_th) 5)) = ["energy_mc"] /\ map (fun vp => (this (sp_low (snd vp)), this (sp_high (snd vp)))) (s_cfg (shows (z_heap ex_th) 5)) = [(1, 3)]%Q) by (split; vm_compute; reflexivity).
    destruct Y as [Y1 Y2]. destruct (s_cfg (shows (z_heap ex_th) 5)) as [|[v p] [|? ?]]; try discriminate Y1. cbn [map fst snd] in Y1, Y2.
    assert (v = "energy_mc") as -> by congruence. pose proof (f_equal (fun l => fst (hd (0, 0)%Q l)) Y2) as L. pose proof (f_equal (fun l => snd (hd (0, 0)%Q l)) Y2) as H. cbn in L, H.
    constructor; [|constructor]. cbn. split; [reflexivity|]. split; [apply Qc_is_canon; rewrite L; reflexivity|]. split; [apply Qc_is_canon; rewrite H; reflexivity|reflexivity].
  - split; [split; [distinct|absent]|]. split; [discriminate|]. intros ot o A B. assert (Y : map o_buf (match nth_error (h_objs (z_heap ex_th)) 5 with Some o => [o] | None => [] end ++ match nth_error (h_objs (z_heap ex_th)) 2 with Some o => [o] | None => [] end) = [5; 2]) by (vm_compute; reflexivity).
    rewrite A, B in Y. cbn in Y. injection Y as -> ->. discriminate.
Qed.
Definition sum_stat (o e : list Qc) : res sres := Ok (RNum (qsum o - qsum e)%Qc).
Definition ex_fit : fitset := fst (new_fit no_config None ex_given (Some 0) ex_dict [] (Some 4) true ex_heap).
Example C84_fit_ex :
  rmap (fun x => match x with RNum q => this q | RArr _ => 0%Q end) (fit_fixed sum_stat false ex_fit) = Ok (-6)%Q /\
  rmap (fun x => match x with RNum q => this q | RArr _ => 0%Q end) (fit_fixed sum_stat true ex_fit) = Ok (-6)%Q /\
  z_fixed ex_fit = Some (5, ["energy_mc"]) /\ map (numbers (z_heap ex_fit)) [0; 5; 4] = [[4; 0]; [3; 2]; [0; 5]]%Q /\ fit_fixed sum_stat false ex_z = Err EAttributeError.
Proof. vm_compute. repeat split. Qed.
Example C84_roi_ex :
  rmap (map (fun x => (fst x, this (fst (snd x)), this (snd (snd x))))) (match z_roi (fst (set_roi [("radial", [zq 5; zq 2])] ex_z)) with Some r => Ok r | None => Err EKeyError end) = Ok [("radial", 2, 5)]%Q /\
  snd (set_roi [("energy", [zq 5])] ex_z) = Some ECompatibilityError /\ snd (set_roi [("radial", [zq 5])] ex_z) = Some EKeyError /\
  snd (new_fit no_config None [("radial", [zq 5])] (Some 0) [] [] None true ex_heap) = Some EAttributeError /\
  snd (new_fit no_config None [("radial", [zq 5; zq 6])] (Some 0) [] [] None true ex_heap) = Some EIndexError.
Proof. vm_compute. repeat split. Qed.

Print Assumptions C84_set.
Print Assumptions C84_set_missing.
Print Assumptions C84_checked.
Print Assumptions C84_floating.
Print Assumptions C84_floating_stop.
Print Assumptions C84_append.
Print Assumptions C84_append_none.
Print Assumptions C84_roi.
Print Assumptions C84_roi_wrong.
Print Assumptions C84_fit.
Print Assumptions C84_fit_none.
Print Assumptions C84_new_roi.
Print Assumptions C84_new_missing.

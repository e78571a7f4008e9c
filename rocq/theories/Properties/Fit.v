(** C52, C64: the value of the fit function depends on the spectra and the parameter values only,
    not on what was evaluated before. *)
From Coq Require Import Lia.
From Verif Require Import Model.Base Model.PyStr Model.NDArray Model.Param Model.Config Model.Spectra
  Model.Smear Model.Shift Model.Heap Model.FitParam Model.Minimise Model.Fit.
From Verif Require Import Spec.AxisSpec Spec.ArraySpec Spec.SpectraSpec Spec.ShrinkSpec Spec.HeapSpec Spec.SearchSpec Spec.FitRunSpec.
From Verif Require Import Proofs.QcLemmas Proofs.HeapLemmas Proofs.FitLemmas Proofs.FitRun Proofs.FitKinds.
Local Open Scope string_scope.

(** After any history of evaluations the observed and expected spectra at [args] are the
    ones computed from the spectra the fit was given: the fixed background, plus every
    floating background with the global and its own parameters applied, plus the signal with
    the global parameters applied.  Partial: with two or more global parameters and a signal
    it is false (C52_globals_refuted); C52_signal_last is what holds then. *)
Theorem C52_history_partial : forall (ft : fit) (h : heap) (V : Qc -> Prop) (history : list (list Qc)) (args : list Qc),
  prepared ft h -> distinct_printing ft V -> Forall (good_args ft V) history -> good_args ft V args ->
  ft_signal ft = None \/ (length (global_pars ft) <= 1)%nat ->
  same_res same_pair (snd (spectra_of ft args (f_run ft history (f_start ft h)))) (fitted ft h args).
Proof. intros ft h V l args P D G A S. rewrite <- (fitted_all ft h args S). exact (history_l ft h V l args P D G A). Qed.

(** Without a floating background, or with more values than parameters, nothing is evaluated and no
    spectrum changes. *)
Theorem C64_refused : forall (ft : fit) stat pen per_bin single_bin (args : list Qc) (st : fstate),
  (ft_floating ft = [] -> objective ft stat pen per_bin single_bin st args = (st, Err EValueError)) /\
  (ft_floating ft <> [] -> (length (fs_cur st) < length args)%nat ->
     fs_heap (fst (objective ft stat pen per_bin single_bin st args)) = fs_heap st /\
     snd (objective ft stat pen per_bin single_bin st args) = Err EIndexError).
Proof.
  intros ft stat pen pb sb args st. unfold objective, funct, spectra_of. split; [intros ->; reflexivity|].
  intros N L. destruct (ft_floating ft) as [|p l]; [congruence|]. unfold mbind.
  assert (E : forall args cur, (length cur < length args)%nat -> snd (set_currents args cur) = Some EIndexError).
  { clear. induction args as [|v args IH]; intros [|c cur] H; cbn in *; try lia; [reflexivity|].
    specialize (IH cur ltac:(lia)). now destruct (set_currents args cur). }
  specialize (E args (fs_cur st) L). destruct (set_currents args (fs_cur st)) as [c o]. cbn in E. subst o. split; reflexivity.
Qed.
(** Any number of global parameters: the signal has only the last of them applied. *)
Theorem C52_signal_last : forall (ft : fit) (h : heap) (V : Qc -> Prop) (history : list (list Qc)) (args : list Qc),
  prepared ft h -> distinct_printing ft V -> Forall (good_args ft V) history -> good_args ft V args ->
  same_res same_pair (snd (spectra_of ft args (f_run ft history (f_start ft h)))) (fitted_last ft h args).
Proof. exact history_l. Qed.

(** What the expected spectrum is, bin by bin. *)
Theorem C52_bins : forall (ft : fit) (h : heap) (args : list Qc) (signal : part -> res ndarray) (e : ndarray),
  expected ft h args signal = Ok e ->
  exists fixed floating sig : list ndarray,
    match ft_fixed ft with
    | Some (r, pars) => exists a, (do s <- shown h r; nd_project pars s) = Ok a /\ fixed = [a]
    | None => fixed = []
    end /\
    Forall2 (fun p a => floating_contribution ft h args p = Ok a) (ft_floating ft) floating /\
    match ft_signal ft with Some p => exists a, signal p = Ok a /\ sig = [a] | None => sig = [] end /\
    Forall (fun a => ashape a = ashape e) (fixed ++ floating ++ sig) /\
    forall i, aget e i = qsum (map (fun a => aget a i) (fixed ++ floating ++ sig)).
Proof. exact expected_bins. Qed.

(** The number that is minimised: statistic and penalty, for any statistic and any penalty
    function, after any history; errors included. *)
Theorem C64_objective_partial : forall (ft : fit) (h : heap) (V : Qc -> Prop) stat pen per_bin single_bin
    (history : list (list Qc)) (args : list Qc),
  prepared ft h -> distinct_printing ft V -> Forall (good_args ft V) history -> good_args ft V args ->
  ft_signal ft = None \/ (length (global_pars ft) <= 1)%nat ->
  snd (funct ft stat pen per_bin single_bin args (f_run ft history (f_start ft h))) =
  value_of ft h stat pen per_bin single_bin args (fitted ft h args).
Proof.
  intros ft h V stat pen pb sb l args P D G A S. rewrite <- (fitted_all ft h args S).
  exact (objective_l ft h V stat pen pb sb l args P D G A).
Qed.

(** The grid search run on the fit itself, with its cache and its changing spectra: every
    grid point gets the value computed from the original spectra, and the first smallest of
    them is what is returned. *)
Theorem C64_search_partial : forall (ft : fit) (h : heap) (V : Qc -> Prop) stat pen per_bin single_bin
    g penf pars spec name use_numpy ls rs,
  prepared ft h -> distinct_printing ft V -> (ft_signal ft = None \/ (length (global_pars ft) <= 1)%nat) ->
  grid_of g pars ls -> Forall (good_args ft V) (combinations ls) ->
  Forall2 (fun v r => value_of ft h stat pen per_bin single_bin v (fitted ft h v) = Ok r) (combinations ls) rs ->
  Forall (fun rp => fits per_bin spec (fst rp)) rs -> Forall (fun l => l <> []) ls -> (use_numpy = true \/ ls <> []) ->
  penalties_defined penf pars ->
  exists st' s p k vals rp,
    minimise g (objective ft stat pen per_bin single_bin) penf (SS (f_start ft h) (new_search pars spec name per_bin use_numpy)) = (st', Ok (s, p)) /\
    nth_error (combinations ls) k = Some vals /\ nth_error rs k = Some rp /\
    map fp_best (gs_pars (ss_gs st')) = map Some vals /\
    (forall j, valid_idx (ashape s) j -> aget s j = content (fst rp) j) /\ aget p [] = snd rp /\
    (forall k' rp', nth_error rs k' = Some rp' ->
       (answer_total per_bin spec (fst rp) + snd rp <= answer_total per_bin spec (fst rp') + snd rp')%Qc /\
       ((k' < k)%nat -> (answer_total per_bin spec (fst rp) + snd rp < answer_total per_bin spec (fst rp') + snd rp')%Qc)) /\
    (forall k i v r q, nth_error (all_idx (map (@length Qc) ls)) k = Some i -> nth_error (combinations ls) k = Some v ->
       nth_error rs k = Some (r, q) -> reads (ss_gs st') i r q).
Proof.
  intros ft h V stat pen pb sb g penf pars spec name un ls rs P D S G GA F.
  apply (fit_search ft h V stat pen pb sb g penf pars spec name un ls rs P D G GA).
  clear - F S. induction F; constructor; [|assumption]. now rewrite (fitted_all ft h _ S).
Qed.

(** The parameter classes of the package see nothing but the spectrum as it is shown. *)
Theorem C52_kinds : forall str spline dim name_ly name_res sigma_ly sigma_res weight,
  sees KRate /\ sees (shift_kind str spline dim) /\ sees (scale_kind str spline dim) /\
  sees (resolution_kind name_ly name_res sigma_ly sigma_res weight dim).
Proof.
  intros. refine (conj sees_rate (conj (sees_shift _ _ _) (conj (sees_scale _ _ _) (sees_resolution _ _ _ _ _ _)))).
Qed.

(** ** Example *)
Definition ax : sconfig := [("energy_mc", SPar 0%Qc (zq 4) 4)].
Definition at_bin (n : Z) : dict Qc := [("energy_mc", qq (2 * n + 1) 2)].
(** Data, fixed background, two floating backgrounds, signal. *)
Definition ex_spectra : list call :=
  [CNew "data" (zq 9) ax None; CFill (zq 4) (at_bin 1) 0; CFill (zq 5) (at_bin 2) 0;
   CNew "fixed" (zq 2) ax (Some "th"); CFill (zq 2) (at_bin 0) 1;
   CNew "2n2b_mc" (zq 4) ax None; CFill (zq 3) (at_bin 0) 2; CFill (zq 1) (at_bin 1) 2;
   CNew "b8" (zq 2) ax (Some "b8"); CFill (zq 2) (at_bin 1) 3;
   CNew "0n2b" (zq 5) ax (Some "0n2b"); CFill (zq 5) (at_bin 2) 4].
Definition ex_heap : heap := fst (h_run ex_spectra empty_heap).
Definition ex_str (x : Qc) : string :=
  if qeq x 0 then "0.0" else if qeq x 1 then "1.0" else if qeq x (zq 2) then "2.0" else if qeq x (zq 4) then "4.0" else "8.0".
Definition ex_values : list Qc := [0%Qc; 1%Qc; zq 2; zq 4; zq 8].
Definition ex_V (x : Qc) : Prop := In x ex_values.
Definition zero_spline (_ _ : list Qc) (_ : Qc) : Qc := 0%Qc.
Definition p_shift : fitpar := FitPar "energy_shift" true (shift_kind ex_str zero_spline "energy_mc") 0%Qc (Some 1%Qc).
Definition p_rate (name : string) : fitpar := FitPar name false KRate (zq 4) None.
Definition ex_fit : fit := Fit ex_str [p_shift; p_rate "rate_2n2b"; p_rate "rate_b8"] 0 ["energy_mc"] (Some (1, ["energy_mc"]))
  [Part 2 [1] ["energy_mc"]; Part 3 [2] ["energy_mc"]] (Some (Part 4 [] ["energy_mc"])).
Definition ex_history : list (list Qc) :=
  [[0%Qc; zq 4; zq 2]; [1%Qc; zq 8; zq 4]; [1%Qc; zq 4; zq 8]; [0%Qc; zq 1; zq 1]].
Definition ex_args : list Qc := [1%Qc; zq 2; zq 4].
Definition chi2 (o e : list Qc) : res sres := Ok (RNum (qsum (zip_with (fun x y => (x - y) * (x - y))%Qc o e))).
Definition quad (v prior sigma : Qc) : Qc := ((v - prior) / sigma * ((v - prior) / sigma))%Qc.
(** Contents of a result, as rationals. *)
Definition numbers (x : res (ndarray * ndarray)) : res (list Q * list Q) :=
  rmap (fun oe => (map (fun q => this q) (contents false (fst oe)), map (fun q => this q) (contents false (snd oe)))) x.
Definition number (x : res (sres * Qc)) : res (Q * Q) :=
  rmap (fun y => (this (content (fst y) []), this (snd y))) x.

Lemma ex_printing ft : ft_str ft = ex_str -> distinct_printing ft ex_V.
Proof.
  intro E. split; rewrite E.
  - intros x y Hx Hy. unfold ex_V, ex_values in *. cbn [In] in Hx, Hy.
    repeat (destruct Hx as [<-|Hx]; [repeat (destruct Hy as [<-|Hy]; [vm_compute; intro; try reflexivity; discriminate|]); contradiction|]); contradiction.
  - intros x a b Hx. apply no_underscore. unfold ex_V, ex_values in Hx. cbn [In] in Hx.
    repeat (destruct Hx as [<-|Hx]; [vm_compute; reflexivity|]). contradiction.
Qed.

Lemma ex_wf : wf_heap ex_heap.
Proof. apply run_wf. exact empty_wf. Qed.
Definition shows (h : heap) (r : nat) : spectra :=
  match abs h r with Some s => s | None => Spec "" None [] (ND [] (fun _ => 0%Qc)) 0%Qc 0 0 [] end.
Lemma ex_abs r : (r < 5)%nat -> abs ex_heap r = Some (shows ex_heap r).
Proof. intro H. do 5 (destruct r as [|r]; [reflexivity|]). exfalso. do 5 apply le_S_n in H. inversion H. Qed.
Lemma ex_cfg r : (r < 5)%nat -> s_cfg (shows ex_heap r) = ax.
Proof. intro H. do 5 (destruct r as [|r]; [reflexivity|]). exfalso. do 5 apply le_S_n in H. inversion H. Qed.
Lemma ex_shape r : (r < 5)%nat -> ashape (s_data (shows ex_heap r)) = [4].
Proof. intro H. do 5 (destruct r as [|r]; [reflexivity|]). exfalso. do 5 apply le_S_n in H. inversion H. Qed.
Lemma ax_wf : wf_cfg ax.
Proof. split; [repeat constructor; intros []|]. repeat constructor. Qed.
Lemma ex_fit_ready r d : (r < 5)%nat -> (d < 5)%nat -> fit_ready (shows ex_heap d) (shows ex_heap r).
Proof.
  intros H K. unfold fit_ready, wf_spectra, consistent, same_axes. rewrite !ex_cfg, ex_shape by assumption.
  split; [split; [exact ax_wf|reflexivity]|]. split; [discriminate|]. split; [|split; [|split]].
  - constructor; [|constructor]. exists 0%Z. apply Qc_is_canon. reflexivity.
  - constructor; [|constructor]. now split.
  - repeat constructor. intros [].
  - constructor; [|constructor]. exists "energy", "mc". reflexivity.
Qed.
Ltac ex_lt := repeat constructor.
Lemma ex_prepared : prepared ex_fit ex_heap.
Proof.
  constructor.
  - exact ex_wf.
  - discriminate.
  - exists (shows ex_heap 0). split; [apply ex_abs; ex_lt|]. split.
    { split; [rewrite ex_cfg by ex_lt; exact ax_wf|]. unfold consistent. rewrite ex_shape, ex_cfg by ex_lt. reflexivity. }
    intros p Hp. assert (R : (pt_ref p < 5)%nat).
    { destruct Hp as [Hp|[_ Hp]]; [cbn in Hp; destruct Hp as [<-|[<-|[]]]; ex_lt|injection Hp as <-; ex_lt]. }
    exists (shows ex_heap (pt_ref p)). split; [now apply ex_abs|]. apply ex_fit_ready; [exact R|ex_lt].
  - intros r pars H. injection H as <- _. exists (shows ex_heap 1). apply ex_abs. ex_lt.
  - intros p H. injection H as <-. exists (shows ex_heap 4). split; [apply ex_abs; ex_lt|]. intros _ E.
    apply (f_equal this) in E. vm_compute in E. discriminate.
  - repeat constructor; cbn; intros H; repeat (destruct H as [H|H]; [discriminate|]); exact H.
  - cbn. intros H; repeat (destruct H as [H|H]; [discriminate|]); exact H.
  - intros r pars H. injection H as <- _. cbn. intros H; repeat (destruct H as [H|H]; [discriminate|]); exact H.
  - intros p H. injection H as <-. cbn. intros H; repeat (destruct H as [H|H]; [discriminate|]); exact H.
  - intros i p Hi H. cbn in Hi. destruct Hi as [<-|[]]. injection H as <-. eexists. reflexivity.
  - intros p H. cbn in H. destruct H as [<-|[<-|[<-|[]]]]; [apply sees_shift|exact sees_rate|exact sees_rate].
  - intros _. assert (E : map (name_of ex_heap) (all_parts ex_fit) = [Some "2n2b"; Some "b8"; Some "0n2b"]) by reflexivity.
    rewrite E. split.
    + repeat constructor; cbn; intros H; repeat (destruct H as [H|H]; [discriminate|]); exact H.
    + cbn. intros H; repeat (destruct H as [H|H]; [discriminate|]); exact H.
Qed.
Lemma ex_nonzero n : n <> 0%Z -> zq n <> 0%Qc.
Proof. intros H E. apply H. apply zq_inj. rewrite E. reflexivity. Qed.
Ltac ex_args :=
  split; [reflexivity|split; [repeat (constructor; [cbn; tauto|]); constructor|]];
  intros i p v Hp Hv Hk; do 3 (destruct i as [|i]; [cbn in Hp, Hv; injection Hp as <-; injection Hv as <-; try discriminate Hk; now apply ex_nonzero|]);
  destruct i; discriminate Hp.
Lemma ex_good : Forall (good_args ex_fit ex_V) ex_history /\ good_args ex_fit ex_V ex_args.
Proof.
  split; [|ex_args]. repeat (constructor; [ex_args|]). constructor.
Qed.
Example C52_ex :
  prepared ex_fit ex_heap /\ distinct_printing ex_fit ex_V /\ Forall (good_args ex_fit ex_V) ex_history /\ good_args ex_fit ex_V ex_args /\
  (length (global_pars ex_fit) <= 1)%nat /\
  (* 2 in bin 0; 3/2 and 1/2 in bins 1 and 2; 4 in bin 2; 5 in bin 3 *)
  numbers (fitted ex_fit ex_heap ex_args) = Ok ([0; 4; 5; 0]%Q, [2; 3 # 2; 9 # 2; 5]%Q) /\
  numbers (snd (spectra_of ex_fit ex_args (f_run ex_fit ex_history (f_start ex_fit ex_heap)))) = Ok ([0; 4; 5; 0]%Q, [2; 3 # 2; 9 # 2; 5]%Q) /\
  number (snd (funct ex_fit chi2 quad false false ex_args (f_run ex_fit ex_history (f_start ex_fit ex_heap)))) = Ok (71 # 2, 1)%Q.
Proof.
  split; [exact ex_prepared|]. split; [now apply ex_printing|]. split; [apply ex_good|]. split; [apply ex_good|]. split; [repeat constructor|].
  split; [vm_compute; reflexivity|]. split; vm_compute; reflexivity.
Qed.
(** The grid search: shifts 0 and 1, rates 2 and 4, 1 and 2. *)
Definition g_pars : list fpar :=
  [FPar "energy_shift" 0 (Some 1%Qc) 0 1 2 None None None None None None None None;
   FPar "rate_2n2b" (zq 4) None (zq 2) (zq 4) 2 None None None None None None None None;
   FPar "rate_b8" (zq 4) None 1 (zq 2) 2 None None None None None None None None].
Definition g_values : list (list Qc) := [[0%Qc; 1%Qc]; [zq 2; zq 4]; [1%Qc; zq 2]].
Definition no_log : fpar -> res (list Qc) := fun _ => Err EValueError.
Definition quad_res (v prior sigma : Qc) : res Qc := Ok (quad v prior sigma).
Definition ex_value (v : list Qc) : res (sres * Qc) := value_of ex_fit ex_heap chi2 quad false false v (fitted ex_fit ex_heap v).
Definition ex_answers : list (sres * Qc) := map (fun v => match ex_value v with Ok r => r | Err _ => (RNum 0%Qc, 0%Qc) end) (combinations g_values).
Lemma two_values (a b : Qc) : negb (Qeq_bool (this a) (this b)) = true -> NoDup [a; b].
Proof.
  intro H. constructor; [|constructor; [intros []|constructor]]. intros [E|[]]. rewrite E in H.
  rewrite (proj2 (Qeq_bool_iff (this a) (this a)) (Qeq_refl _)) in H. discriminate.
Qed.
Lemma answers_ok l : forallb (fun v => match ex_value v with Ok _ => true | _ => false end) l = true ->
  Forall2 (fun v r => ex_value v = Ok r) l (map (fun v => match ex_value v with Ok r => r | Err _ => (RNum 0%Qc, 0%Qc) end) l).
Proof.
  induction l as [|v l IH]; intro H; [constructor|]. cbn [forallb] in H. apply andb_prop in H as [H1 H2]. cbn [map].
  constructor; [destruct (ex_value v); [reflexivity|discriminate]|now apply IH].
Qed.
Lemma answers_fits l : forallb (fun v => match ex_value v with Ok (RNum _, _) => true | _ => false end) l = true ->
  Forall (fun rp => fits false [4] (fst rp)) (map (fun v => match ex_value v with Ok r => r | Err _ => (RNum 0%Qc, 0%Qc) end) l).
Proof.
  induction l as [|v l IH]; intro H; [constructor|]. cbn [forallb] in H. apply andb_prop in H as [H1 H2]. cbn [map].
  constructor; [destruct (ex_value v) as [[[|] ?]|]; try discriminate; reflexivity|now apply IH].
Qed.
Example C64_search_ex :
  grid_of no_log g_pars g_values /\ Forall (good_args ex_fit ex_V) (combinations g_values) /\
  Forall2 (fun v r => ex_value v = Ok r) (combinations g_values) ex_answers /\
  Forall (fun rp => fits false [4] (fst rp)) ex_answers /\ Forall (fun l => l <> []) g_values /\ penalties_defined quad_res g_pars /\
  match minimise no_log (objective ex_fit chi2 quad false false) quad_res (SS (f_start ex_fit ex_heap) (new_search g_pars [4] (Some "fit") false true)) with
  | (st, Ok (s, p)) => (this (aget s []), this (aget p [])) = (29 # 2, 0)%Q /\
      map (fun p => option_map (fun q => this q) (fp_best p)) (gs_pars (ss_gs st)) = [Some 0; Some 2; Some 2]%Q
  | _ => False
  end.
Proof.
  split. { unfold grid_of, g_pars, g_values. do 3 (constructor; [split; [|split; [apply two_values; reflexivity|reflexivity]];
      cbv [snd get_values fp_values truthy fp_logscale fp_logdev fp_low fp_high fp_bins orb]; vm_compute; repeat f_equal; apply Qc_is_canon; reflexivity|]).
    constructor. }
  split. { unfold g_values. cbn [combinations flat_map map app]. repeat (constructor; [ex_args|]). constructor. }
  split. { apply answers_ok. vm_compute. reflexivity. }
  split. { apply answers_fits. vm_compute. reflexivity. }
  split. { repeat (constructor; [discriminate|]). constructor. }
  split. { repeat (constructor; [intros v s _; eexists; reflexivity|]). constructor. }
  vm_compute. split; reflexivity.
Qed.

(** ** What the hypotheses exclude *)
Definition after (ft : fit) (history : list (list Qc)) (args : list Qc) : res (list Q * list Q) :=
  numbers (snd (spectra_of ft args (f_run ft history (f_start ft ex_heap)))).
Definition from_spectra (ft : fit) (args : list Qc) : res (list Q * list Q) := numbers (fitted ft ex_heap args).

(** Two global shifts by one bin each: the signal, in bin 1 of the data, should move by two
    bins like the backgrounds, but moves by one; already in the first evaluation. *)
Definition p_shift2 : fitpar := FitPar "energy_offset" true (shift_kind ex_str zero_spline "energy_mc") 0%Qc None.
Definition two_globals : fit := Fit ex_str [p_shift; p_shift2; p_rate "rate_2n2b"] 0 ["energy_mc"] None
  [Part 2 [2] ["energy_mc"]] (Some (Part 3 [] ["energy_mc"])).
Theorem C52_globals_refuted : exists ft args,
  prepared ft ex_heap /\ distinct_printing ft ex_V /\ good_args ft ex_V args /\
  from_spectra ft args = Ok ([0; 4; 5; 0]%Q, [0; 0; 3; 3]%Q) /\ after ft [] args = Ok ([0; 4; 5; 0]%Q, [0; 0; 5; 1]%Q).
Proof.
  exists two_globals, [1%Qc; 1%Qc; zq 4]. split; [|split; [now apply ex_printing|split; [ex_args|split; vm_compute; reflexivity]]].
  constructor.
  - exact ex_wf.
  - discriminate.
  - exists (shows ex_heap 0). split; [apply ex_abs; ex_lt|]. split.
    { split; [rewrite ex_cfg by ex_lt; exact ax_wf|]. unfold consistent. rewrite ex_shape, ex_cfg by ex_lt. reflexivity. }
    intros p Hp. assert (R : (pt_ref p < 5)%nat).
    { destruct Hp as [Hp|[_ Hp]]; [cbn in Hp; destruct Hp as [<-|[]]; ex_lt|injection Hp as <-; ex_lt]. }
    exists (shows ex_heap (pt_ref p)). split; [now apply ex_abs|]. apply ex_fit_ready; [exact R|ex_lt].
  - discriminate.
  - intros p H. injection H as <-. exists (shows ex_heap 3). split; [apply ex_abs; ex_lt|]. intros _ E.
    apply (f_equal this) in E. vm_compute in E. discriminate.
  - repeat constructor; cbn; intros H; repeat (destruct H as [H|H]; [discriminate|]); exact H.
  - cbn. intros H; repeat (destruct H as [H|H]; [discriminate|]); exact H.
  - discriminate.
  - intros p H. injection H as <-. cbn. intros H; repeat (destruct H as [H|H]; [discriminate|]); exact H.
  - intros i p Hi H. cbn in Hi. destruct Hi as [<-|[<-|[]]]; injection H as <-; eexists; reflexivity.
  - intros p H. cbn in H. destruct H as [<-|[<-|[<-|[]]]]; [apply sees_shift|apply sees_shift|exact sees_rate].
  - intros _. assert (E : map (name_of ex_heap) (all_parts two_globals) = [Some "2n2b"; Some "b8"]) by reflexivity.
    rewrite E. split.
    + repeat constructor; cbn; intros H; repeat (destruct H as [H|H]; [discriminate|]); exact H.
    + cbn. intros H; repeat (destruct H as [H|H]; [discriminate|]); exact H.
Qed.

(** A rate of zero, the lower bound of a rate parameter: the floating background keeps no
    decays, and every later evaluation fails. *)
Definition one_rate : fit := Fit ex_str [p_rate "rate_2n2b"] 0 ["energy_mc"] None [Part 2 [0] ["energy_mc"]] None.
Theorem C64_zero_rate_refuted :
  from_spectra one_rate [zq 4] = Ok ([0; 4; 5; 0]%Q, [3; 1; 0; 0]%Q) /\
  after one_rate [] [0%Qc] = Ok ([0; 4; 5; 0]%Q, [0; 0; 0; 0]%Q) /\
  after one_rate [] [zq 4] = Ok ([0; 4; 5; 0]%Q, [3; 1; 0; 0]%Q) /\
  after one_rate [[0%Qc]] [zq 4] = Err EZeroDivisionError.
Proof. refine (conj _ (conj _ (conj _ _))); vm_compute; reflexivity. Qed.

(** Values that are printed alike (Python 2 prints 12 digits): the second evaluation uses the
    spectrum of the first. *)
Definition printed_alike : fit := Fit (fun _ => "1.0") [p_shift; p_rate "rate_2n2b"] 0 ["energy_mc"] None [Part 2 [1] ["energy_mc"]] None.
Theorem C64_printing_refuted :
  from_spectra printed_alike [1%Qc; zq 4] = Ok ([0; 4; 5; 0]%Q, [0; 3; 1; 0]%Q) /\
  after printed_alike [] [1%Qc; zq 4] = Ok ([0; 4; 5; 0]%Q, [0; 3; 1; 0]%Q) /\
  after printed_alike [[0%Qc; zq 4]] [1%Qc; zq 4] = Ok ([0; 4; 5; 0]%Q, [3; 1; 0; 0]%Q).
Proof. refine (conj _ (conj _ _)); vm_compute; reflexivity. Qed.

(** Two backgrounds with the same background name: the second is never used. *)
Definition ex_heap2 : heap := fst (h_run (ex_spectra ++ [CNew "2n2b_mc_outer" (zq 2) ax None; CFill (zq 2) (at_bin 2) 5]) empty_heap).
Definition same_names : fit := Fit ex_str [p_shift; p_rate "rate_2n2b"; p_rate "rate_outer"] 0 ["energy_mc"] None
  [Part 2 [1] ["energy_mc"]; Part 5 [2] ["energy_mc"]] None.
Theorem C52_names_refuted :
  numbers (fitted same_names ex_heap2 [0%Qc; zq 4; zq 2]) = Ok ([0; 4; 5; 0]%Q, [3; 1; 2; 0]%Q) /\
  numbers (snd (spectra_of same_names [0%Qc; zq 4; zq 2] (f_start same_names ex_heap2))) = Ok ([0; 4; 5; 0]%Q, [6; 2; 0; 0]%Q).
Proof. split; vm_compute; reflexivity. Qed.

(** A floating background with finer bins than the data, and a global parameter: the first
    evaluation rebins the shifted spectrum and with it the configuration of the original;
    the next evaluation with another shift puts the events in the wrong bin. *)
Definition fine : sconfig := [("energy_mc", SPar 0%Qc (zq 4) 8)].
Definition ex_heap3 : heap := fst (h_run (ex_spectra ++ [CNew "u238_mc" (zq 2) fine None; CFill (zq 2) [("energy_mc", qq 5 4)] 5]) empty_heap).
Definition rebinned : fit := Fit ex_str [p_shift; p_rate "rate_u238"] 0 ["energy_mc"] None [Part 5 [1] ["energy_mc"]] None.
Theorem C64_rebin_refuted :
  numbers (snd (spectra_of rebinned [1%Qc; zq 2] (f_start rebinned ex_heap3))) = Ok ([0; 4; 5; 0]%Q, [0; 0; 2; 0]%Q) /\
  numbers (snd (spectra_of rebinned [1%Qc; zq 2] (f_run rebinned [[0%Qc; zq 2]] (f_start rebinned ex_heap3)))) = Ok ([0; 4; 5; 0]%Q, [0; 0; 0; 2]%Q).
Proof. split; vm_compute; reflexivity. Qed.

Print Assumptions C52_history_partial.
Print Assumptions C52_signal_last.
Print Assumptions C52_bins.
Print Assumptions C64_objective_partial.
Print Assumptions C64_search_partial.
Print Assumptions C52_kinds.
Print Assumptions C52_globals_refuted.
Print Assumptions C64_zero_rate_refuted.
Print Assumptions C64_printing_refuted.
Print Assumptions C52_names_refuted.
Print Assumptions C64_rebin_refuted.
Print Assumptions C64_refused.

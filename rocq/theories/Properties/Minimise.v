(** C40-C43, C59: the grid search. *)
From Verif Require Import Model.Base Model.PyStr Model.NDArray Model.Param Model.Spectra Model.FitParam Model.Minimise.
From Verif Require Import Spec.ArraySpec Spec.SearchSpec.
From Verif Require Import Proofs.QcLemmas Proofs.MinimiseLemmas Proofs.SearchLemmas Proofs.SearchMore.
Local Open Scope string_scope.
Local Open Scope nat_scope.

(** C40 *)
Theorem C40_find_minimum : forall a, ashape a <> [] -> Forall (fun n => 0 < n) (ashape a) ->
  exists m pos, find_minimum a = Ok (m, pos) /\ first_min (ashape a) (aget a) pos m.
Proof. exact find_minimum_l. Qed.
Theorem C40_numpy_minimum : forall a, Forall (fun n => 0 < n) (ashape a) ->
  exists m pos, numpy_minimum a = Ok (m, pos) /\ first_min (ashape a) (aget a) pos m.
Proof. exact numpy_minimum_l. Qed.
Theorem C40_agree : forall a, ashape a <> [] -> Forall (fun n => 0 < n) (ashape a) ->
  find_minimum a = numpy_minimum a.
Proof. exact minima_agree_l. Qed.
(** The specification determines the answer. *)
Theorem C40_unique : forall sh f p m p' m', first_min sh f p m -> first_min sh f p' m' -> p = p' /\ m = m'.
Proof. exact first_min_unique. Qed.

(** Arrays without entries have no minimum and raise; an array without axes has one for numpy only. *)
Theorem C40_empty : forall a, In 0 (ashape a) -> numpy_minimum a = Err EValueError /\ exists e, find_minimum a = Err e.
Proof. exact empty_minimum_l. Qed.
Theorem C40_no_axes : forall a, ashape a = [] -> numpy_minimum a = Ok (aget a [], []) /\ find_minimum a = Err EAttributeError.
Proof. intros a S. unfold numpy_minimum, find_minimum, andim. rewrite S. split; reflexivity. Qed.

Definition arr234 : ndarray :=
  ND [2; 3; 4] (fun i => match i with [1; 0; 2] => zq (-7) | [1; 2; 0] => zq (-7) | [0; 1; 3] => zq (-6) | _ => 0%Qc end).
Example C40_ex : find_minimum arr234 = Ok (zq (-7), [1; 0; 2]) /\ ashape arr234 <> [] /\ Forall (fun n => 0 < n) (ashape arr234).
Proof. split; [vm_compute; reflexivity|]. split; [discriminate|]. repeat constructor. Qed.

(** C41.  [g] computes logarithmic grids, [f] is the objective with its own state, [pen]
    the penalty function of the test statistic.  The state of the objective afterwards is
    that of calling it on the combinations in row-major order until a call raises; every
    answer received is stored at the position of its combination. *)
Theorem C41_visits : forall g St (f : St -> list Qc -> St * res (sres * Qc)) pen st ls o rs e,
  grid_of g (gs_pars (ss_gs st)) ls -> ready (ss_gs st) ls -> answers_fit (ss_gs st) rs ->
  calls f (ss_obj st) (combinations ls) = (o, rs, Some e) ->
  exists gs', minimise g f pen st = (SS o gs', Err e) /\
    (forall k i r p, nth_error (all_idx (map (@length Qc) ls)) k = Some i -> nth_error rs k = Some (r, p) -> reads gs' i r p).
Proof. intros g St f pen st ls o rs e. exact (raised_l g f pen st ls o rs e). Qed.
Theorem C41_visits_all : forall g St (f : St -> list Qc -> St * res (sres * Qc)) pen st ls o rs,
  grid_of g (gs_pars (ss_gs st)) ls -> ready (ss_gs st) ls -> answers_fit (ss_gs st) rs ->
  calls f (ss_obj st) (combinations ls) = (o, rs, None) ->
  Forall (fun l => l <> []) ls -> (gs_use_numpy (ss_gs st) = true \/ ls <> []) ->
  penalties_defined pen (gs_pars (ss_gs st)) ->
  exists gs' s p, minimise g f pen st = (SS o gs', Ok (s, p)) /\ length rs = length (combinations ls) /\
    (forall k i r p, nth_error (all_idx (map (@length Qc) ls)) k = Some i -> nth_error rs k = Some (r, p) -> reads gs' i r p).
Proof.
  intros g St f pen st ls o rs G R W C NE UN PF.
  destruct (minimise_l g f pen st ls o rs G R W C NE UN PF) as (gs' & k & vals & r & pn & s & p & H1 & H2 & H3 & _).
  exists gs', s, p. auto.
Qed.
(** The k-th combination holds the values at the k-th position, and every choice of
    values occurs. *)
Theorem C41_combinations : forall ls k v i,
  nth_error (combinations ls) k = Some v -> nth_error (all_idx (map (@length Qc) ls)) k = Some i ->
  Forall2 (fun x li => nth_error (fst li) (snd li) = Some x) v (combine ls i).
Proof.
  intros ls k v i Hv Hi. apply (points_values ls v i). eapply nth_error_In, nth_points; eassumption.
Qed.
Theorem C41_complete : forall ls v, In v (combinations ls) <-> Forall2 (fun x l => In x l) v ls.
Proof. exact combinations_complete. Qed.
Theorem C41_once : forall ls, Forall (@NoDup Qc) ls ->
  NoDup (combinations ls) /\ length (combinations ls) = asize (map (@length Qc) ls).
Proof. exact combinations_nodup. Qed.
(** If the values of a parameter cannot be made, the search raises before the first evaluation and
    changes nothing. *)
Theorem C41_no_grid : forall g St (f : St -> list Qc -> St * res (sres * Qc)) pen st pre ls p post e,
  gs_pars (ss_gs st) = (pre ++ p :: post)%list -> grid_of g pre ls -> Forall (fun l => l <> []) ls -> snd (get_values g p) = Err e ->
  minimise g f pen st = (st, Err e).
Proof. intros g St f pen st pre ls p post e. exact (no_grid_l g f pen st pre ls p post e). Qed.
(** A new search is ready, and stays ready. *)
Theorem C41_new : forall g ps spec name pb un ls, grid_of g ps ls -> ready (new_search ps spec name pb un) ls.
Proof. exact new_ready_l. Qed.

(** C42 *)
Theorem C42_minimum : forall g St (f : St -> list Qc -> St * res (sres * Qc)) pen st ls o rs,
  let gs := ss_gs st in
  let value rp := (answer_total (gs_per_bin gs) (gs_spec gs) (fst rp) + snd rp)%Qc in
  grid_of g (gs_pars gs) ls -> ready gs ls -> answers_fit gs rs ->
  calls f (ss_obj st) (combinations ls) = (o, rs, None) ->
  Forall (fun l => l <> []) ls -> (gs_use_numpy gs = true \/ ls <> []) ->
  penalties_defined pen (gs_pars gs) ->
  exists gs' s p k vals rp,
    minimise g f pen st = (SS o gs', Ok (s, p)) /\
    nth_error (combinations ls) k = Some vals /\ nth_error rs k = Some rp /\
    (* recorded best fit values and penalties *)
    map fp_best (gs_pars gs') = map Some vals /\
    map fp_penalty (gs_pars gs') = zip_with (recorded_penalty pen) (gs_pars gs) vals /\
    (* what is returned *)
    ashape s = answer_shape (gs_per_bin gs) (gs_spec gs) /\
    (forall j, valid_idx (ashape s) j -> aget s j = content (fst rp) j) /\
    ashape p = [] /\ aget p [] = snd rp /\
    (* is the first minimum *)
    (forall k' rp', nth_error rs k' = Some rp' ->
       (value rp <= value rp')%Qc /\ ((k' < k)%nat -> (value rp < value rp')%Qc)) /\
    ready gs' ls.
Proof.
  intros g St f pen st ls o rs gs value G R W C NE UN PF.
  destruct (minimise_l g f pen st ls o rs G R W C NE UN PF)
    as (gs' & k & vals & r & pn & s & p & H1 & H2 & H3 & H4 & H5 & H6 & H7 & [H8 H9] & [H10 H11] & H12 & H13 & _).
  exists gs', s, p, k, vals, (r, pn). do 9 (split; [assumption|]). split; [|exact H13].
  intros k' [r' p'] H. apply (H12 k' r' p' H).
Qed.

(** Two parameters; the objective counts its calls. *)
Definition pa : fpar := FPar "a" 1 (Some 1%Qc) 0 (zq 2) 3 None None None None None None None None.
Definition pb : fpar := FPar "b" (zq 5) None (zq 5) (zq 7) 2 None None None None None None None None.
Definition no_log : fpar -> res (list Qc) := fun _ => Err EValueError.
Definition chi (v prior sigma : Qc) : res Qc := do q <- qdiv (v - prior)%Qc sigma; Ok (q * q)%Qc.
Definition obj (n : nat) (v : list Qc) : nat * res (sres * Qc) :=
  match v with
  | [x; y] => (S n, Ok (RNum (zq 12 - x - y)%Qc, ((x - 1) * (x - 1))%Qc))
  | _ => (n, Err ETypeError)
  end.
Definition start : sstate := SS 0 (new_search [pa; pb] [4] (Some "fit") false true).
Definition grids : list (list Qc) := [[zq 0; zq 1; zq 2]; [zq 5; zq 7]].
Lemma NoDup_vals : NoDup [zq 0; zq 1; zq 2] /\ NoDup [zq 5; zq 7].
Proof.
  split; repeat constructor; cbn; intros H; repeat match type of H with _ \/ _ => destruct H as [H|H] end;
    try exact H; apply (f_equal this) in H; vm_compute in H; discriminate.
Qed.
Example C42_ex :
  grid_of no_log [pa; pb] grids /\ ready (ss_gs start) grids /\ (exists rs, calls obj 0 (combinations grids) = (6, rs, None) /\ answers_fit (ss_gs start) rs) /\ penalties_defined chi [pa; pb] /\
  match minimise no_log obj chi start with
  | (st, Ok (s, p)) => ss_obj st = 6 /\ this (aget s []) = 4%Q /\ this (aget p []) = 0%Q /\
      map fp_best (gs_pars (ss_gs st)) = [Some (zq 1); Some (zq 7)]
  | _ => False
  end.
Proof.
  split. { constructor; [|constructor; [|constructor]]; (split; [|split; [apply NoDup_vals|reflexivity]]);
           cbv [snd get_values pa pb fp_values truthy fp_logscale fp_logdev fp_low fp_high fp_bins orb];
           vm_compute; repeat f_equal; apply Qc_is_canon; reflexivity. }
  split. { split; reflexivity. }
  split. { eexists. split; [cbn; reflexivity|]. repeat constructor. }
  split. { repeat constructor; intros v s H; [|discriminate]. injection H as <-. eexists. reflexivity. }
  vm_compute. repeat split.
Qed.

(** Equal values in a grid (a range of zero width): the second position is never written,
    and its zeros are taken for the minimum although the objective is 5 everywhere. *)
Definition flat : fpar := FPar "a" 1 None 1 1 2 None None None None None None None None.
Definition five (n : nat) (v : list Qc) : nat * res (sres * Qc) := (S n, Ok (RNum (zq 5), 0%Qc)).
Theorem C42_repeated_values_refuted :
  exists st s p, minimise no_log five chi (SS 0 (new_search [flat] [4] None false true)) = (st, Ok (s, p)) /\
    ss_obj st = 2 /\ this (aget s []) = 0%Q /\ this (aget p []) = 0%Q.
Proof. do 3 eexists. split; [vm_compute; reflexivity|]. repeat split. Qed.
(** A grid with fewer values than the parameter has bins: same effect; with more values:
    IndexError. *)
Definition short : fpar := FPar "a" 1 None 0 (zq 2) 3 None (Some [zq 0; zq 2]) None None None None None (Some true).
Definition long : fpar := FPar "a" 1 None 0 (zq 2) 1 None (Some [zq 0; zq 1; zq 2]) None None None None None (Some true).
Theorem C42_wrong_length_refuted :
  (exists st s p, minimise no_log five chi (SS 0 (new_search [short] [4] None false true)) = (st, Err EIndexError) /\
     get_raw_stat (ss_gs st) [2] = Ok s /\ get_raw_stat (ss_gs st) [0] = Ok p /\ this (aget s []) = 0%Q /\ this (aget p []) = 5%Q) /\
  (exists st, minimise no_log five chi (SS 0 (new_search [long] [4] None false true)) = (st, Err EIndexError)).
Proof.
  split; [do 3 eexists; split; [vm_compute; reflexivity|]|eexists; vm_compute; reflexivity].
  split; [vm_compute; reflexivity|]. split; [vm_compute; reflexivity|]. split; reflexivity.
Qed.

(** C43: by position (C41_visits_all, [reads]) and by value. *)
Theorem C43_read_back : forall g St (f : St -> list Qc -> St * res (sres * Qc)) pen st ls o rs,
  grid_of g (gs_pars (ss_gs st)) ls -> ready (ss_gs st) ls -> answers_fit (ss_gs st) rs ->
  calls f (ss_obj st) (combinations ls) = (o, rs, None) ->
  Forall (fun l => l <> []) ls -> (gs_use_numpy (ss_gs st) = true \/ ls <> []) ->
  penalties_defined pen (gs_pars (ss_gs st)) ->
  exists st' m, minimise g f pen st = (st', Ok m) /\
    forall idx, valid_idx (map (@length Qc) ls) idx ->
    exists k v r p, nth_error (all_idx (map (@length Qc) ls)) k = Some idx /\
      nth_error (combinations ls) k = Some v /\ nth_error rs k = Some (r, p) /\
      Forall2 (fun x li => nth_error (fst li) (snd li) = Some x) v (combine ls idx) /\
      reads (ss_gs st') idx r p.
Proof. exact read_back_l. Qed.
Theorem C43_penalty_at : forall g gs ls idx r pen,
  grid_of g (gs_pars gs) ls -> ready gs ls -> valid_idx (map (@length Qc) ls) idx ->
  Forall distinguishable ls -> NoDup (map fp_name (gs_pars gs)) -> reads gs idx r pen ->
  exists p, get_penalty_at g gs (keywords (gs_pars gs) ls idx) = Ok p /\ ashape p = [] /\ aget p [] = pen.
Proof. exact penalty_at_l. Qed.
Theorem C43_raw_stats_at : forall g gs ls idx r pen,
  grid_of g (gs_pars gs) ls -> ready gs ls -> valid_idx (map (@length Qc) ls) idx ->
  Forall distinguishable ls -> NoDup (map fp_name (gs_pars gs)) -> reads gs idx r pen ->
  gs_per_bin gs = true -> hd 1 (gs_spec gs) <> 1 -> last (gs_spec gs) 1 <> 1 ->
  exists s, get_raw_stats_at g gs (keywords (gs_pars gs) ls idx) = Ok s /\ ashape s = gs_spec gs /\
     forall j, valid_idx (ashape s) j -> aget s j = content r j.
Proof. exact raw_at_l. Qed.
(** Axes of one bin at either end are dropped; if all axes have one bin, it raises. *)
Theorem C43_raw_stats_at_squeezed : forall g gs ls idx r pen k mid k',
  grid_of g (gs_pars gs) ls -> ready gs ls -> valid_idx (map (@length Qc) ls) idx ->
  Forall distinguishable ls -> NoDup (map fp_name (gs_pars gs)) -> reads gs idx r pen ->
  gs_per_bin gs = true -> gs_spec gs = (repeat 1 k ++ mid ++ repeat 1 k')%list -> hd 1 mid <> 1 -> last mid 1 <> 1 ->
  exists s, get_raw_stats_at g gs (keywords (gs_pars gs) ls idx) = Ok s /\ ashape s = mid /\
     forall j, valid_idx mid j -> aget s j = content r (repeat 0 k ++ j ++ repeat 0 k')%list.
Proof. exact raw_at_squeezed_l. Qed.
Theorem C43_raw_stats_at_ones_refuted : forall g gs ls idx r pen k,
  grid_of g (gs_pars gs) ls -> ready gs ls -> valid_idx (map (@length Qc) ls) idx ->
  Forall distinguishable ls -> NoDup (map fp_name (gs_pars gs)) -> reads gs idx r pen ->
  gs_per_bin gs = true -> gs_spec gs = repeat 1 k ->
  get_raw_stats_at g gs (keywords (gs_pars gs) ls idx) = Err EIndexError.
Proof. exact raw_at_ones_l. Qed.
(** A parameter without a value. *)
Theorem C43_missing_value : forall g gs kw pre p post, gs_pars gs = (pre ++ p :: post)%list ->
  (forall q, In q pre -> exists v b, dget (fp_name q) kw = Some v /\ snd (fp_get_bin g q v) = Ok b) -> dget (fp_name p) kw = None ->
  get_penalty_at g gs kw = Err EKeyError /\ get_raw_stats_at g gs kw = Err EKeyError.
Proof. exact missing_keyword_l. Qed.
(** Without per-bin statistics get_raw_stats_at always raises, and get_raw_stats with a
    parameter's name as keyword always raises. *)
Theorem C43_raw_stats_at_refuted : forall g gs kw,
  gs_per_bin gs = false -> ashape (gs_stats gs) = fit_shape (gs_pars gs) -> is_ok (get_raw_stats_at g gs kw) = false.
Proof. exact raw_at_scalar_l. Qed.
Theorem C43_raw_stats_keyword_refuted : forall gs kw p v, In p (gs_pars gs) -> dget (fp_name p) kw = Some v ->
  ashape (gs_stats gs) = (fit_shape (gs_pars gs) ++ answer_shape (gs_per_bin gs) (gs_spec gs))%list ->
  is_ok (get_raw_stats gs kw) = false.
Proof. exact raw_stats_kwargs_l. Qed.
(** Three axes, the first and the last of one bin. *)
Definition obj3 (n : nat) (v : list Qc) : nat * res (sres * Qc) := (S n, Ok (RArr (ND [1; 4; 1] (fun j => (nth 0%nat v 0 + nq (nth 1 j 0)%nat)%Qc)), 0%Qc)).
Definition done3 : gsearch := ss_gs (fst (minimise no_log obj3 chi (SS 0 (new_search [pa; pb] [1; 4; 1] (Some "fit") true true)))).
(** A logarithmic grid that cannot be made. *)
Definition pc : fpar := FPar "c" 1 None 0 1 2 None None None None None None None (Some true).
Definition start_log : sstate := SS 0 (new_search [pa; pc] [4] None false true).
Example C43_squeezed_ex :
  rmap (fun s => (ashape s, this (aget s [3]))) (get_raw_stats_at no_log done3 [("b", zq 7); ("a", zq 2)]) = Ok ([4], 5%Q) /\
  get_raw_stats_at no_log done3 [("b", zq 7)] = Err EKeyError /\
  minimise no_log obj3 chi start_log = (start_log, Err EValueError).
Proof. split; [vm_compute; reflexivity|]. split; [vm_compute; reflexivity|]. refine (C41_no_grid no_log nat obj3 chi start_log [pa] [[zq 0; zq 1; zq 2]] pc [] EValueError eq_refl _ _ _).
  - constructor; [|constructor]. split; [|split].
    + vm_compute. repeat f_equal; apply Qc_is_canon; reflexivity.
    + repeat constructor; cbn; intros H; repeat destruct H as [H|H]; try (apply (f_equal this) in H; discriminate H); exact H.
    + reflexivity.
  - constructor; [discriminate|constructor].
  - reflexivity.
Qed.
Example C43_ex :
  Forall distinguishable grids /\ NoDup (map fp_name [pa; pb]) /\
  keywords [pa; pb] grids [2; 1] = [("a", zq 2); ("b", zq 7)] /\
  rmap (fun p => this (aget p [])) (get_penalty_at no_log (ss_gs (fst (minimise no_log obj chi start))) [("b", zq 7); ("a", zq 2)]) = Ok 1%Q.
Proof.
  split. { repeat constructor; intros i j [H1 H2]; cbn in H2;
    repeat (destruct j as [|j]; [try (exfalso; Lia.lia)|]; try (exfalso; Lia.lia));
    repeat (destruct i as [|i]; [try (vm_compute; reflexivity)|]; try (exfalso; Lia.lia)). }
  split. { repeat constructor; cbn; intuition discriminate. }
  split; [reflexivity|]. vm_compute. reflexivity.
Qed.

(** C59: resetting the grids. *)
Theorem C59_reset_per_bin : forall g dec gs ls gs', grid_of g (gs_pars gs) ls -> gs_per_bin gs = true ->
  reset_grids dec gs = (gs', None) ->
  ready gs' ls /\ gs_pars gs' = gs_pars gs /\ gs_per_bin gs' = true /\ gs_spec gs' = gs_spec gs /\ gs_use_numpy gs' = gs_use_numpy gs /\
  gs_stats gs' = gs_stats (new_search (gs_pars gs) (gs_spec gs) (gs_name gs) true (gs_use_numpy gs)) /\
  gs_pen gs' = gs_pen (new_search (gs_pars gs) (gs_spec gs) (gs_name gs) true (gs_use_numpy gs)).
Proof. exact reset_ready_l. Qed.
(** Otherwise the statistics get the shape of a per-bin search: the next search fails. *)
Theorem C59_reset_refuted :
  (exists st m, minimise no_log obj chi start = (st, Ok m)) /\
  (exists gs' st, reset_grids (fun _ => "1") (ss_gs start) = (gs', None) /\
     minimise no_log obj chi (SS 0 gs') = (st, Err EValueError)) /\
  (* a search without a name cannot be reset *)
  reset_grids (fun _ => "1") (new_search [pa; pb] [4] None false true) = (new_search [pa; pb] [4] None false true, Some ETypeError).
Proof.
  split; [do 2 eexists; vm_compute; reflexivity|]. split; [|reflexivity].
  do 2 eexists. split; [reflexivity|]. vm_compute. reflexivity.
Qed.

Print Assumptions C40_find_minimum.
Print Assumptions C41_visits.
Print Assumptions C41_visits_all.
Print Assumptions C42_minimum.
Print Assumptions C43_read_back.
Print Assumptions C43_penalty_at.
Print Assumptions C43_raw_stats_at.
Print Assumptions C59_reset_per_bin.
Print Assumptions C40_empty.
Print Assumptions C40_no_axes.
Print Assumptions C41_no_grid.
Print Assumptions C43_raw_stats_at_squeezed.
Print Assumptions C43_raw_stats_at_ones_refuted.
Print Assumptions C43_missing_value.

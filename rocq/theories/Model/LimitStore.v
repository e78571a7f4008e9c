(** echidna/limit/limit.py 89-300, get_limit, with what it keeps in its LimitResults
    (fit_results.py 95-330), writes to files (output/store.py 186-243) and logs.  The signal has
    the rate as its only fit parameter and fits return one number (the statistic is not per bin). *)
From Verif Require Import Model.Base Model.PyStr Model.NDArray Model.Param Model.Config Model.Spectra Model.FitParam Model.Minimise.
From Verif Require Import Model.FitConfig Model.Store Model.Results Model.Limit.
Local Open Scope string_scope.
Local Open Scope nat_scope.

(** What one fit gives (limit.py:165-179): the statistic and, if the fitter has a minimiser, its
    summary (fit_results.py:68-82: best fit and penalty term by name) and the search itself. *)
Record fitsum := FitSum {
  fm_stat : Qc;
  fm_results : option (list (string * (Qc * Qc)) * gsearch) }.
(** The files by path (limit.py:227, 282).  Different texts are taken to be different files. *)
Definition disk := string -> hfile.
(** Writing one file, limit.py:227, 282. *)
Definition wrote (d : disk) (path : string) (f : hfile) : disk := fun p => if String.eqb p path then f else d p.
(** The text of the log (limit.py:195-213, 257-273) as the numbers it shows: limit found or not, the
    signal decays, best fit, prior, sigma and penalty term of every parameter, test statistic. *)
Record report := Report {
  rp_found : bool;
  rp_decays : Qc;
  rp_pars : list (string * (Qc * Qc * Qc * Qc));
  rp_stat : Qc }.
(** The arguments, limit.py:89-90. *)
Record request := Request {
  rq_limit : Qc;
  rq_min : option Qc;
  rq_store : bool;
  rq_fits : bool;
  rq_spectra : bool;
  rq_fname : option string }.

(** limit.py:172-177: the summary of one fit is copied into row [i]. *)
Fixpoint set_row (lr : lresults) (i : nat) (l : list (string * (Qc * Qc))) : lresults * out :=
  match l with
  | [] => (lr, None)
  | (par, (best, pen)) :: l' =>
      match lr_set lr (SetBest (Z.of_nat i) best par) with
      | (lr1, Some e) => (lr1, Some e)
      | (lr1, None) =>
          match lr_set lr1 (SetPenalty (Z.of_nat i) pen par) with
          | (lr2, Some e) => (lr2, Some e)
          | (lr2, None) => set_row lr2 i l'
          end
      end
  end.
(** fit_results.py:300-308, set_fit_result; [i] counts from the front *)
Definition set_fit_result (lr : lresults) (i : nat) (gs : gsearch) : lresults * out :=
  if i <? length (lr_fits lr)
  then (LR (lr_name lr) (lr_fit lr) (lr_spec lr) (lr_spec_name lr) (lr_limit lr) (lr_stats lr) (lr_pen lr) (lr_best lr)
           (set_nth i (Some gs) (lr_fits lr)), None)
  else (lr, Some EIndexError).
(** limit.py:170-179: keeping the results of the fit for scale [i]. *)
Definition keep_fit (fits : bool) (lr : lresults) (i : nat) (f : fitsum) : lresults * out :=
  match fm_results f with
  | None => (lr, None)
  | Some (l, gs) =>
      match set_row lr i l with
      | (lr1, Some e) => (lr1, Some e)
      | (lr1, None) => if fits then set_fit_result lr1 i gs else (lr1, None)
      end
  end.

(** limit.py:215-226: the file a found limit is written to.  [base] is the default directory, [now]
    the time stamp. *)
Definition default_name (base now : string) (lr : lresults) : string := base ++ "/" ++ lr_name lr ++ "_" ++ now ++ ".hdf5".
(** limit.py:216-226; an empty name counts as none *)
Definition found_name (base now : string) (lr : lresults) (fname : option string) : string :=
  match fname with
  | None | Some "" => default_name base now lr
  | Some n => if String.eqb (last_n 5 n) ".hdf5" then n else n ++ ".hdf5"
  end.

(** limit.py:197-211, 259-271: the lines of one parameter. *)
Definition log_par (lr : lresults) (i : nat) (par : string) : res (string * (Qc * Qc * Qc * Qc)) :=
  do p <- gc_get_par (lr_fit lr) par;
  do best <- lr_get_best_fit lr (Z.of_nat i) par;
  do sigma <- match fp_sigma (cp_par p) with Some s => Ok s | None => Err ETypeError end;   (* "%.4g" % None *)
  do pen <- lr_get_penalty_term lr (Z.of_nat i) par;
  Ok (par, (best, fp_prior (cp_par p), sigma, pen)).
(** limit.py:194-213, 256-273; [i] counts from the bin of the minimum but indexes all of the results *)
Definition make_report (lr : lresults) (full : list Qc) (i : nat) (found : bool) (decays : Qc) : res report :=
  do l <- rmapM (log_par lr i) (gc_get_pars (lr_fit lr));
  match nth_error full i with
  | Some x => Ok (Report found decays l x)
  | None => Err EIndexError
  end.

Section LimitStore.
Context {St : Type}.
(** One fit, as in Model/Limit.v. *)
Variable fit : St -> option Qc -> St * res fitsum.
(** Logarithmic grids, [str] of an index, the default directory. *)
Variable log_grid : fpar -> res (list Qc).
Variable dec : nat -> string.
Variable base : string.

(** limit.py:153-179: the loop over the scalings.  A result of None means it ran to its end. *)
Fixpoint scan (fits : bool) (st : St) (lr : lresults) (stats : ndarray) (i : nat) (l : list Qc) :
  St * lresults * res ndarray :=
  match l with
  | [] => (st, lr, Ok stats)
  | scale :: l' =>
      match fit st (if isclose scale 0 then None else Some scale) with
      | (st1, Err e) => (st1, lr, Err e)
      | (st1, Ok f) =>
          match norm_indices [Z.of_nat i] (ashape stats) with
          | Err e => (st1, lr, Err e)
          | Ok idx =>
              match keep_fit fits lr i f with
              | (lr1, Some e) => (st1, lr1, Err e)
              | (lr1, None) => scan fits st1 lr1 (aset stats idx (fm_stat f)) (S i) l'
              end
          end
      end
  end.

(** limit.py:190-250, the try block: files, log and result *)
Definition found (now : string) (rq : request) (d : disk) (lr : lresults) (scales full : list Qc) (b : nat) :
  disk * list report * res Qc :=
  match first_row (fun i => qlt (rq_limit rq) (nth i full 0%Qc)) (seq b (length full - b)) with
  | None => (d, [], Err EIndexError)
  | Some r =>
      match nth_error scales r with
      | None => (d, [], Err EIndexError)
      | Some x =>
          match make_report lr full (r - b) true x with
          | Err e => (d, [], Err e)
          | Ok rp =>
              let path := found_name base now lr (rq_fname rq) in
              let (f, e) := if rq_store rq then dump_limit_results dec (d path) lr false else (d path, None) in
              let d1 := if rq_store rq then wrote d path f else d in
              match e with
              | Some e => (d1, [rp], Err e)
              | None => (d1, [rp], if rq_spectra rq then Err ETypeError     (* dump() has no argument group_name *)
                                   else Ok x)
              end
          end
      end
  end.
(** limit.py:252-300, the except block.  Without store_limit the name of the file is not bound when
    the spectra are stored (UnboundLocalError, here EException). *)
Definition not_found (now : string) (rq : request) (d : disk) (lr : lresults) (scales full : list Qc) (b : nat) :
  disk * list report * res Qc :=
  match (do k <- argmin_list (map Qcopp (skipn b full));                    (* numpy.argmax *)
         do x <- match nth_error scales (b + k) with Some x => Ok x | None => Err EIndexError end;
         make_report lr full k false x) with
  | Err e => (d, [], Err e)
  | Ok rp =>
      let path := default_name base now lr in
      let (f, e) := if rq_store rq then dump_limit_results dec (d path) lr false else (d path, None) in
      let d1 := if rq_store rq then wrote d path f else d in
      match e with
      | Some e => (d1, [rp], Err e)
      | None => (d1, [rp], if rq_spectra rq then Err (if rq_store rq then ETypeError else EException) else Err ELimitError)
      end
  end.

(** The state get_limit works on: the fitter, the results, the files and the log. limit.py:38-55 *)
Record world := World { w_fit : St; w_res : lresults; w_disk : disk; w_log : list report }.
(** limit.py:89-300, get_limit *)
Definition limit_call (now : string) (rq : request) (w : world) : world * res Qc :=
  match dlookup "rate" (sf_pars (lr_limit (w_res w))) with
  | Err e => (w, Err e)
  | Ok rate =>
      let given := match rq_min rq with Some m => negb (qeq m 0) | None => false end in
      let '(st1, m) :=
        if given then (w_fit w, Ok match rq_min rq with Some m => m | None => 0%Qc end)
        else let '(st', r) := fit (w_fit w) None in (st', rmap fm_stat r) in
      let w1 := World st1 (w_res w) (w_disk w) (w_log w) in
      match m, lr_get_scales log_grid (w_res w) with
      | Err e, _ => (w1, Err e)
      | Ok m, Err e => (w1, Err e)
      | Ok m, Ok scales =>
          match scan (rq_fits rq) st1 (w_res w) (azeros [Z.to_nat (fp_bins (cp_par rate))]) 0 scales with
          | (st2, lr, Err e) => (World st2 lr (w_disk w) (w_log w), Err e)
          | (st2, lr, Ok stats) =>
              let delta := amap (fun x => x - m)%Qc stats in
              match argmin_list (map (aget delta) (c_order (ashape delta))) with
              | Err e => (World st2 lr (w_disk w) (w_log w), Err e)
              | Ok b =>
                  let lr := lr_with_stats lr delta in
                  match lr_get_full_stats lr with
                  | Err e => (World st2 lr (w_disk w) (w_log w), Err e)
                  | Ok full =>
                      let '(d, lg, r) :=
                        match found now rq (w_disk w) lr scales full b with
                        | (d1, lg1, Err EIndexError) =>
                            let '(d2, lg2, r2) := not_found now rq d1 lr scales full b in (d2, (lg1 ++ lg2)%list, r2)
                        | x => x
                        end in
                      (World st2 lr d (w_log w ++ lg)%list, r)
                  end
              end
          end
      end
  end.
(** Calls of get_limit one after the other (limit.py:89-300), with the time stamps at which they
    store. *)
Fixpoint limit_calls (l : list (string * request)) (w : world) : world * list (res Qc) :=
  match l with
  | [] => (w, [])
  | (now, rq) :: l' =>
      let (w1, r) := limit_call now rq w in
      let (w2, rs) := limit_calls l' w1 in (w2, r :: rs)
  end.
End LimitStore.

(** echidna/limit/limit.py: get_array_limit, sum_entries, get_limit, and the parts of
    echidna/fit/fit_results.py (LimitResults) they use. *)
From Verif Require Import Model.Base Model.NDArray Model.FitParam Model.Minimise.
Local Open Scope nat_scope.

(** ** get_array_limit, 57-87.  [counts] are the values of the signal's rate parameter.
    The argument is a numpy array of floats; the entries of a 1-d array are floats, those
    of a longer one are arrays and are summed. limit.py:57-87, 319-332 *)
Definition entries (a : ndarray) : list Qc :=
  match ashape a with
  | [] => []
  | n :: sub => map (fun i => sum_over sub (fun j => aget a (i :: j))) (seq 0 n)
  end.
(** limit.py:82-85, the loop of get_array_limit. *)
Fixpoint first_above (limit : Qc) (l : list Qc) (i : nat) : option nat :=
  match l with
  | [] => None
  | x :: l' => if qlt limit x then Some i else first_above limit l' (S i)
  end.
(** limit.py:57-87, get_array_limit *)
Definition get_array_limit (counts : list Qc) (a : ndarray) (limit : Qc) : res Qc :=
  match ashape a with
  | [] => Err ETypeError                      (* len() of a 0-d array *)
  | n :: _ =>
      if negb (length counts =? n) then Err ECompatibilityError
      else if n =? 0 then Err EIndexError     (* array[0] *)
      else match first_above limit (entries a) 0 with
           | Some i => Ok (nth i counts 0%Qc)
           | None => Err ELimitError
           end
  end.

(** ** LimitResults: the penalty terms, one row for each scale, one column for each fit
    parameter (fit_results.py 136-146, 280-290) *)
Definition pen_rows := list (list Qc).
(** Assignment to a row, fit_results.py:280-290. *)
Fixpoint set_nth {A} (i : nat) (x : A) (l : list A) : list A :=
  match i, l with
  | _, [] => []
  | O, _ :: l' => x :: l'
  | S i', y :: l' => y :: set_nth i' x l'
  end.
(** limit.py:173-177: set_penalty_term (fit_results.py:280-290) for every parameter. *)
Definition set_pen_row (rows : pen_rows) (i : nat) (row : list Qc) : res pen_rows :=
  match row with
  | [] => Ok rows
  | _ => if i <? length rows then Ok (set_nth i row rows) else Err EIndexError
  end.
(** fit_results.py 188-201, get_full_stats: every row of the result holds the total of the
    statistic plus the penalty terms *)
Definition full_row (stats : ndarray) (rows : pen_rows) (i : nat) : Qc :=
  (sum_over (tl (ashape stats)) (fun j => aget stats (i :: j)) + qsum (nth i rows []))%Qc.
(** fit_results.py:188-201, get_full_stats *)
Definition get_full_stats (stats : ndarray) (rows : pen_rows) : res ndarray :=
  if hd 0 (ashape stats) <=? length rows
  then Ok (ND (ashape stats) (fun idx => full_row stats rows (hd 0 idx)))
  else Err EIndexError.

(** ** get_limit, 89-300; limit.py:89-300 *)
Record fitout := FitOut {
  fo_stat : sres;                    (* what fit() returns, its first component if a pair *)
  fo_pens : option (list Qc) }.      (* penalty terms of the summary, if there is a minimiser *)

Section Limit.
Context {St : Type}.
(** One fit: the signal is absent ([None]) or scaled to a number of decays. *)
Variable fit : St -> option Qc -> St * res fitout.
(** get_values() of the rate parameter, its number of bins, the shape of the signal's fit
    configuration, the sigmas of the fitter's parameters. *)
Variable scales : list Qc.
Variable rate_bins : nat.
Variable sig_shape : list nat.
Variable sigmas : list (option Qc).

(** A float or an array as numpy takes it in limit.py:168. *)
Definition as_array (r : sres) : ndarray := match r with RNum x => ND [] (fun _ => x) | RArr a => a end.
(** limit.py:142-146: [type(min_stat) is numpy.ndarray] *)
Definition stats_shape (m : sres) : list nat :=
  match m with RNum _ => sig_shape | RArr a => (sig_shape ++ ashape a)%list end.

(** limit.py:153-179: one scaling.  The summary's best fits are left out (they only reach the log
    and the result file). *)
Definition one_scale (st : St) (stats : ndarray) (rows : pen_rows) (i : nat) (scale : Qc) :
  St * res (ndarray * pen_rows) :=
  let '(st', r) := fit st (if isclose scale 0 then None else Some scale) in
  (st', do f <- r;
        do stats' <- aassign stats [i] (as_array (fo_stat f));
        do rows' <- match fo_pens f with Some ps => set_pen_row rows i ps | None => Ok rows end;
        Ok (stats', rows')).
(** limit.py:153-179, the loop over the scalings. *)
Fixpoint all_scales (st : St) (stats : ndarray) (rows : pen_rows) (i : nat) (l : list Qc) :
  St * res (ndarray * pen_rows) :=
  match l with
  | [] => (st, Ok (stats, rows))
  | scale :: l' =>
      match one_scale st stats rows i scale with
      | (st', Ok (stats', rows')) => all_scales st' stats' rows' (S i) l'
      | (st', Err e) => (st', Err e)
      end
  end.

(** First row from [b] on with an entry above the limit ([numpy.where(stats[b:] > limit)[0][0]]).
    limit.py:193 *)
Definition row_above (stats : ndarray) (limit : Qc) (i : nat) : bool :=
  existsb (fun j => qlt limit (aget stats (i :: j))) (c_order (tl (ashape stats))).
(** [0][0] of numpy.where, limit.py:193. *)
Fixpoint first_row (f : nat -> bool) (l : list nat) : option nat :=
  match l with [] => None | i :: l' => if f i then Some i else first_row f l' end.
(** The rows of stats[min_bin:], limit.py:193. *)
Definition rows_from (stats : ndarray) (b : nat) : list nat := seq b (hd 0 (ashape stats) - b).

(** Logging of every parameter (197-211, 259-271): "%.4g" % None fails; the results are
    indexed with the row counted from [min_bin]. limit.py:197-211, 259-271 *)
Definition log_params (rows : pen_rows) (i_limit : nat) : res unit :=
  match sigmas with
  | [] => Ok tt
  | s :: _ =>
      if length rows <=? i_limit then Err EIndexError
      else if forallb (fun s => match s with Some _ => true | None => false end) sigmas then Ok tt
      else Err ETypeError
  end.

(** limit.py:252-300: no limit found *)
Definition no_limit (full : ndarray) (rows : pen_rows) (min_bin : nat) : res Qc :=
  let flat := flat_map (fun i => map (fun j => aget full (i :: j)) (c_order (tl (ashape full)))) (rows_from full min_bin) in
  do i_limit <- argmin_list (map Qcopp flat);          (* numpy.argmax *)
  do _ <- (if min_bin + i_limit <? length scales then Ok tt else Err EIndexError);
  do _ <- log_params rows i_limit;
  do _ <- (if i_limit <? hd 0 (ashape full) then Ok tt else Err EIndexError);
  Err ELimitError.

(** limit.py:181-250 *)
Definition find_limit (stats : ndarray) (rows : pen_rows) (min_stat : ndarray) (limit : Qc) : res Qc :=
  do delta <- badd stats (amap Qcopp min_stat);
  do min_bin <- argmin_list (map (aget delta) (c_order (ashape delta)));
  do full <- get_full_stats delta rows;
  match first_row (row_above full limit) (rows_from full min_bin) with
  | None => no_limit full rows min_bin
  | Some r =>
      if r <? length scales then
        match log_params rows (r - min_bin) with
        | Ok _ => Ok (nth r scales 0%Qc)
        | Err EIndexError => no_limit full rows min_bin
        | Err e => Err e
        end
      else no_limit full rows min_bin
  end.

(** limit.py:89-300.  [min_stat] is a number or None; 0.0 counts as not given (123).  Storing
    results and spectra in files is left out (store_limit, store_spectra = False).  The
    penalty terms kept from an earlier call (which matter only if the fitter has no
    minimiser) are left out: the rows start at zero. *)
Definition get_limit (st : St) (limit : Qc) (min_stat : option Qc) : St * res Qc :=
  let given := match min_stat with Some m => negb (qeq m 0) | None => false end in
  let '(st1, m) :=
    if given then (st, Ok (RNum match min_stat with Some m => m | None => 0%Qc end))
    else let '(st', r) := fit st None in (st', rmap fo_stat r) in
  match m with
  | Err e => (st1, Err e)
  | Ok m =>
      match all_scales st1 (azeros (stats_shape m)) (repeat (repeat 0%Qc (length sigmas)) rate_bins) 0 scales with
      | (st2, Err e) => (st2, Err e)
      | (st2, Ok (stats, rows)) => (st2, find_limit stats rows (as_array m) limit)
      end
  end.
End Limit.

(** echidna/fit/minimise.py: GridSearch.  Lists of fit parameters stand for the ordered
    dictionary of the fit configuration (same order, names taken from the parameters);
    the spectra configuration is represented by its shape. *)
From Verif Require Import Model.Base Model.PyStr Model.NDArray Model.Param Model.Spectra Model.FitParam.
Local Open Scope string_scope.
Local Open Scope nat_scope.

(** ** numpy operations used here *)

(** Indices of a shape in C order (the order of [a.ravel()]). minimise.py:348, 641 *)
Definition c_order (sh : list nat) : list (list nat) := map (unravel sh) (seq 0 (asize sh)).

(** numpy.argmin of a 1-d sequence: position of the first minimum; an empty one raises. minimise.py:348, 641 *)
Fixpoint argmin_from (best : Qc) (at_ pos : nat) (l : list Qc) : nat :=
  match l with
  | [] => at_
  | x :: l' => if qlt x best then argmin_from x pos (S pos) l' else argmin_from best at_ (S pos) l'
  end.
(** numpy.argmin of a list, minimise.py:348, 641-647. *)
Definition argmin_list (l : list Qc) : res nat :=
  match l with [] => Err EValueError | x :: l' => Ok (argmin_from x 0 1 l') end.
(** numpy.nanmin of a 1-d sequence without nan; minimise.py:350, 654 *)
Fixpoint min_from (best : Qc) (l : list Qc) : Qc :=
  match l with [] => best | x :: l' => min_from (if qlt x best then x else best) l' end.
(** numpy.nanmin of a list, minimise.py:350, 654. *)
Definition min_list (l : list Qc) : Qc := match l with [] => 0%Qc | x :: l' => min_from x l' end.

(** [a[idx]] and [a[idx] = v] with an index tuple of non-negative integers, possibly
    shorter than the number of dimensions: numpy selects a sub-array. minimise.py:118-142, 501-540 *)
Fixpoint prefix_ok (idx sh : list nat) : bool :=
  match idx, sh with
  | [], _ => true
  | i :: idx', n :: sh' => (i <? n) && prefix_ok idx' sh'
  | _ :: _, [] => false
  end.
(** [a[idx]], minimise.py:142, 173. *)
Definition aindex (a : ndarray) (idx : list nat) : res ndarray :=
  if prefix_ok idx (ashape a)
  then Ok (ND (skipn (length idx) (ashape a)) (fun j => aget a (idx ++ j)))
  else Err EIndexError.
(** Broadcasting: shapes are aligned on the right; a dimension of size 1 is repeated. minimise.py:268-300 *)
Definition bc_index (sh idx : list nat) : list nat :=
  zip_with (fun n i => if n =? 1 then 0 else i) sh (skipn (length idx - length sh) idx).
(** Broadcasting of two shapes, given in reverse (numpy). minimise.py:268-300 *)
Fixpoint bc_rev (a b : list nat) : res (list nat) :=
  match a, b with
  | [], _ => Ok b
  | _, [] => Ok a
  | n :: a', m :: b' =>
      do r <- bc_rev a' b';
      if n =? m then Ok (n :: r) else if n =? 1 then Ok (m :: r) else if m =? 1 then Ok (n :: r) else Err EValueError
  end.
(** Broadcasting of two shapes (numpy). minimise.py:268-300 *)
Definition bc_shape (a b : list nat) : res (list nat) := rmap (@rev nat) (bc_rev (rev a) (rev b)).
(** [a + b] with broadcasting, minimise.py:278, 301. *)
Definition badd (a b : ndarray) : res ndarray :=
  do sh <- bc_shape (ashape a) (ashape b);
  Ok (ND sh (fun idx => aget a (bc_index (ashape a) idx) + aget b (bc_index (ashape b) idx))%Qc).
(** Assignment broadcasts the value to the selected sub-array; leading dimensions of
    size 1 of the value are dropped when there are too many. minimise.py:501-540 *)
Fixpoint drop_ones (k : nat) (sh : list nat) : option (list nat) :=
  match k, sh with
  | O, _ => Some sh
  | S k', n :: sh' => if n =? 1 then drop_ones k' sh' else None
  | S _, [] => Some []
  end.
(** Can a shape be broadcast to another one?  Both in reverse (numpy). minimise.py:501-540 *)
Fixpoint bc_to_rev (v target : list nat) : bool :=
  match v, target with
  | [], _ => true
  | _ :: _, [] => false
  | n :: v', m :: t' => ((n =? m) || (n =? 1)) && bc_to_rev v' t'
  end.
(** k zeros, the index into leading dimensions of size 1. minimise.py:501-540 *)
Definition zeros_like (k : nat) : list nat := repeat 0 k.
(** [a[idx] = v], minimise.py:519, 540. *)
Definition aassign (a : ndarray) (idx : list nat) (v : ndarray) : res ndarray :=
  if prefix_ok idx (ashape a) then
    let sub := skipn (length idx) (ashape a) in
    let extra := length (ashape v) - length sub in
    match drop_ones extra (ashape v) with
    | Some vsh =>
        if bc_to_rev (rev vsh) (rev sub) then
          Ok (ND (ashape a) (fun j =>
                if idx_eqb (firstn (length idx) j) idx
                then aget v (zeros_like extra ++ bc_index vsh (skipn (length idx) j))
                else aget a j))
        else Err EValueError
    | None => Err EValueError
    end
  else Err EIndexError.

(** Python's comparison of two tuples of integers, [a > b]. minimise.py:560-596 *)
Fixpoint tuple_gt (a b : list nat) : bool :=
  match a, b with
  | [], _ => false
  | _ :: _, [] => true
  | x :: a', y :: b' => if x =? y then tuple_gt a' b' else y <? x
  end.

(** ** GridSearch *)
(** The attributes of GridSearch, minimise.py:90-101, and of its bases, fit_results.py:38-43 and minimise.py:27-30. *)
Record gsearch := GS {
  gs_name : option string;
  gs_resets : nat;
  gs_per_bin : bool;
  gs_use_numpy : bool;
  gs_pars : list fpar;       (* fit_config *)
  gs_spec : list nat;        (* spectra_config.get_shape() *)
  gs_stats : ndarray;
  gs_pen : ndarray }.

(** config.py 130-138, get_shape (get_bins of each parameter); numpy.zeros of a negative
    dimension raises, not modelled: truncated at 0 *)
Definition fit_shape (ps : list fpar) : list nat := map (fun p => Z.to_nat (fp_bins p)) ps.

(** minimise.py:90-101.  Minimiser.__init__ (27-30) overwrites the name chosen by FitResults. *)
Definition new_search (ps : list fpar) (spec : list nat) (name : option string) (per_bin use_numpy : bool) : gsearch :=
  GS name 0 per_bin use_numpy ps spec
     (azeros (if per_bin then fit_shape ps ++ spec else fit_shape ps)) (azeros (fit_shape ps)).

(** Assignment to self._stats and self._penalty_terms, minimise.py:478, 499, 519, 540, 558. *)
Definition gs_with (g : gsearch) (stats pen : ndarray) : gsearch :=
  GS (gs_name g) (gs_resets g) (gs_per_bin g) (gs_use_numpy g) (gs_pars g) (gs_spec g) stats pen.
(** Assignment to attributes of the parameters, minimise.py:355-364. *)
Definition gs_with_pars (g : gsearch) (ps : list fpar) : gsearch :=
  GS (gs_name g) (gs_resets g) (gs_per_bin g) (gs_use_numpy g) ps (gs_spec g) (gs_stats g) (gs_pen g).

(** minimise.py:138-141, 265-268, 515-518, 534-537 *)
Definition check_bounds (g : gsearch) (idx : list nat) : res unit :=
  if tuple_gt idx (fit_shape (gs_pars g)) then Err EIndexError else Ok tt.

(** minimise.py:118-142 *)
Definition get_penalty_term_at (g : gsearch) (idx : list nat) : res ndarray :=
  do _ <- check_bounds g idx; aindex (gs_pen g) idx.
(** minimise.py:156-173 *)
Definition get_raw_stat (g : gsearch) (idx : list nat) : res ndarray := aindex (gs_stats g) idx.
(** [numpy.sum(x, axis=-1)] repeated; minimise.py:274, 297 *)
Fixpoint sum_last (k : nat) (a : ndarray) : res ndarray :=
  match k with O => Ok a | S k' => do b <- asum_axis (-1) a; sum_last k' b end.
(** minimise.py:244-278 *)
Definition get_stat (g : gsearch) (idx : list nat) : res ndarray :=
  do _ <- check_bounds g idx;
  do c <- aindex (gs_stats g) idx;
  do c' <- (if gs_per_bin g then sum_last (length (gs_spec g)) c else Ok c);
  do p <- aindex (gs_pen g) idx;
  badd c' p.
(** minimise.py:280-301 *)
Definition get_stats (g : gsearch) : res ndarray :=
  do c <- (if gs_per_bin g then sum_last (length (gs_spec g)) (gs_stats g) else Ok (gs_stats g));
  badd c (gs_pen g).

(** minimise.py:521-540; the type check is done by the caller's type *)
Definition set_stat (g : gsearch) (v : ndarray) (idx : list nat) : res gsearch :=
  do _ <- check_bounds g idx;
  do s <- aassign (gs_stats g) idx v; Ok (gs_with g s (gs_pen g)).
(** minimise.py:501-519 *)
Definition set_penalty (g : gsearch) (v : Qc) (idx : list nat) : res gsearch :=
  do _ <- check_bounds g idx;
  do p <- aassign (gs_pen g) idx (ND [] (fun _ => v)); Ok (gs_with g (gs_stats g) p).
(** minimise.py:480-499, 542-558 *)
Definition shape_eqb (a b : list nat) : bool := idx_eqb a b.
(** minimise.py:480-499, set_penalty_terms *)
Definition set_penalty_terms (g : gsearch) (a : ndarray) : res gsearch :=
  if shape_eqb (ashape a) (fit_shape (gs_pars g)) then Ok (gs_with g (gs_stats g) a) else Err EValueError.
(** minimise.py:542-558, set_stats *)
Definition set_stats (g : gsearch) (a : ndarray) : res gsearch :=
  if shape_eqb (ashape a) (ashape (gs_stats g)) then Ok (gs_with g a (gs_pen g)) else Err EValueError.

(** minimise.py:458-478.  A name of None cannot be extended (468, 470). *)
Definition reset_grids (dec : nat -> string) (g : gsearch) : gsearch * out :=
  match gs_name g with
  | None => (g, Some (if gs_resets g =? 0 then ETypeError else EAttributeError))
  | Some name =>
      let n := S (gs_resets g) in
      let base := if gs_resets g =? 0 then name
                  else match split_char "_"%char name with
                       | [] => name
                       | p :: ps => fold_left (fun acc q => acc ++ "_" ++ q)%string (removelast ps) p
                       end in
      (GS (Some (base ++ "_" ++ dec n)%string) n (gs_per_bin g) (gs_use_numpy g) (gs_pars g) (gs_spec g)
          (azeros (fit_shape (gs_pars g) ++ gs_spec g)) (azeros (fit_shape (gs_pars g))), None)
  end.

(** ** find_minimum, 560-658 *)
(** a.shape[-1], minimise.py:641-654. *)
Definition last_dim (a : ndarray) : nat := last (ashape a) 0.
(** The entries along the last axis, minimise.py:641. *)
Definition line (a : ndarray) (idx : list nat) : list Qc :=
  map (fun i => aget a (idx ++ [i])%list) (seq 0 (last_dim a)).
(** numpy.argmin(a, axis=last).ravel(); minimise.py:641 *)
Definition argmin_last (a : ndarray) : res (list nat) :=
  if last_dim a =? 0 then Err EValueError
  else rmapM (fun idx => argmin_list (line a idx)) (c_order (removelast (ashape a))).
(** numpy.nanmin(a, axis=last); minimise.py:654 *)
Definition min_last (a : ndarray) : ndarray :=
  ND (removelast (ashape a)) (fun idx => min_list (line a idx)).
(** minimise.py:560-596.  [new_coords] has been flattened, so [multiplier] is a quotient of lengths. *)
Definition update_coords (coords : list (list nat)) (new : list nat) : res (list (list nat)) :=
  if length new =? 0 then Err EZeroDivisionError else
  let mult := length coords / length new in
  rmapM (fun ij => match nth_error coords (fst ij * mult + snd ij) with
                   | Some row => Ok (snd ij :: row)
                   | None => Err EIndexError
                   end) (combine (seq 0 (length new)) new).
(** minimise.py:637-654: [n] dimensions are left, the current one is [n-1] *)
Fixpoint find_loop (n : nat) (minimum : ndarray) (coords : option (list (list nat))) : res (ndarray * option (list (list nat))) :=
  match n with
  | O => Ok (minimum, coords)
  | S dim =>
      do new <- argmin_last minimum;
      do coords' <-
        match coords with
        | None => Ok (map (fun j => [j]) new)
        | Some cs =>
            if 0 <? dim then update_coords cs new
            else match new with
                 | [j] => match nth_error cs j with Some row => Ok [j :: row] | None => Err EIndexError end
                 | _ => Err EIndexError    (* a scalar for a 1-d array; not reached *)
                 end
        end;
      find_loop dim (min_last minimum) (Some coords')
  end.
(** minimise.py:598-658 *)
Definition find_minimum (a : ndarray) : res (Qc * list nat) :=
  do r <- find_loop (andim a) a None;
  match snd r with
  | None => Err EAttributeError
  | Some cs => Ok (aget (fst r) [], concat cs)
  end.
(** minimise.py:348-350: numpy.argmin, numpy.unravel_index, numpy.nanmin *)
Definition numpy_minimum (a : ndarray) : res (Qc * list nat) :=
  let flat := map (aget a) (c_order (ashape a)) in
  do k <- argmin_list flat; Ok (min_list flat, unravel (ashape a) k).

(** ** minimise *)
(** What the objective returns as statistic: a float or an array (minimise.py:326-339). *)
Inductive sres := RNum (x : Qc) | RArr (a : ndarray).

Section Search.
Variable log_grid : fpar -> res (list Qc).
(** The objective: it may keep state, and may raise. *)
Context {St : Type}.
Variable funct : St -> list Qc -> St * res (sres * Qc).
(** test_statistic.get_penalty_term(value, prior, sigma) *)
Variable pen_fun : Qc -> Qc -> Qc -> res Qc.

(** The state of the search: that of the objective and the grids (minimise.py:303-367). *)
Record sstate := SS { ss_obj : St; ss_gs : gsearch }.

(** minimise.py:323-340: one combination of values *)
Definition visit_point (values : list Qc) (indices : list nat) (st : sstate) : sstate * out :=
  let '(o, r) := funct (ss_obj st) values in
  let g := ss_gs st in
  match r with
  | Err e => (SS o g, Some e)
  | Ok (result, penalty) =>
      match (match result with
             | RArr a => Ok a
             | RNum x => if gs_per_bin g then Err ETypeError else Ok (ND [] (fun _ => x))
             end) with
      | Err e => (SS o g, Some e)
      | Ok a =>
          match set_stat g a indices with
          | Err e => (SS o g, Some e)
          | Ok g1 =>
              match set_penalty g1 penalty indices with
              | Err e => (SS o g1, Some e)
              | Ok g2 => (SS o g2, None)
              end
          end
      end
  end.

(** minimise.py:660-693: the recursive generator, with the body of the loop of minimise as [body].
    The caching of the value arrays is left out (it does not change what get_values
    returns). *)
Fixpoint each (l : list Qc) (f : Qc -> sstate -> sstate * out) (st : sstate) : sstate * out :=
  match l with
  | [] => (st, None)
  | v :: l' => match f v st with
               | (st', None) => each l' f st'
               | (st', Some e) => (st', Some e)
               end
  end.
(** minimise.py:675-693, _get_values *)
Fixpoint get_values_rec (ps : list fpar) (values : list Qc) (indices : list nat) (st : sstate) : sstate * out :=
  match ps with
  | [] => visit_point values indices st
  | p :: ps' =>
      match snd (get_values log_grid p) with
      | Err e => (st, Some e)
      | Ok l =>
          each l (fun v st' =>
            match snd (get_value_index log_grid p v) with
            | Err e => (st', Some e)
            | Ok k => get_values_rec ps' (values ++ [v]) (indices ++ [k]) st'
            end) st
      end
  end%list.

(** minimise.py:354-364; zip stops at the shorter list *)
Definition record_one (i : nat) (p : fpar) : res fpar :=
  let '(p', r) := get_value_at log_grid p (Z.of_nat i) in
  do v <- r;
  match fp_sigma p with
  | Some s => do t <- pen_fun v (fp_prior p) s; Ok (set_penalty_term t (set_best_fit v p'))
  | None => Ok (set_penalty_term 0%Qc (set_best_fit v p'))
  end.
(** minimise.py:354-364, the loop over the best-fit position. *)
Fixpoint record_best (pos : list nat) (ps : list fpar) : res (list fpar) :=
  match pos, ps with
  | i :: pos', p :: ps' => do p' <- record_one i p; do r <- record_best pos' ps'; Ok (p' :: r)
  | _, _ => Ok ps
  end.

(** minimise.py:303-367 *)
Definition minimise (st : sstate) : sstate * res (ndarray * ndarray) :=
  match get_values_rec (gs_pars (ss_gs st)) [] [] st with
  | (st1, Some e) => (st1, Err e)
  | (st1, None) =>
      let g := ss_gs st1 in
      match (do m <- get_stats g; if gs_use_numpy g then numpy_minimum m else find_minimum m) with
      | Err e => (st1, Err e)
      | Ok (_, pos) =>
          match record_best pos (gs_pars g) with
          | Err e => (st1, Err e)    (* earlier parameters keep what was set; not modelled *)
          | Ok ps =>
              let g' := gs_with_pars g ps in
              (SS (ss_obj st1) g',
               do s <- get_raw_stat g' pos; do p <- get_penalty_term_at g' pos; Ok (s, p))
          end
      end
  end.

(** minimise.py:103-116, 204-224: reading by parameter values.  [vals] lists the keyword arguments in
    the order of the parameters (a missing one raises KeyError). *)
Definition bins_of (ps : list fpar) (vals : list (string * Qc)) : res (list Z) :=
  rmapM (fun p => match dget (fp_name p) vals with
                  | None => Err EKeyError
                  | Some v => snd (fp_get_bin log_grid p v)
                  end) ps.
(** The bins come from get_bin and are normalised like any numpy index. minimise.py:204-224 *)
Fixpoint norm_prefix (is : list Z) (sh : list nat) : res (list nat) :=
  match is, sh with
  | [], _ => Ok []
  | i :: is', n :: sh' => do k <- norm_index i n; do ks <- norm_prefix is' sh'; Ok (k :: ks)
  | _ :: _, [] => Err EIndexError
  end.
(** minimise.py:103-116, get_penalty_at *)
Definition get_penalty_at (g : gsearch) (vals : list (string * Qc)) : res ndarray :=
  do b <- bins_of (gs_pars g) vals;
  do idx <- norm_prefix b (ashape (gs_pen g)); aindex (gs_pen g) idx.
(** minimise.py:218-219 and 222-223: [shape[0]] of a 0-d array raises; [type(stats) is float] is
    never true of a numpy value *)
Fixpoint squeeze_front (fuel : nat) (a : ndarray) : res ndarray :=
  match fuel with
  | O => Ok a
  | S f => match ashape a with
           | [] => Err EIndexError
           | n :: _ => if n =? 1 then do b <- asum_axis 0 a; squeeze_front f b else Ok a
           end
  end.
(** minimise.py:222-223 *)
Fixpoint squeeze_back (fuel : nat) (a : ndarray) : res ndarray :=
  match fuel with
  | O => Ok a
  | S f => match ashape a with
           | [] => Err EIndexError
           | _ => if last (ashape a) 0 =? 1 then do b <- asum_axis (-1) a; squeeze_back f b else Ok a
           end
  end.
(** minimise.py:204-224, get_raw_stats_at *)
Definition get_raw_stats_at (g : gsearch) (vals : list (string * Qc)) : res ndarray :=
  do b <- bins_of (gs_pars g) vals;
  do idx <- norm_prefix b (ashape (gs_stats g));
  do s <- aindex (gs_stats g) idx;
  do s1 <- squeeze_front (S (andim s)) s;
  squeeze_back (S (andim s1)) s1.
(** minimise.py:175-202: without keyword arguments the spectral dimensions are summed when the shape
    says there are any; with keyword arguments naming a parameter, [par.get_bin] is
    applied to a string *)
Definition get_raw_stats (g : gsearch) (kwargs : list (string * Qc)) : res ndarray :=
  do s <- (if shape_eqb (ashape (gs_stats g)) (fit_shape (gs_pars g) ++ gs_spec g)
           then sum_last (length (gs_spec g)) (gs_stats g) else Ok (gs_stats g));
  match kwargs with
  | [] => Ok s
  | _ => if existsb (fun p => match dget (fp_name p) kwargs with Some _ => true | None => false end) (gs_pars g)
         then Err EAttributeError
         else (* stats[:,:,...] with one colon for each fit parameter *)
           if (length (gs_pars g) =? 0)%nat then Err EValueError (* "stats]": SyntaxError *)
           else if (length (gs_pars g) <=? andim s)%nat then Ok s else Err EIndexError
  end.
End Search.

(** Reading and drawing results: the accessors of LimitResults (echidna/fit/fit_results.py 147-330) and
    the plots of results (echidna/output/plot_root.py 224-548).  As in Model/Plot.v only the axes
    and contents of a picture are modelled. *)
From Verif Require Import Model.Base Model.PyStr Model.NDArray Model.Param Model.Config Model.Spectra Model.FitParam Model.Minimise.
From Verif Require Import Model.FitConfig Model.ConfigFile Model.Store Model.Plot.
Local Open Scope string_scope.
Local Open Scope nat_scope.

(** ** LimitResults *)
(** Assignments to the three arrays, fit_results.py:292, 304, 313. *)
Definition lr_with_stats (r : lresults) (a : ndarray) : lresults :=
  LR (lr_name r) (lr_fit r) (lr_spec r) (lr_spec_name r) (lr_limit r) a (lr_pen r) (lr_best r) (lr_fits r).
(** fit_results.py:304 *)
Definition lr_with_pen (r : lresults) (a : ndarray) : lresults :=
  LR (lr_name r) (lr_fit r) (lr_spec r) (lr_spec_name r) (lr_limit r) (lr_stats r) a (lr_best r) (lr_fits r).
(** fit_results.py:292 *)
Definition lr_with_best (r : lresults) (a : ndarray) : lresults :=
  LR (lr_name r) (lr_fit r) (lr_spec r) (lr_spec_name r) (lr_limit r) (lr_stats r) (lr_pen r) a (lr_fits r).
(** [a[i][k]] and [a[i, k]] of a two-dimensional array; [i] as numpy takes it;
    fit_results.py:148-159, 247-258 *)
Definition cell (a : ndarray) (i : Z) (k : nat) : res (nat * nat) :=
  do idx <- norm_indices [i; Z.of_nat k] (ashape a);
  match idx with [x; y] => Ok (x, y) | _ => Err EIndexError end.
(** [a[:, k]]: the column as a list; fit_results.py:161-171, 235-245 *)
Definition column (a : ndarray) (k : nat) : res (list Qc) :=
  match ashape a with
  | [n; m] => if k <? m then Ok (map (fun i => aget a [i; k]) (seq 0 n)) else Err EIndexError
  | _ => Err EIndexError
  end.
(** [a[i]] of a two-dimensional array: the row as a list; fit_results.py:224-233 *)
Definition row (a : ndarray) (i : Z) : res (list Qc) :=
  match ashape a with
  | [n; m] => do x <- norm_index i n; Ok (map (fun k => aget a [x; k]) (seq 0 m))
  | _ => Err EIndexError
  end.
(** [a[i]] of a one-dimensional array; fit_results.py:173-213 *)
Definition entry1 (a : ndarray) (i : Z) : res Qc :=
  do idx <- norm_indices [i] (ashape a); Ok (aget a idx).

(** fit_results.py:147-159, get_best_fit *)
Definition lr_get_best_fit (r : lresults) (i : Z) (par : string) : res Qc :=
  do k <- gc_get_index (lr_fit r) par;
  do c <- cell (lr_best r) i k; Ok (aget (lr_best r) [fst c; snd c]).
(** fit_results.py:160-171, get_best_fits.  The code returns a view of the array, see
    [plot_sigma_best_fit_vs_scale]. *)
Definition lr_get_best_fits (r : lresults) (par : string) : res (list Qc) :=
  do k <- gc_get_index (lr_fit r) par; column (lr_best r) k.
(** fit_results.py:172-186, get_full_stat: numpy.sum of one number *)
Definition lr_get_full_stat (r : lresults) (i : Z) : res Qc :=
  do s <- entry1 (lr_stats r) i;
  do l <- row (lr_pen r) i;
  Ok (fold_left Qcplus l s).
(** fit_results.py:187-202, get_full_stats *)
Definition lr_get_full_stats (r : lresults) : res (list Qc) :=
  match ashape (lr_stats r) with
  | [n] => rmapM (fun i => lr_get_full_stat r (Z.of_nat i)) (seq 0 n)
  | _ => Err EValueError
  end.
(** fit_results.py:203-214, get_limit_stat: there is no attribute _limit_stat *)
Definition lr_get_limit_stat (r : lresults) (i : Z) : res Qc := Err EAttributeError.
(** fit_results.py:215-223, get_stats *)
Definition lr_get_stats (r : lresults) : res (list Qc) := items1 (lr_stats r).
(** fit_results.py:224-234, get_penalty_terms_at_scale *)
Definition lr_get_penalty_terms_at_scale (r : lresults) (i : Z) : res (list Qc) := row (lr_pen r) i.
(** fit_results.py:235-246, get_penalty_terms *)
Definition lr_get_penalty_terms (r : lresults) (par : string) : res (list Qc) :=
  do k <- gc_get_index (lr_fit r) par; column (lr_pen r) k.
(** fit_results.py:247-259, get_penalty_term *)
Definition lr_get_penalty_term (r : lresults) (i : Z) (par : string) : res Qc :=
  do k <- gc_get_index (lr_fit r) par;
  do c <- cell (lr_pen r) i k; Ok (aget (lr_pen r) [fst c; snd c]).
(** The four set methods, fit_results.py:269-330. *)
Inductive lop :=
| SetBest (i : Z) (v : Qc) (par : string)
| SetPenalty (i : Z) (v : Qc) (par : string)
| SetStat (i : Z) (v : Qc).
(** fit_results.py:269-314: set_best_fit, set_penalty_term, set_limit_stat *)
Definition lr_set (r : lresults) (o : lop) : lresults * out :=
  let x := match o with
           | SetBest i v par =>
               do k <- gc_get_index (lr_fit r) par;
               do c <- cell (lr_best r) i k; Ok (lr_with_best r (aset (lr_best r) [fst c; snd c] v))
           | SetPenalty i v par =>
               do k <- gc_get_index (lr_fit r) par;
               do c <- cell (lr_pen r) i k; Ok (lr_with_pen r (aset (lr_pen r) [fst c; snd c] v))
           | SetStat i v =>
               do idx <- norm_indices [i] (ashape (lr_stats r)); Ok (lr_with_stats r (aset (lr_stats r) idx v))
           end in
  match x with Ok r' => (r', None) | Err e => (r, Some e) end.

(** ** Graphs *)
(** ROOT.TGraph(n, x, y), plot_root.py:239: the first n points.  ROOT reads beyond the end of a
    shorter buffer; here that is an error.  ROOT is assumed to read the elements of the array it is
    given, also when that is a column of a larger array. *)
Definition tgraph (n : nat) (x y : list Qc) : res (list (Qc * Qc)) :=
  if (n <=? length x) && (n <=? length y) then Ok (firstn n (List.combine x y)) else Err EException.

Section Graphs.
(** The logarithmic grids, as in Model/FitParam.v. *)
Variable log_grid : fpar -> res (list Qc).

(** fit_results.py:260-268, get_scales.  The values are kept in the parameter; only what is returned
    matters here. *)
Definition lr_get_scales (r : lresults) : res (list Qc) :=
  do rate <- dlookup "rate" (sf_pars (lr_limit r)); snd (get_values log_grid (cp_par rate)).
(** plot_root.py:224-246, plot_stats_vs_scale *)
Definition plot_stats_vs_scale (r : lresults) : res (list (Qc * Qc)) :=
  do x <- lr_get_scales r; do y <- lr_get_full_stats r; tgraph (length x) x y.
(** plot_root.py:385-408, plot_best_fit_vs_scale *)
Definition plot_best_fit_vs_scale (r : lresults) (par : string) : res (list (Qc * Qc)) :=
  do x <- lr_get_scales r; do y <- lr_get_best_fits r par; tgraph (length x) x y.
(** plot_root.py:526-548, plot_penalty_term_vs_scale *)
Definition plot_penalty_term_vs_scale (r : lresults) (par : string) : res (list (Qc * Qc)) :=
  do x <- lr_get_scales r; do y <- lr_get_penalty_terms r par; tgraph (length x) x y.
(** [best_fits -= prior] and [best_fits /= sigma], plot_root.py:428-429, on the view that
    get_best_fits returned: the column of the array itself changes *)
Definition on_column (k : nat) (f : Qc -> Qc) (a : ndarray) : ndarray :=
  ND (ashape a) (fun idx => match idx with [i; j] => if j =? k then f (aget a idx) else aget a idx | _ => aget a idx end).
(** plot_root.py:411-438, plot_sigma_best_fit_vs_scale.  Without sigma the division raises TypeError
    after the subtraction; a sigma of 0 gives infinities, which are not modelled (x/0 = 0). *)
Definition plot_sigma_best_fit_vs_scale (r : lresults) (par : string) : lresults * res (list (Qc * Qc)) :=
  match (do k <- gc_get_index (lr_fit r) par; do c <- column (lr_best r) k; do p <- gc_get_par (lr_fit r) par; Ok (k, cp_par p)) with
  | Err e => (r, Err e)
  | Ok (k, p) =>
      let r1 := lr_with_best r (on_column k (fun b => b - fp_prior p)%Qc (lr_best r)) in
      match fp_sigma p with
      | None => (r1, Err ETypeError)
      | Some sigma =>
          let r2 := lr_with_best r1 (on_column k (fun b => b / sigma)%Qc (lr_best r1)) in
          (r2, do x <- lr_get_scales r2; do y <- lr_get_best_fits r2 par; tgraph (length x) x y)
      end
  end.

(** ** Results of a fit on a grid *)
(** minimise.py:233-242, get_scales *)
Definition fr_get_scales (f : fresults) (par : string) : res (list Qc) :=
  do p <- gc_get_par (fr_fit f) par; snd (get_values log_grid (cp_par p)).
(** minimise.py:144-154, get_penalty_terms: with more than one parameter the index of the parameter
    is used as an index along the first axis of the grid *)
Definition fr_get_penalty_terms (f : fresults) (par : string) : res ndarray :=
  if (length (gc_get_pars (fr_fit f)) =? 1) then Ok (gs_pen (fr_search f))
  else do k <- gc_get_index (fr_fit f) par; aindex (gs_pen (fr_search f)) [k].
(** The buffer of an array as ROOT reads it: all entries in C order. plot_root.py:224-246 *)
Definition flat (a : ndarray) : list Qc := map (aget a) (c_order (ashape a)).
(** plot_root.py:248-271, plot_raw_stats_vs_par_scale *)
Definition plot_raw_stats_vs_par_scale (f : fresults) (par : string) (kw : list (string * Qc)) : res (list (Qc * Qc)) :=
  do x <- fr_get_scales f par; do s <- get_raw_stats (fr_search f) kw; tgraph (length x) x (flat s).
(** plot_root.py:360-382, plot_stats_vs_par_scale *)
Definition plot_stats_vs_par_scale (f : fresults) (par : string) : res (list (Qc * Qc)) :=
  do x <- fr_get_scales f par; do s <- get_stats (fr_search f); tgraph (length x) x (flat s).
(** plot_root.py:501-523, plot_penalty_term_vs_par_scale *)
Definition plot_penalty_term_vs_par_scale (f : fresults) (par : string) : res (list (Qc * Qc)) :=
  do x <- fr_get_scales f par; do s <- fr_get_penalty_terms f par; tgraph (length x) x (flat s).

(** The empty histogram of plot_root.py:293-294 and 334-335 *)
Definition par_h2 (p1 p2 : fpar) : hist2 :=
  new_h2 (fp_bins p1) (fp_low p1) (fp_high p1) (fp_bins p2) (fp_low p2) (fp_high p2).
(** plot_root.py:273-312, plot_raw_stats_vs_pars *)
Definition plot_raw_stats_vs_pars (f : fresults) (par1 par2 : string) (kw : list (string * Qc)) : res hist2 :=
  do p1 <- gc_get_par (fr_fit f) par1;
  do p2 <- gc_get_par (fr_fit f) par2;
  do s <- get_raw_stats (fr_search f) kw;
  do i1 <- gc_get_index (fr_fit f) par1;
  do i2 <- gc_get_index (fr_fit f) par2;
  do ls <- items2 s;
  Ok (set_rows (negb (i1 <? i2)) 1 ls (par_h2 (cp_par p1) (cp_par p2))).
(** plot_root.py:340-351: a keyword argument is replaced *)
Definition put_kw (k : string) (v : Qc) (kw : list (string * Qc)) : list (string * Qc) := dset k v kw.
(** plot_root.py:338-351: one entry of the table with its penalty term.  kwargs keeps the values of the
    entry before, which are replaced. *)
Definition with_penalty (f : fresults) (kw : list (string * Qc)) (ordered : bool) (p1 p2 : fpar) (par1 par2 : string)
  (a b : nat) (datum : Qc) : res Qc :=
  do v1 <- snd (get_value_at log_grid p1 (Z.of_nat (if ordered then a else b)));
  do v2 <- snd (get_value_at log_grid p2 (Z.of_nat (if ordered then b else a)));
  do pen <- get_penalty_at log_grid (fr_search f) (put_kw par2 v2 (put_kw par1 v1 kw));
  match ashape pen with
  | [] => Ok (datum + aget pen [])%Qc
  | _ => Err ETypeError
  end.
(** enumerate, plot_root.py:338-339 *)
Fixpoint rmap_at {A B} (f : nat -> A -> res B) (i : nat) (l : list A) : res (list B) :=
  match l with
  | [] => Ok []
  | x :: l' => do y <- f i x; do ys <- rmap_at f (S i) l'; Ok (y :: ys)
  end.
(** plot_root.py:315-357, plot_stats_vs_pars: the penalty terms are looked up by value while filling;
    an error ends the loop, so they can be looked up first *)
Definition plot_stats_vs_pars (f : fresults) (par1 par2 : string) (kw : list (string * Qc)) : res hist2 :=
  do p1 <- gc_get_par (fr_fit f) par1;
  do p2 <- gc_get_par (fr_fit f) par2;
  do s <- get_raw_stats (fr_search f) kw;
  do i1 <- gc_get_index (fr_fit f) par1;
  do i2 <- gc_get_index (fr_fit f) par2;
  do ls <- items2 s;
  do ls' <- rmap_at (fun a l => rmap_at (fun b d => with_penalty f kw (i1 <? i2) (cp_par p1) (cp_par p2) par1 par2 a b d) 0 l) 0 ls;
  Ok (set_rows (negb (i1 <? i2)) 1 ls' (par_h2 (cp_par p1) (cp_par p2))).

(** plot_root.py:462-467: the best fit values by name; get_summary raises ValueError if one is missing *)
Definition best_values (g : gconfig) : res (list (string * Qc)) :=
  rmapM (fun ke => do b <- get_best_fit (cp_par (ge_par (snd ke)));
                   do _ <- get_penalty_term (cp_par (ge_par (snd ke))); Ok (fst ke, b)) (gc_pars g).
(** A one- or two-dimensional picture; plot_root.py:274-312, 441-499 *)
Inductive picture := Pic1 (h : hist1) | Pic2 (h : hist2).
(** plot_root.py:441-498, plot_per_bin: both indices are those of x_dim (474-475) *)
Definition plot_per_bin (f : fresults) (min_chisq : bool) (x_dim : string) (y_dim : option string) (kw : list (string * Qc)) : res picture :=
  do vals <- (if min_chisq then best_values (fr_fit f) else Ok kw);
  do s <- get_raw_stats_at log_grid (fr_search f) vals;
  match y_dim with
  | Some y =>
      do px <- get_par (fr_spec f) x_dim;
      do py <- get_par (fr_spec f) y;
      do ix <- get_index (fr_spec f) x_dim;
      do iy <- get_index (fr_spec f) x_dim;
      do ls <- items2 s;
      Ok (Pic2 (set_rows (negb (ix <? iy)) 1 ls (new_h2 (sp_bins px) (sp_low px) (sp_high px) (sp_bins py) (sp_low py) (sp_high py))))
  | None =>
      do px <- get_par (fr_spec f) x_dim;
      do l <- items1 s;
      Ok (Pic1 (set_bins 1 l (new_h1 (sp_bins px) (sp_low px) (sp_high px))))
  end.
End Graphs.

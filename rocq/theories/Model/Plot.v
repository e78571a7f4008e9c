(** Plots of spectra: echidna/output/plot_root.py 9-77 and echidna/output/plot.py.  Only what a
    plot shows is modelled: the axes and the bin contents.  Names, titles, colours, legends, the
    canvas and the "Return to quit" prompts are not. *)
From Verif Require Import Model.Base Model.PyStr Model.NDArray Model.Param Model.Config Model.Spectra.
From Verif Require Import Model.FloatFill.
From Flocq Require Import IEEE754.Binary IEEE754.Bits.
Local Open Scope Z_scope.

(** ROOT.TH1D, plot_root.py:26-29: [h1_at b] is GetBinContent(b); bin 0 is the underflow, bins
    1 .. n the bins of the axis, bin n+1 the overflow. *)
Record hist1 := H1 { h1_bins : Z; h1_low : Qc; h1_high : Qc; h1_at : Z -> Qc }.
(** ROOT.TH2D, plot_root.py:59-66 *)
Record hist2 := H2 {
  h2_xbins : Z; h2_xlow : Qc; h2_xhigh : Qc;
  h2_ybins : Z; h2_ylow : Qc; h2_yhigh : Qc;
  h2_at : Z -> Z -> Qc }.
(** plot_root.py:26-29; ROOT replaces a number of bins below 1, which is not modelled *)
Definition new_h1 (bins : Z) (low high : Qc) : hist1 := H1 bins low high (fun _ => 0%Qc).
(** plot_root.py:59-66 *)
Definition new_h2 (xb : Z) (xl xh : Qc) (yb : Z) (yl yh : Qc) : hist2 :=
  H2 xb xl xh yb yl yh (fun _ _ => 0%Qc).
(** TH1::SetBinContent(bin, v), plot_root.py:32: nothing happens for a bin that does not exist *)
Definition h1_set (b : Z) (v : Qc) (h : hist1) : hist1 :=
  if (0 <=? b) && (b <=? h1_bins h + 1)
  then H1 (h1_bins h) (h1_low h) (h1_high h) (fun b' => if b' =? b then v else h1_at h b')
  else h.
(** TH2::GetBin: a bin number that does not exist means the underflow or the overflow bin;
    plot_root.py:70, 297-302 *)
Definition clamp (b n : Z) : Z := Z.max 0 (Z.min b (n + 1)).
(** TH2::SetBinContent(x, y, v), plot_root.py:70 *)
Definition h2_set (x y : Z) (v : Qc) (h : hist2) : hist2 :=
  let cx := clamp x (h2_xbins h) in
  let cy := clamp y (h2_ybins h) in
  H2 (h2_xbins h) (h2_xlow h) (h2_xhigh h) (h2_ybins h) (h2_ylow h) (h2_yhigh h)
    (fun x' y' => if (x' =? cx) && (y' =? cy) then v else h2_at h x' y').

(** Iterating over a one-dimensional array (enumerate, plot_root.py:31).  Other shapes
    end in a TypeError of SetBinContent, or have nothing to iterate over; both are TypeError here. *)
Definition items1 (a : ndarray) : res (list Qc) :=
  match ashape a with
  | [n] => Ok (map (fun i => aget a [i]) (seq 0 n))
  | _ => Err ETypeError
  end.
(** Iterating over the rows of a two-dimensional array, plot_root.py:68-69 *)
Definition items2 (a : ndarray) : res (list (list Qc)) :=
  match ashape a with
  | [n; m] => Ok (map (fun i => map (fun j => aget a [i; j]) (seq 0 m)) (seq 0 n))
  | _ => Err ETypeError
  end.
(** plot_root.py:31-32; [b] is index + 1 *)
Fixpoint set_bins (b : Z) (l : list Qc) (h : hist1) : hist1 :=
  match l with
  | [] => h
  | v :: l' => set_bins (b + 1) l' (h1_set b v h)
  end.
(** plot_root.py:69-70, 307-311: one row.  [flip] says that the row number is the y bin. *)
Fixpoint set_row (flip : bool) (r c : Z) (l : list Qc) (h : hist2) : hist2 :=
  match l with
  | [] => h
  | v :: l' => set_row flip r (c + 1) l' (if flip then h2_set c r v h else h2_set r c v h)
  end.
(** plot_root.py:68-70, 305-311 *)
Fixpoint set_rows (flip : bool) (r : Z) (ls : list (list Qc)) (h : hist2) : hist2 :=
  match ls with
  | [] => h
  | l :: ls' => set_rows flip (r + 1) ls' (set_row flip r 1 l h)
  end.

(** plot_root.py:9-39, plot_projection *)
Definition root_projection (s : spectra) (dim : string) : res hist1 :=
  do p <- get_par (s_cfg s) dim;
  do a <- project dim s;
  do l <- items1 a;
  Ok (set_bins 1 l (new_h1 (sp_bins p) (sp_low p) (sp_high p))).
(** plot_root.py:42-77, plot_surface *)
Definition root_surface (s : spectra) (d1 d2 : string) : res hist2 :=
  do p1 <- get_par (s_cfg s) d1;
  do p2 <- get_par (s_cfg s) d2;
  do a <- surface d1 d2 s;
  do ls <- items2 a;
  Ok (set_rows false 1 ls
        (new_h2 (sp_bins p1) (sp_low p1) (sp_high p1) (sp_bins p2) (sp_low p2) (sp_high p2))).

(** ** matplotlib, echidna/output/plot.py *)
(** plot.py:7-23, _produce_axis *)
Definition produce_axis (s : spectra) (dim : string) : res (list Qc) :=
  do p <- get_par (s_cfg s) dim;
  do w <- get_width p;
  do l <- arange (sp_low p) (sp_high p) w;
  Ok (map (fun x => x + qq 1 2 * w)%Qc l).
(** plot.py:26-43, _produce_bins *)
Definition produce_bins (s : spectra) (dim : string) : res (list Qc) :=
  do p <- get_par (s_cfg s) dim;
  linspace (sp_low p) (sp_high p) (sp_bins p + 1).
(** What Axes.hist draws: the edges of the bars and their heights, plot.py:75. *)
Record bars := Bars { b_edges : list Qc; b_heights : list Qc }.
(** Sum of the weights of the values in [lo, hi), or [lo, hi] for the last bar; plot.py:76, 181-193 *)
Fixpoint weigh (closed : bool) (lo hi : Qc) (xs ws : list Qc) : Qc :=
  match xs, ws with
  | x :: xs', w :: ws' =>
      ((if qle lo x && (if closed then qle x hi else qlt x hi) then w else 0)
       + weigh closed lo hi xs' ws')%Qc
  | _, _ => 0%Qc
  end.
(** The heights for a list of increasing edges; plot.py:76, 181-193 *)
Fixpoint heights (edges xs ws : list Qc) : list Qc :=
  match edges with
  | lo :: (hi :: rest) as tl =>
      weigh (match rest with [] => true | _ => false end) lo hi xs ws :: heights tl xs ws
  | _ => []
  end.
(** Axes.hist(x, bins, weights=w), plot.py:75, 179: numpy.histogram; ValueError when there are not
    as many weights as values *)
Definition hist (xs edges ws : list Qc) : res bars :=
  if (length xs =? length ws)%nat then Ok (Bars edges (heights edges xs ws)) else Err EValueError.
(** plot.py:46-82, plot_projection *)
Definition mpl_projection (s : spectra) (dim : string) : res bars :=
  do p <- get_par (s_cfg s) dim;
  do w <- get_width p;
  do bins <- produce_bins s dim;
  do x <- produce_axis s dim;
  do a <- project dim s;
  do l <- items1 a;
  hist x bins l.

(** plot.py:129-154: every spectrum must have the limits and the number of bins of the first.
    AssertionError is Exception here. *)
Fixpoint check_axes (first : option spar) (l : list (spectra * bool)) (dim : string) : res unit :=
  match l with
  | [] => Ok tt
  | (s, _) :: l' =>
      do p <- get_par (s_cfg s) dim;
      match first with
      | None => check_axes (Some p) l' dim
      | Some f =>
          if negb (qeq (sp_low p) (sp_low f)) then Err EException
          else if negb (qeq (sp_high p) (sp_high f)) then Err EException
          else if negb (sp_bins p =? sp_bins f) then Err EException
          else check_axes first l' dim
      end
  end.
(** [+] of two one-dimensional arrays (no broadcasting of length one), plot.py:182-183 *)
Definition vadd (a b : list Qc) : res (list Qc) :=
  if (length a =? length b)%nat then Ok (map (fun p => fst p + snd p)%Qc (List.combine a b))
  else Err EValueError.
(** plot.py:165-183: the bars of the spectra, the summed background and the sum *)
Fixpoint draw_all (x bins : list Qc) (l : list (spectra * bool)) (dim : string) (bg tot : list Qc)
  : res (list bars * list Qc * list Qc) :=
  match l with
  | [] => Ok ([], bg, tot)
  | (s, is_bg) :: l' =>
      do a <- project dim s;
      do d <- items1 a;
      do h <- hist x bins d;
      do bg' <- (if is_bg then vadd bg d else Ok bg);
      do tot' <- vadd tot d;
      do r <- draw_all x bins l' dim bg' tot';
      let '(hs, bg2, tot2) := r in
      Ok (h :: hs, bg2, tot2)
  end.
(** What spectral_plot draws, in its order (the standard-error band of plot.py:187-190 is the
    summed background plus and minus its root and is not modelled, nor is the chi squared panel). *)
Record splot := SPlot { pl_spectra : list bars; pl_bg : bars; pl_sum : bars; pl_limit : option bars }.
(** plot.py:85-241, spectral_plot.  [l]: the values of spectra_dict in the order of the dictionary,
    with whether value.get("type") is the object "background" (a test of identity, plot.py:181).  An
    empty dictionary leaves [spectra] unbound (NameError, here Exception). *)
Definition spectral_plot (l : list (spectra * bool)) (dim : string) (limit : option spectra) : res splot :=
  do _ <- check_axes None l dim;
  match l, rev l with
  | (s0, _) :: _, (sl, _) :: _ =>
      do p <- get_par (s_cfg s0) dim;
      do x <- produce_axis sl dim;
      do bins <- produce_bins sl dim;
      let z := repeat 0%Qc (Z.to_nat (sp_bins p)) in
      do r <- draw_all x bins l dim z z;
      let '(hs, bg, tot) := r in
      do hb <- hist x bins bg;
      do ht <- hist x bins tot;
      do hl <- match limit with
               | None => Ok None
               | Some s => do a <- project dim s; do d <- items1 a; do h <- hist x bins d; Ok (Some h)
               end;
      Ok (SPlot hs hb ht hl)
  | _, _ => Err EException
  end.

(** What pcolormesh is given, plot.py:244-290: the coordinates of the columns and rows, and the
    content: [content row column].  A row of the array is drawn at one y coordinate. *)
Record mesh := Mesh { m_xdim : string; m_ydim : string; m_x : list Qc; m_y : list Qc; m_rows : list (list Qc) }.
(** plot.py:244-290, plot_surface *)
Definition mpl_surface (s : spectra) (d1 d2 : string) : res mesh :=
  do i1 <- get_index (s_cfg s) d1;
  do i2 <- get_index (s_cfg s) d2;
  let '(dx, dy) := if (i1 <? i2)%nat then (d2, d1) else (d1, d2) in
  do x <- produce_axis s dx;
  do y <- produce_axis s dy;
  do a <- surface d1 d2 s;
  do ls <- items2 a;
  Ok (Mesh dx dy x y ls).

(** ** The same axis in binary64 *)
(** parameter.py:97-103, get_width *)
Definition f_width (low high : binary64) (bins : Z) : binary64 := f_div (f_sub high low) (f_int bins).
(** len(numpy.arange(low, high, width)), plot.py:23: numpy takes ceil((stop - start)/step), computed
    in binary64; none if negative.  An infinity or nan is not modelled (0 values). *)
Definition f_arange_len (low high width : binary64) : Z :=
  let q := f_div (f_sub high low) width in
  match f_trunc q with
  | Ok t => Z.max 0 (if f_lt (f_int t) q then t + 1 else t)
  | Err _ => 0
  end.
(** plot.py:68-75 in binary64: does Axes.hist get as many values as weights?  project gives one
    value for each bin. *)
Definition f_hist_ok (low high : binary64) (bins : Z) : bool :=
  f_arange_len low high (f_width low high bins) =? bins.

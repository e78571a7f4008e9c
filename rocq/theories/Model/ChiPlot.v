(** What the functions of echidna/output/plot_chi_squared.py, echidna/output/plot_chi_squared_root.py and
    the first half of echidna/output/plot_root.py draw.  The objects they are given (signal configuration,
    systematic analyser, calculator) are known to them only by the arrays below.
    Not modelled: colours, levels, labels, saving and showing; numpy's nan for an average of nothing. *)
From Coq Require Import Reals.
From Verif Require Import Model.Base Model.PyStr Model.NDArray Model.Param Model.Config Model.Spectra Model.Plot.
Local Open Scope list_scope.

(** get_chi_squareds()[0] and [2] of a signal configuration, plot_chi_squared.py:63, 74, 77;
    plot_chi_squared_root.py:15-16 *)
Record sigconf (A : Type) := SigConf { sc_chis : list A; sc_counts : list A }.
Arguments SigConf {A}. Arguments sc_chis {A}. Arguments sc_counts {A}.
(** plt.plot(x, y): ValueError if there are not as many of both, plot_chi_squared.py:81-86 *)
Definition plot_line {A} (x y : list A) : res (list (A * A)) :=
  if Nat.eqb (length x) (length y) then Ok (List.combine x y) else Err EValueError.
(** plot_chi_squared.py:22-98, chi_squared_vs_signal.  Lines 62-66 come after line 55 has raised.
    Line 71 calls append of a numpy array for each count. *)
Definition chi_squared_vs_signal {A} (conf : sigconf A) (converter : bool) (penalty : option (sigconf A)) (effective_mass half_life : bool) : res (list (list (A * A))) :=
  if (negb converter && half_life) || effective_mass then Err ETypeError            (* 55 *)
  else
    do x <- (if half_life then match sc_counts conf with [] => Ok [] | _ :: _ => Err EAttributeError end   (* 69-71 *)
             else Ok (sc_counts conf));                                                (* 73 *)
    do s1 <- plot_line x (sc_chis conf);
    match penalty with
    | Some p => do s2 <- plot_line x (sc_chis p); Ok [s1; s2]                          (* 79-83 *)
    | None => Ok [s1]                                                                  (* 86 *)
    end.
(** plot_chi_squared_root.py:5-20: TGraph(n, x, y) takes n numbers from each array; fewer y than x
    would be read from beyond the array, ValueError here *)
Definition root_vs_signal {A} (conf : sigconf A) : res (list (A * A)) :=
  if Nat.leb (length (sc_counts conf)) (length (sc_chis conf)) then Ok (List.combine (sc_counts conf) (sc_chis conf)) else Err EValueError.
(** plot_chi_squared_root.py:38-40, 61-63: a point for each count *)
Fixpoint root_points (point : R -> res R) (x y : list R) : res (list (R * R)) :=
  match x with
  | [] => Ok []
  | c :: x' =>
      do a <- point c;
      match y with
      | [] => Err EIndexError
      | v :: y' => do l <- root_points point x' y'; Ok ((a, v) :: l)
      end
  end.
(** plot_chi_squared_root.py:23-43, chi_squared_vs_half_life; [convert] is converter.counts_to_half_life *)
Definition root_vs_half_life (conf : sigconf R) (convert : R -> res R) : res (list (R * R)) :=
  root_points (fun c => do t <- convert c; Ok (/ t)%R) (sc_counts conf) (sc_chis conf).
(** plot_chi_squared_root.py:46-66, chi_squared_vs_mass; [convert] is converter.counts_to_eff_mass *)
Definition root_vs_mass (conf : sigconf R) (convert : R -> res R) : res (list (R * R)) :=
  root_points convert (sc_counts conf) (sc_chis conf).

(** The arrays of a systematic analyser: counts, values of the systematic, chi squareds (counts x fits x
    values), preferred values (counts x fits), minima, and the two rows of _penalty_values;
    plot_chi_squared.py:127-139, 243-244, 377 *)
Record analyser := Analyser {
  an_counts : list Qc; an_values : list Qc; an_chis : ndarray; an_preferred : ndarray;
  an_minima : list Qc * list Qc; an_penalties : list Qc * list Qc }.
(** numpy.average(a, axis=1), plot_chi_squared.py:131, 135, 280, 370 *)
Definition average1 (a : ndarray) : res ndarray :=
  do s <- asum_axis 1 a; Ok (amap (fun v => v / nq (nth 1 (ashape a) 0%nat))%Qc s).
(** numpy.transpose, plot_chi_squared.py:132, 281, 371 *)
Definition atranspose (a : ndarray) : ndarray := ND (rev (ashape a)) (fun idx => aget a (rev idx)).
(** plot_chi_squared.py:131-132, 280-281, 370-371 *)
Definition chi_data (an : analyser) : res ndarray := do d <- average1 (an_chis an); Ok (atranspose d).
(** A coloured rectangle: its sides and the value that gives the colour; plot_chi_squared.py:197, 325, 416 *)
Record tile := Tile { t_x0 : Qc; t_x1 : Qc; t_y0 : Qc; t_y1 : Qc; t_value : Qc }.
(** pcolormesh (matplotlib before 3.3) on a numpy.meshgrid of x and y: the rectangles are between
    neighbouring coordinates, so that a row and a column more than there are rectangles are left out;
    arrays of another shape raise TypeError.  plot_chi_squared.py:142, 197, 284, 325, 374, 416 *)
Definition pcolormesh (x y : list Qc) (c : ndarray) : res (list tile) :=
  match ashape c with
  | [m; n] =>
      if (Nat.eqb n (length x) || Nat.eqb (S n) (length x)) && (Nat.eqb m (length y) || Nat.eqb (S m) (length y)) then
        Ok (flat_map (fun j => map (fun i =>
              Tile (nth i x 0%Qc) (nth (S i) x 0%Qc) (nth j y 0%Qc) (nth (S j) y 0%Qc) (aget c [j; i]))
            (seq 0 (length x - 1))) (seq 0 (length y - 1)))
      else Err ETypeError
  | _ => Err ETypeError
  end.
(** data.min(): ValueError for an array without elements, plot_chi_squared.py:147, 303, 392 *)
Definition nonempty (a : ndarray) : res unit := if Nat.eqb (asize (ashape a)) 0 then Err EValueError else Ok tt.
(** plot_chi_squared.py:101-219, chi_squared_map without contours: the rectangles and the two lines *)
Definition chi_squared_map (an : analyser) (preferred minima : bool) : res (list tile * list (list (Qc * Qc))) :=
  do data <- chi_data an;                                                              (* 131-132 *)
  do p <- average1 (an_preferred an);                                                  (* 135 *)
  do y2 <- items1 p;
  do _ <- nonempty data;                                                               (* 147 *)
  do t <- pcolormesh (an_counts an) (an_values an) data;                               (* 197 *)
  do l1 <- (if preferred then do l <- plot_line (an_counts an) y2; Ok [l] else Ok []); (* 207-208 *)
  do l2 <- (if minima then do l <- plot_line (fst (an_minima an)) (snd (an_minima an)); Ok [l] else Ok []);   (* 209-210 *)
  Ok (t, l1 ++ l2).
(** plot_chi_squared.py:222-253, penalty_vs_systematic; line 252 has [kwagrs], a name that does not exist
    (NameError) *)
Definition penalty_vs_systematic (an : analyser) (save_as : bool) : res (list (Qc * Qc)) :=
  do l <- plot_line (fst (an_penalties an)) (snd (an_penalties an));
  if save_as then Err EException else Ok l.
(** plot_chi_squared.py:292-293: one row of the array of chi squareds without systematic *)
Fixpoint fill_row (n y x : nat) (l : list Qc) (a : ndarray) : res ndarray :=
  match l with
  | [] => Ok a
  | v :: l' => if Nat.ltb x n then fill_row n y (S x) l' (aset a [y; x] v) else Err EIndexError
  end.
(** plot_chi_squared.py:291-293: [todo] rows *)
Fixpoint fill_rows (n y todo : nat) (l : list Qc) (a : ndarray) : res ndarray :=
  match todo with
  | O => Ok a
  | S k => do b <- fill_row n y 0 l a; fill_rows n (S y) k l b
  end.
(** a - b for arrays of one shape, plot_chi_squared.py:298, 387 *)
Definition aminus (a b : ndarray) : ndarray := ND (ashape a) (fun idx => aget a idx - aget b idx)%Qc.
(** plot_chi_squared.py:256-342, turn_on *)
Definition turn_on (an : analyser) (conf : sigconf Qc) : res (list tile) :=
  do data <- chi_data an;
  match ashape data with
  | [m; n] =>
      do np <- fill_rows n 0 m (sc_chis conf) (azeros [m; n]);                         (* 290-293 *)
      let offsets := aminus data np in                                                 (* 298 *)
      do _ <- nonempty offsets;                                                        (* 303 *)
      pcolormesh (an_counts an) (an_values an) offsets                                 (* 325 *)
  | _ => Err ETypeError
  end.
(** plot_chi_squared.py:380-382: row y gets its penalty value in every column *)
Fixpoint fill_penalties (m n y : nat) (l : list Qc) (a : ndarray) : res ndarray :=
  match l with
  | [] => Ok a
  | v :: l' => if Nat.ltb y m then do b <- fill_row n y 0 (repeat v n) a; fill_penalties m n (S y) l' b else Err EIndexError
  end.
(** plot_chi_squared.py:345-433, push_pull *)
Definition push_pull (an : analyser) : res (list tile) :=
  do data <- chi_data an;
  match ashape data with
  | [m; n] =>
      let penalty_values := firstn (length (an_values an)) (snd (an_penalties an)) in  (* 377 *)
      do pen <- fill_penalties m n 0 penalty_values (azeros [m; n]);                   (* 379-382 *)
      let push := aminus (amap (fun v => nq 2 * v)%Qc pen) data in                     (* 387 *)
      do _ <- nonempty push;                                                           (* 392 *)
      pcolormesh (an_counts an) (an_values an) push
  | _ => Err ETypeError
  end.

(** plot_root.py:190-221, plot_chi_squared_per_bin; [chis] is calculator.get_chi_squared_per_bin() *)
Definition plot_chi_squared_per_bin (chis : list Qc) (bins : Z) (low high : Qc) : hist1 :=
  set_bins 1 chis (new_h1 bins low high).
(** plot_root.py:80-187, spectral_plot, up to line 144, which calls SetLineStyle of a numpy array: the
    histogram of line 139 has been replaced in line 141.  Without spectra line 176 uses a name that has no
    value (UnboundLocalError). *)
Definition root_spectral_plot (l : list spectra) (dim : string) : res unit :=
  match l with
  | [] => Err EException
  | s :: _ =>
      do t <- get_dim_type (s_cfg s) dim;
      do p <- get_par (s_cfg s) (dim ++ "_" ++ t)%string;
      Err EAttributeError
  end.

(** echidna/calc/decay.py: DBIsotope, over the real numbers; echidna/calc/constants.py.
    Division by zero is shown as ZeroDivisionError also where numpy gives inf and a
    warning, the square root of a negative number (nan in numpy) as ValueError. *)
From Coq Require Import Reals.
From Verif Require Import Model.Base.
Local Open Scope R_scope.

(** constants.py 2-9 and 14 *)
Definition electron_mass : R := 510998910 / 1000. (* eV/c^2 *)
(** calc/constants.py:3 *)
Definition atomic_mass_unit : R := 1660538921 / 10 ^ 36. (* kg *)
(** calc/constants.py:4 *)
Definition n_avogadro : R := 602214129 * 10 ^ 15. (* /mol *)
(** calc/constants.py:7 *)
Definition av_radius : R := 5997. (* mm *)
(** calc/constants.py:10 *)
Definition default_density : R := 8628 / 10 ^ 10. (* kg/mm^3 *)
(** calc/constants.py:14 *)
Definition default_loading : R := 3 / 1000.

(** Float division, e.g. decay.py:146. *)
Definition rdiv (x y : R) : res R := if Req_EM_T y 0 then Err EZeroDivisionError else Ok (x / y).
(** numpy.sqrt / math.sqrt of decay.py; a negative argument gives nan there. decay.py:205 *)
Definition rsqrt (x : R) : res R := if Rlt_dec x 0 then Err EValueError else Ok (sqrt x).

(** The attributes of DBIsotope set in decay.py __init__. decay.py:54-81 *)
Record isotope := Iso {
  i_weight : R;             (* _atm_weight_iso *)
  i_weight_nat : R;         (* _atm_weight_nat *)
  i_abundance : R;
  i_phase : R;              (* _phase_space *)
  i_matrix : R;             (* _matrix_element *)
  i_loading : R;
  i_radius : R;             (* _outer_radius *)
  i_density : R }.          (* _scint_density *)

(** [if x:] of a float or None; decay.py:66-81, 107-125 *)
Definition given (x : option R) : option R :=
  match x with Some v => if Req_EM_T v 0 then None else Some v | None => None end.
(** decay.py:54-81, __init__ without the name *)
Definition new_isotope (w wn ab ps me : R) (loading radius density : option R) : res isotope :=
  if Rlt_dec ab 0 then Err EValueError
  else if Rlt_dec 1 ab then Err EValueError
  else
    do l <- match given loading with
            | Some l => if Rlt_dec l 0 then Err EValueError else if Rlt_dec 1 l then Err EValueError else Ok l
            | None => Ok default_loading
            end;
    do r <- match given radius with
            | Some r => if Rle_dec r 0 then Err EValueError else Ok r
            | None => Ok av_radius
            end;
    let d := match given density with Some d => d | None => default_density end in
    Ok (Iso w wn ab ps me l r d).

(** A keyword argument with a default. decay.py:107-125 *)
Definition opt_or (x : option R) (d : R) : R := match x with Some v => v | None => d end.
(** decay.py:83-140, get_n_atoms *)
Definition get_n_atoms (i : isotope) (loading density target_mass scint_mass radius : option R) : res R :=
  let radius := opt_or radius (i_radius i) in
  if Rle_dec radius 0 then Err EValueError
  else
    let loading := opt_or loading (i_loading i) in
    if Rlt_dec loading 0 then Err EValueError
    else if Rlt_dec 1 loading then Err EValueError
    else
      let density := opt_or density (i_density i) in
      do target <- match target_mass with
                   | Some m => Ok m
                   | None =>
                       let scint_mass := match scint_mass with
                                         | Some m => m
                                         | None => density * (4 / 3 * PI * radius ^ 3)
                                         end in
                       let mass_iso := i_weight i * atomic_mass_unit in
                       let mass_nat := i_weight_nat i * atomic_mass_unit in
                       do fraction <- rdiv (i_abundance i * mass_iso) mass_nat;
                       Ok (fraction * loading * scint_mass)
                   end;
      rdiv (target * n_avogadro) (i_weight i * / 1000).

(** [if n_atoms is None: n_atoms = self.get_n_atoms()]; decay.py:142-173 *)
Definition atoms (i : isotope) (n : option R) : res R :=
  match n with Some n => Ok n | None => get_n_atoms i None None None None None end.
(** decay.py:142-156 *)
Definition half_life_to_activity (i : isotope) (t : R) (n : option R) : res R :=
  do n <- atoms i n; do q <- rdiv (ln 2) t; Ok (q * n).
(** decay.py:158-173 *)
Definition activity_to_half_life (i : isotope) (a : R) (n : option R) : res R :=
  do n <- atoms i n; rdiv (ln 2 * n) a.
(** decay.py:175-192 *)
Definition eff_mass_to_half_life (i : isotope) (m : R) : res R :=
  if Rle_dec m 0 then Err EValueError
  else
    do ratio <- rdiv (m ^ 2) (electron_mass ^ 2);
    rdiv 1 (i_phase i * i_matrix i ^ 2 * ratio).
(** decay.py:194-207 *)
Definition half_life_to_eff_mass (i : isotope) (t : R) : res R :=
  do q <- rdiv (electron_mass ^ 2) (i_phase i * i_matrix i ^ 2 * t); rsqrt q.
(** decay.py:209-227 *)
Definition activity_to_counts (a livetime : R) : res R :=
  if Rle_dec livetime 0 then Err EValueError else Ok (a * livetime).
(** decay.py:229-246 *)
Definition counts_to_activity (c livetime : R) : res R :=
  if Rle_dec livetime 0 then Err EValueError else rdiv c livetime.
(** decay.py:326-349, counts_to_half_life *)
Definition counts_to_half_life (i : isotope) (c : R) (n : option R) (livetime : R) : res R :=
  do n <- atoms i n;
  if Rle_dec livetime 0 then Err EValueError
  else do a <- counts_to_activity c livetime; activity_to_half_life i a (Some n).
(** decay.py:301-324, half_life_to_counts *)
Definition half_life_to_counts (i : isotope) (t : R) (n : option R) (livetime : R) : res R :=
  do n <- atoms i n;
  if Rle_dec livetime 0 then Err EValueError
  else do a <- half_life_to_activity i t (Some n); activity_to_counts a livetime.
(** decay.py:248-271 *)
Definition counts_to_eff_mass (i : isotope) (c : R) (n : option R) (livetime : R) : res R :=
  do n <- atoms i n;
  if Rle_dec livetime 0 then Err EValueError
  else do t <- counts_to_half_life i c (Some n) livetime; half_life_to_eff_mass i t.
(** decay.py:273-299, eff_mass_to_counts *)
Definition eff_mass_to_counts (i : isotope) (m : R) (n : option R) (livetime : R) : res R :=
  if Rle_dec m 0 then Err EValueError
  else
    do n <- atoms i n;
    if Rle_dec livetime 0 then Err EValueError
    else do t <- eff_mass_to_half_life i m; half_life_to_counts i t (Some n) livetime.
(** The default of [livetime]. decay.py:209 *)
Definition default_livetime : R := 5.

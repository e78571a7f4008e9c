(** Spectral axes: echidna/core/parameter.py, classes Parameter and SpectraParameter. *)
From Verif Require Import Model.Base.

(** parameter.py:35-44 and 1049-1053.  [_min]/[_max] (infinite for spectra parameters)
    and [_type] are omitted. The number of bins is a Python int. *)
Record spar := SPar { sp_low : Qc; sp_high : Qc; sp_bins : Z }.

(** parameter.py:97-103, Parameter.get_width *)
Definition get_width (p : spar) : res Qc :=
  qdiv (sp_high p - sp_low p)%Qc (zq (sp_bins p)).

(** parameter.py:54-63, Parameter.get_bin (base class; used for FitParameters) *)
Definition base_get_bin (p : spar) (v : Qc) : res Z :=
  do r <- qdiv (v - sp_low p)%Qc (sp_high p - sp_low p)%Qc;
  Ok (qtrunc (r * zq (sp_bins p))%Qc).

(** parameter.py:1055-1074, SpectraParameter.get_bin *)
Definition get_bin (p : spar) (x : Qc) : res Z :=
  if qlt x (sp_low p) then Err EValueError
  else if qlt (sp_high p) x then Err EValueError
  else do w <- get_width p; do r <- qdiv (x - sp_low p)%Qc w; Ok (qtrunc r).

(** numpy.linspace(a, b, n): n equally spaced values, both ends included; n = 1 gives
    [a] (here because x/0 = 0 in Qc and k = 0), n < 0 raises ValueError. parameter.py:1082 *)
Definition linspace (a b : Qc) (n : Z) : res (list Qc) :=
  if (n <? 0)%Z then Err EValueError
  else Ok (map (fun k => a + nq k * ((b - a) / zq (n - 1)))%Qc (seq 0 (Z.to_nat n))).

(** parameter.py:1076-1082, SpectraParameter.get_bin_boundaries *)
Definition get_bin_boundaries (p : spar) : res (list Qc) :=
  linspace (sp_low p) (sp_high p) (sp_bins p + 1).

(** parameter.py:1084-1105, SpectraParameter.get_bin_centre.  The type test (1098) is
    not modelled: [bin] is an integer here. *)
Definition get_bin_centre (p : spar) (bin : Z) : res Qc :=
  if (bin <? 0)%Z then Err EValueError
  else if (sp_bins p - 1 <? bin)%Z then Err EValueError
  else do w <- get_width p; Ok (sp_low p + (zq bin + qq 1 2) * w)%Qc.

(** numpy.arange(a, b, step): ceil((b - a)/step) values a + k*step, none if negative.
    smear.py:266, 278; plot.py:23 *)
Definition arange (a b step : Qc) : res (list Qc) :=
  do r <- qdiv (b - a)%Qc step;
  Ok (map (fun k => a + nq k * step)%Qc (seq 0 (Z.to_nat (qceil r)))).

(** parameter.py:1107-1115, SpectraParameter.get_bin_centres *)
Definition get_bin_centres (p : spar) : res (list Qc) :=
  do w <- get_width p;
  arange (sp_low p + w * qq 1 2)%Qc (sp_high p) w.

(** parameter.py:1131-1140, SpectraParameter.round *)
Definition sp_round (p : spar) (x : Qc) : res Qc :=
  do w <- get_width p; do r <- qdiv x w; Ok (zq (qround r) * w)%Qc.

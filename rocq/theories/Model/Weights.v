(** echidna/core/smear.py: the weights of a smearing and the state of the objects that compute them, over
    the real numbers.  numpy.log of a number that is not positive (-inf or nan), and a division by a sigma
    of 0, are not modelled. *)
From Coq Require Import Reals.
From Verif Require Import Model.Base Model.Resolution.
Local Open Scope R_scope.

(** smear.py:37-50, Smear.calc_gaussian *)
Definition calc_gaussian (x mean sigma : R) : R := exp (- (x - mean) ^ 2 / (2 * sigma ^ 2)) / (sigma * sqrt (2 * PI)).
(** Python's int() of a float, smear.py:139, 383 *)
Definition r_int (x : R) : Z := if Rle_dec 0 x then Int_part x else (- Int_part (- x))%Z.
(** numpy.sum(numpy.log(numpy.arange(1, photons + 1))); the range is empty unless photons is positive.
    smear.py:142-143, 386-387 *)
Definition log_factorial (photons : Z) : R := fold_right (fun i s => ln (INR i) + s) 0 (seq 1 (Z.to_nat photons)).

(** The attributes of EnergySmearLY and EnergySmearRes: light yield, resolution (which EnergySmearRes does
    not have before set_resolution), whether weights are Poisson weights, and the logarithms that have been
    computed; smear.py:119-126, 364-370 *)
Record smearing := Smearing { sm_res_class : bool; sm_ly : R; sm_res : option R; sm_poisson : bool; sm_memo : list (Z * R) }.
(** smear.py:119-126, EnergySmearLY.__init__ *)
Definition new_ly_smearing (poisson : bool) : smearing := Smearing false 200 None poisson [].
(** smear.py:364-370, EnergySmearRes.__init__ *)
Definition new_res_smearing (poisson : bool) : smearing := Smearing true 200 None poisson [].
(** smear.py:194-207, 440-455, set_resolution of either class *)
Definition sm_set_resolution (o : smearing) (x : R) : smearing * option exn :=
  if sm_res_class o
  then match set_res x with Ok r => (Smearing true (sm_ly o) (Some r) (sm_poisson o) (sm_memo o), None) | Err e => (o, Some e) end
  else match set_ly x with Ok ly => (Smearing false ly (sm_res o) (sm_poisson o) (sm_memo o), None) | Err e => (o, Some e) end.
(** The memo table, smear.py:141, 144 *)
Definition memo_get (n : Z) (m : list (Z * R)) : option R :=
  match find (fun e => Z.eqb (fst e) n) m with Some e => Some (snd e) | None => None end.
(** smear.py:128-147, 372-391, calc_poisson_energy *)
Definition calc_poisson_energy (o : smearing) (x lamb : R) : R * smearing :=
  let photons := r_int (x * sm_ly o) in
  let expected := lamb * sm_ly o in
  let '(lf, memo) := match memo_get photons (sm_memo o) with
                     | Some v => (v, sm_memo o)
                     | None => (log_factorial photons, (photons, log_factorial photons) :: sm_memo o)
                     end in
  (exp (IZR photons * ln expected - lf - expected), Smearing (sm_res_class o) (sm_ly o) (sm_res o) (sm_poisson o) memo).
(** smear.py:183-192, 428-438, get_sigma of either class *)
Definition sm_sigma (o : smearing) (energy : R) : res R :=
  if sm_res_class o
  then match sm_res o with Some r => Ok (res_sigma r energy) | None => Err EAttributeError end
  else Ok (ly_sigma (sm_ly o) energy).
(** smear.py:267-273, 515-521: the weight of an energy of the window of a bin with the given mean and sigma *)
Definition sm_weight (o : smearing) (energy mean sg : R) : R * smearing :=
  if sm_poisson o then calc_poisson_energy o energy mean else (calc_gaussian energy mean sg, o).
(** smear.py:265-273, 513-521: the weights of a window, one after the other *)
Fixpoint weight_loop (o : smearing) (energies : list R) (mean sg : R) : list R * smearing :=
  match energies with
  | [] => ([], o)
  | e :: r => let '(w, o1) := sm_weight o e mean sg in let '(ws, o2) := weight_loop o1 r mean sg in (w :: ws, o2)
  end.
(** smear.py:252, 265-273, 500, 513-521: sigma, then the weights *)
Definition sm_weights (o : smearing) (energies : list R) (mean : R) : res (list R) * smearing :=
  match sm_sigma o mean with
  | Err e => (Err e, o)
  | Ok sg => let '(ws, o') := weight_loop o energies mean sg in (Ok ws, o')
  end.

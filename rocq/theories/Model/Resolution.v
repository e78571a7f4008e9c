(** echidna/core/smear.py: the arithmetic of resolutions and light yields, over the real
    numbers (square roots). Float rounding is not modelled. *)
From Coq Require Import Reals.
From Verif Require Import Model.Base.
Local Open Scope R_scope.

(** smear.py:149-173, EnergySmearLY.calc_smear_ly; [own] is the object's light yield,
    used when cur_ly is None or 0. *)
Definition calc_smear_ly (own new_ly : R) (cur : option R) : res R :=
  let cur_ly := match cur with
                | None => own
                | Some c => if Req_EM_T c 0 then own else c
                end in
  if Rlt_dec cur_ly new_ly then Err EValueError
  else if Req_EM_T (cur_ly - new_ly) 0 then Err EZeroDivisionError
  else Ok (new_ly * cur_ly / (cur_ly - new_ly)).

(** smear.py:183-192, EnergySmearLY.get_sigma *)
Definition ly_sigma (ly energy : R) : R := sqrt (energy / ly).

(** smear.py:393-417, EnergySmearRes.calc_smear_resoluton *)
Definition calc_smear_res (own new_res : R) (cur : option R) : res R :=
  let cur_res := match cur with
                 | None => own
                 | Some c => if Req_EM_T c 0 then own else c
                 end in
  if Rlt_dec new_res cur_res then Err EValueError
  else Ok (Rabs (sqrt (new_res ^ 2 - cur_res ^ 2))).

(** smear.py:428-438, EnergySmearRes.get_sigma *)
Definition res_sigma (r energy : R) : R := r * sqrt energy.

(** smear.py:194-207 and 440-455, set_resolution *)
Definition set_ly (ly : R) : res R := if Rlt_dec 0 ly then Ok ly else Err EValueError.
(** smear.py:440-455, set_resolution of EnergySmearRes *)
Definition set_res (r : R) : res R :=
  if Rlt_dec 0 r then (if Rlt_dec r 1 then Ok r else Err EValueError) else Err EValueError.

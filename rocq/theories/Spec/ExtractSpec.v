(** Specification vocabulary for the extractors. *)
From Coq Require Import Reals.
From Verif Require Import Model.Base Model.DSExtract.
Local Open Scope R_scope.

(** The squared distance from the centre of the detector. *)
Definition dist2 (p : vec) : R := vx p * vx p + vy p * vy p + vz p * vz p.
(** The point is strictly inside the sphere of radius r. *)
Definition within (r : R) (p : vec) : Prop := 0 < r /\ dist2 p < r * r.

(** The distance itself, and the outer radius in use: 5997 mm unless another one is given. *)
Definition distance (p : vec) : R := sqrt (dist2 p).
Definition outer_used (outer : option R) : R :=
  match outer with Some r => if Req_EM_T r 0 then 5997 else r | None => 5997 end.

(** echidna/limit/limit.py 302-317, Limit.get_statistics, run on a fit with its spectra, its
    dictionary of convolved spectra and its minimiser (Model/FitLimit.v). *)
From Verif Require Import Model.Base Model.PyStr Model.NDArray Model.Param Model.Config Model.Spectra
  Model.Smear Model.Shift Model.FitParam Model.Heap Model.Minimise Model.Fit Model.FitPrepare Model.Limit Model.FitLimit.
Local Open Scope nat_scope.

(** limit.py:311-315: the signal [r] of the Limit is scaled and given to the fit, or the fit is
    left without signal. *)
Definition give_signal (r : nat) (k : Qc) (u : fitter) : fitter * out :=
  if isclose k 0 then (remove_signal u, None)
  else
    let (h, e) := h_scale k r (z_heap (u_set u)) in
    let u1 := u_with_set u (z_with_heap (u_set u) h) in
    match e with
    | Some e => (u1, Some e)
    | None => u_set_signal r false u1
    end.
(** limit.py:309-316, the loop *)
Fixpoint all_returned (su : setup) (r : nat) (l : list Qc) (u : fitter) : fitter * res (list returned) :=
  match l with
  | [] => (u, Ok [])
  | k :: l' =>
      let (u1, e) := give_signal r k u in
      match e with
      | Some e => (u1, Err e)
      | None =>
          let (u2, x) := fit_all su u1 in
          match x with
          | Err e => (u2, Err e)
          | Ok x => let (u3, xs) := all_returned su r l' u2 in (u3, rmap (cons x) xs)
          end
      end
  end.
(** numpy.array of a list of arrays (limit.py:317): None if they have different shapes. *)
Definition stack (l : list ndarray) : option ndarray :=
  match l with
  | [] => Some (ND [0] (fun _ => 0%Qc))
  | a :: _ =>
      if forallb (fun b => shape_eqb (ashape b) (ashape a)) l
      then Some (ND (length l :: ashape a) (fun i => match i with k :: j => aget (nth k l a) j | [] => 0%Qc end))
      else None
  end.
(** One entry of that list: a number, an array, or a tuple of two. limit.py:316-317 *)
Definition entry_array (x : returned) : option ndarray :=
  match x with Value x => Some (as_array x) | Pair s p => stack [s; p] end.
(** numpy.array(stats), limit.py:317.  None: entries of different shapes, of which numpy makes
    an array of objects or an exception, depending on its version. *)
Definition as_stats (l : list returned) : option ndarray :=
  match rmapM (fun x => match entry_array x with Some a => Ok a | None => Err EValueError end) l with
  | Ok l => stack l
  | Err _ => None
  end.
(** limit.py:302-317, get_statistics.  [scales]: get_values() of the signal's rate. *)
Definition get_statistics (su : setup) (r : nat) (scales : list Qc) (u : fitter) : fitter * res (option ndarray) :=
  let (u1, l) := all_returned su r scales u in (u1, rmap as_stats l).

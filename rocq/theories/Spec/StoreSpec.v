(** Vocabulary for files. *)
From Verif Require Import Model.Base Model.PyStr Model.NDArray Model.Param Model.Config Model.Spectra.
From Verif Require Import Model.FitParam Model.FitConfig Model.Minimise Model.Store.
From Verif Require Import Spec.ArraySpec Spec.NameSpec Spec.ConfigSpec.
Local Open Scope string_scope.
Local Open Scope list_scope.

(** A string without the separators , : and ; *)
Definition plain (s : string) : Prop := occurs "," s = false /\ occurs ":" s = false /\ occurs ";" s = false.
(** An entry of a dictionary that a string can hold: plain key, plain text of the value,
    and for a float a text that reads back as the same float. *)
Definition storable (str_float : Qc -> string) (parse_float : string -> res Qc) (kv : string * pyval) : Prop :=
  plain (fst kv) /\
  match snd kv with
  | VStr s => plain s
  | VInt _ => True
  | VFloat x => plain (str_float x) /\ parse_float (str_float x) = Ok x
  | VOther => False
  end.

(** A spectrum that a file can hold: a configuration that came about by the API, numbers
    of bins that are not negative, a style, and a fit configuration (if any) with rate
    parameters. *)
Definition fit_storable (f : option sfconfig) : Prop :=
  match f with
  | None => True
  | Some c => sf_pars c <> [] /\ NoDup (dkeys (sf_pars c)) /\ Forall rate_entry (sf_pars c)
  end.
Definition spectrum_storable (s : stored) : Prop :=
  sbuilt (s_cfg (st_spec s)) /\ s_cfg (st_spec s) <> [] /\
  Forall (fun b => (0 <= b)%Z) (get_shape (s_cfg (st_spec s))) /\
  fit_storable (st_fit s) /\ st_style s <> JStr "" /\ st_style s <> JObj [].
(** The fit configuration as it comes back (see C49), belonging to the spectrum [name]. *)
Definition fit_again (name : string) (f : option sfconfig) : option sfconfig :=
  match f with
  | None => None
  | Some c => Some (SFC (sf_name c) name (map (fun kp => (fst kp, again false (fst kp) (snd kp))) (sf_pars c)))
  end.

(** What a file holds. *)
Definition member (k : string) (f : hfile) : option hobj :=
  match f with None => None | Some r => dget k (r_members r) end.
Definition names (f : hfile) : list string :=
  match f with None => [] | Some r => dkeys (r_members r) end.
Definition root_attrs (f : hfile) : dict hattr := match f with None => [] | Some r => r_attrs r end.

(** One call on one file, and histories of calls: the file and the outcome of each. *)
Inductive call :=
| Dump (s : stored) (append overwrite : bool)
| DumpFit (fr : fresults) (append : bool)
| DumpLimit (dec : nat -> string) (lr : lresults) (append : bool)
| DumpObject (o : dict oattr).
Definition perform (f : hfile) (c : call) : hfile * out :=
  match c with
  | Dump s a o => let '(f', _, e) := dump f s a o in (f', e)
  | DumpFit fr a => dump_fit_results f fr a
  | DumpLimit dec lr a => dump_limit_results dec f lr a
  | DumpObject o => dump_ndarray o
  end.
Definition after (f : hfile) (l : list call) : hfile := fold_left (fun f c => fst (perform f c)) l f.
Definition appends (c : call) : Prop :=
  match c with Dump _ a _ | DumpFit _ a | DumpLimit _ _ a => a = true | DumpObject _ => False end.
Definition target (c : call) : string :=
  match c with Dump _ _ _ => "spectrum" | DumpFit _ _ => "fit_results" | DumpLimit _ _ _ => "limit_results" | DumpObject _ => "" end.
Definition overwrites (c : call) : Prop := match c with Dump _ _ o => o = true | _ => False end.

(** Fit results in the form a grid search leaves them: the shapes of its grids, and the
    parameters of its configuration. *)
Definition consistent (fr : fresults) : Prop :=
  let gs := fr_search fr in
  gs_pars gs = gc_fpars (fr_fit fr) /\ gs_spec gs = spec_shape (fr_spec fr) /\
  ashape (gs_pen gs) = fit_shape (gs_pars gs) /\
  ashape (gs_stats gs) = (if gs_per_bin gs then fit_shape (gs_pars gs) ++ gs_spec gs else fit_shape (gs_pars gs)).
(** Global parameters grouped by dimension and before the spectral ones: load keeps this
    order (see C49). *)
Definition in_order (g : gconfig) : Prop := by_dimension (gc_pars g) = gc_pars g.
Definition good_config (g : gconfig) : Prop :=
  NoDup (dkeys (gc_pars g)) /\ Forall well_named_entry (gc_pars g) /\ in_order g.

(** Two arrays hold the same numbers. *)
Definition same_array (a b : ndarray) : Prop :=
  ashape a = ashape b /\ forall i, ArraySpec.valid_idx (ashape a) i -> aget a i = aget b i.
(** Limit results as the class and get_limit leave them: one row for each value of the
    rate parameter. *)
Definition limit_consistent (lr : lresults) : Prop :=
  (exists rate n sub, dget "rate" (sf_pars (lr_limit lr)) = Some rate /\ n = Z.to_nat (fp_bins (cp_par rate)) /\
     ashape (lr_stats lr) = n :: sub /\ ashape (lr_pen lr) = [n; length (gc_get_pars (lr_fit lr))] /\
     ashape (lr_best lr) = [n; length (gc_get_pars (lr_fit lr))] /\ length (lr_fits lr) = n) /\
  Forall (fun o => match o with None => True | Some gs => ashape (gs_stats gs) <> [] /\ ashape (gs_pen gs) <> [] end) (lr_fits lr).
(** Distinct texts for distinct numbers, none of them the name of a dataset. *)
Definition good_dec (dec : nat -> string) : Prop :=
  (forall i j, dec i = dec j -> i = j) /\ forall i, dec i <> "penalty_terms" /\ dec i <> "best_fits" /\ dec i <> "stats".
(** The same fit result: grids and number of resets, and the best fits of row [i]. *)
Definition fit_again_at (best : ndarray) (i : nat) (o o' : option gsearch) : Prop :=
  match o, o' with
  | None, None => True
  | Some gs, Some gs' => gs_stats gs' = gs_stats gs /\ gs_pen gs' = gs_pen gs /\ gs_resets gs' = gs_resets gs /\
      forall j p, nth_error (gs_pars gs') j = Some p -> exists x, fp_best p = Some x /\ aget best [i; j] = x
  | _, _ => False
  end.
(** The same parameters, but for the best fits. *)
Definition drop_best (ke : string * gentry) : string * gentry :=
  (fst ke, GE (CPar (cp_class (ge_par (snd ke))) (set_best_fit 0%Qc (cp_par (ge_par (snd ke))))) (ge_global (snd ke))).

(** Attributes of objects.  Attribute [v'] holds what [v] holds (sizes are not values): *)
Definition same_value (v v' : oattr) : Prop :=
  match v, v' with
  | OArray a, OArray b => a = b
  | OValue x _, OValue y _ => x = y
  | ONone, ONone => True
  | _, _ => False
  end.
(** an object prepared for reading: arrays where arrays are expected, and no array
    elsewhere *)
Definition same_kind (v v' : oattr) : Prop :=
  match v, v' with
  | OArray _, OArray _ => True
  | OValue _ _, OValue _ _ | OValue _ _, ONone => True
  | ONone, ONone => True
  | _, _ => False
  end.

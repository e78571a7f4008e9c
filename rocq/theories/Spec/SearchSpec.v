(** Vocabulary for the grid search: row-major order, first minima, the list of parameter
    combinations and the sequence of calls of an objective. *)
From Verif Require Import Model.Base Model.NDArray Model.FitParam Model.Minimise Spec.ArraySpec.

(** Row-major (lexicographic) order of positions in a grid. *)
Fixpoint idx_lt (a b : list nat) : Prop :=
  match a, b with
  | x :: a', y :: b' => x < y \/ (x = y /\ idx_lt a' b')
  | _, _ => False
  end.

(** [pos] is the first position, in row-major order, of the smallest value [m] of [f]. *)
Definition first_min (sh : list nat) (f : list nat -> Qc) (pos : list nat) (m : Qc) : Prop :=
  valid_idx sh pos /\ f pos = m /\
  (forall idx, valid_idx sh idx -> m <= f idx)%Qc /\
  (forall idx, valid_idx sh idx -> idx_lt idx pos -> m < f idx)%Qc.

(** All combinations of one value of each list, the last list varying fastest. *)
Fixpoint combinations (lists : list (list Qc)) : list (list Qc) :=
  match lists with
  | [] => [[]]
  | l :: ls => flat_map (fun v => map (cons v) (combinations ls)) l
  end.

(** Calling a stateful function on a list of arguments in turn until one call raises:
    final state, answers so far, and the exception if any. *)
Fixpoint calls {St A R} (f : St -> A -> St * res R) (s : St) (l : list A) : St * list R * option exn :=
  match l with
  | [] => (s, [], None)
  | a :: l' =>
      match f s a with
      | (s', Ok r) => let '(s'', rs, e) := calls f s' l' in (s'', r :: rs, e)
      | (s', Err e) => (s', [], Some e)
      end
  end.

(** What an objective may answer: one number (or a 0-d array), or, for a search that
    keeps the statistic of every bin, an array with the shape of the spectra. *)
Definition fits (per_bin : bool) (spec : list nat) (r : sres) : Prop :=
  match r with
  | RNum _ => per_bin = false
  | RArr a => ashape a = if per_bin then spec else []
  end.
Definition content (r : sres) : list nat -> Qc := match r with RNum x => fun _ => x | RArr a => aget a end.
(** The shape of one answer and the total of an answer. *)
Definition answer_shape (per_bin : bool) (spec : list nat) : list nat := if per_bin then spec else [].
Definition answer_total (per_bin : bool) (spec : list nat) (r : sres) : Qc :=
  total (answer_shape per_bin spec) (content r).

(** The value arrays of the parameters: [ls] lists them, they have no repetition and as
    many entries as the parameter has bins. *)
Definition grid_of (g : fpar -> res (list Qc)) (ps : list fpar) (ls : list (list Qc)) : Prop :=
  Forall2 (fun p l => snd (get_values g p) = Ok l /\ NoDup l /\ Z.to_nat (fp_bins p) = length l) ps ls.

(** The arrays of a search have the shapes of its parameters' value grids. *)
Definition ready (gs : gsearch) (ls : list (list Qc)) : Prop :=
  ashape (gs_stats gs) = map (@length Qc) ls ++ answer_shape (gs_per_bin gs) (gs_spec gs) /\
  ashape (gs_pen gs) = map (@length Qc) ls.

(** What the readers of a search report at a grid position: the statistic [r] (per bin if
    the search keeps it per bin), the penalty [pen], and their total. *)
Definition reads (gs : gsearch) (idx : list nat) (r : sres) (pen : Qc) : Prop :=
  (exists s, get_raw_stat gs idx = Ok s /\ ashape s = answer_shape (gs_per_bin gs) (gs_spec gs) /\
     forall j, valid_idx (ashape s) j -> aget s j = content r j) /\
  (exists p, get_penalty_term_at gs idx = Ok p /\ ashape p = [] /\ aget p [] = pen) /\
  (exists t, get_stat gs idx = Ok t /\ ashape t = [] /\
     aget t [] = (answer_total (gs_per_bin gs) (gs_spec gs) r + pen)%Qc).

(** No two entries of a value grid are within the tolerance of the lookup by value. *)
Definition distinguishable (l : list Qc) : Prop :=
  forall i j, (i < j < length l)%nat -> isclose (nth i l 0%Qc) (nth j l 0%Qc) = false.
(** Keyword arguments giving every parameter its value at a grid position. *)
Definition keywords (ps : list fpar) (ls : list (list Qc)) (idx : list nat) : list (string * Qc) :=
  combine (map fp_name ps) (map (fun li => nth (snd li) (fst li) 0%Qc) (combine ls idx)).

(** The penalty recorded for a parameter at its best fit value. *)
Definition recorded_penalty (pen : Qc -> Qc -> Qc -> res Qc) (p : fpar) (v : Qc) : option Qc :=
  match fp_sigma p with
  | None => Some 0%Qc
  | Some s => match pen v (fp_prior p) s with Ok t => Some t | Err _ => None end
  end.
(** Every parameter with a prior width has a penalty. *)
Definition penalties_defined (pen : Qc -> Qc -> Qc -> res Qc) (ps : list fpar) : Prop :=
  Forall (fun p => forall v s, fp_sigma p = Some s -> exists t, pen v (fp_prior p) s = Ok t) ps.
(** All answers of the objective have the form the search asks for. *)
Definition answers_fit (gs : gsearch) (rs : list (sres * Qc)) : Prop :=
  Forall (fun rp => fits (gs_per_bin gs) (gs_spec gs) (fst rp)) rs.

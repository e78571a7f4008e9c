(** Specification vocabulary for histograms, independent of the numpy operations of the
    model: enumeration of all bins, totals, marginals. *)
From Verif Require Import Model.Base.

(** All multi-indices of a shape. *)
Fixpoint all_idx (sh : list nat) : list (list nat) :=
  match sh with
  | [] => [[]]
  | n :: sh' => flat_map (fun i => map (cons i) (all_idx sh')) (seq 0 n)
  end.

(** [idx] is a valid multi-index of shape [sh]. *)
Definition valid_idx (sh idx : list nat) : Prop := Forall2 (fun i n => i < n) idx sh.

(** Sum of a content function over a set of bins given by a predicate. *)
Definition sum_where (sh : list nat) (f : list nat -> Qc) (P : list nat -> bool) : Qc :=
  qsum (map f (filter P (all_idx sh))).

(** Total content. *)
Definition total (sh : list nat) (f : list nat -> Qc) : Qc := sum_where sh f (fun _ => true).

(** Marginal of [f] on the axes [axes] at the position [key]: the sum of all bins whose
    indices on those axes are [key]. *)
Definition marginal (sh : list nat) (f : list nat -> Qc) (axes key : list nat) : Qc :=
  sum_where sh f
    (fun idx => if list_eq_dec Nat.eq_dec (map (fun a => nth a idx 0) axes) key
                then true else false).

(** Axes [0..n-1] not listed in [l], in increasing order. *)
Definition axes_except (n : nat) (l : list nat) : list nat :=
  filter (fun p => negb (existsb (Nat.eqb p) l)) (seq 0 n).

(** [a] is the marginal of [base] on the axes [axes] (in that order). *)
Definition is_marginal (sh : list nat) (f : list nat -> Qc) (axes : list nat)
  (sh' : list nat) (g : list nat -> Qc) : Prop :=
  sh' = map (fun x => nth x sh 0) axes /\
  (forall key, valid_idx sh' key -> g key = marginal sh f axes key).

(** Vocabulary for C90. *)
From Coq Require Import Reals.
From Verif Require Import Model.Base Model.NDArray Model.Plot Model.ChiPlot.

(** The arrays of an analyser have n counts, k > 0 fits for each, and m values of the systematic. *)
Definition regular (an : analyser) (n k m : nat) : Prop :=
  length (an_counts an) = n /\ length (an_values an) = m /\ ashape (an_chis an) = [n; k; m] /\ ashape (an_preferred an) = [n; k] /\
  0 < n /\ 0 < k /\ 0 < m.
(** Mean over the fits for count i and value j. *)
Definition mean (k : nat) (f : nat -> Qc) : Qc := (qsum (map f (seq 0 k)) / nq k)%Qc.
Definition mean_chi (an : analyser) (k i j : nat) : Qc := mean k (fun t => aget (an_chis an) [i; t; j]).
(** The picture: a rectangle from each count and value to the next ones, with the number f i j of its
    lower corner. *)
Definition pictured (x y : list Qc) (f : nat -> nat -> Qc) (ts : list tile) : Prop :=
  length ts = (length x - 1) * (length y - 1) /\
  forall t, In t ts <-> exists i j, S i < length x /\ S j < length y /\
    t = Tile (nth i x 0%Qc) (nth (S i) x 0%Qc) (nth j y 0%Qc) (nth (S j) y 0%Qc) (f i j).
(** Analysers that differ only in chi squareds of the last count or of the last value. *)
Definition same_but_last (an bn : analyser) (n k m : nat) : Prop :=
  regular an n k m /\ regular bn n k m /\ an_counts an = an_counts bn /\ an_values an = an_values bn /\ an_penalties an = an_penalties bn /\
  forall i t j, S i < n -> t < k -> S j < m -> aget (an_chis an) [i; t; j] = aget (an_chis bn) [i; t; j].

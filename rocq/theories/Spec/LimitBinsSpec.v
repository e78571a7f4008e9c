(** Vocabulary for limits with one statistic per bin. *)
From Verif Require Import Model.Base Model.NDArray Model.Minimise Model.Limit.
From Verif Require Import Spec.ArraySpec Spec.SearchSpec Spec.LimitSpec.

(** The fit gave an array of the shape [sh], one statistic for each bin. *)
Definition per_bin (sh : list nat) (f : fitout) : Prop := exists a, fo_stat f = RArr a /\ ashape a = sh.
(** The statistic of one bin. *)
Definition bin_stat (f : fitout) (bin : list nat) : Qc := match fo_stat f with RNum x => x | RArr a => aget a bin end.
(** [r] is the first position from [b] on, below [n], of the greatest value of [T]. *)
Definition first_greatest (T : nat -> Qc) (b n r : nat) : Prop :=
  b <= r < n /\ (forall j, b <= j < n -> (T j <= T r)%Qc) /\ (forall j, b <= j < r -> (T j < T r)%Qc).
(** Number of bins. *)
Definition bins (sh : list nat) : nat := length (all_idx sh).
(** What a limit is with one statistic per bin.  [m] are the statistics of the fit without
    signal, [fs] the fits for the scalings.  The scan starts at the row [b], where [b] is the
    place of the smallest difference of one bin in the list of all (scaling, bin) pairs. *)
Definition limit_bins (sh : list nat) (scales : list Qc) (n : nat) (m : list nat -> Qc) (fs : list fitout) (lim : Qc) (answer : res Qc) : Prop :=
  let T := fun j => (total sh (fun bin => bin_stat (nth j fs nofit) bin - m bin) + penalty_of (nth j fs nofit))%Qc in
  exists p least b,
    first_min (n :: sh) (fun i => bin_stat (nth (hd 0%nat i) fs nofit) (tl i) - m (tl i))%Qc p least /\
    nth_error (all_idx (n :: sh)) b = Some p /\
    match answer with
    | Ok x => exists j, first_crossing T b n lim j /\ x = nth j scales 0%Qc
    | Err e => (forall j, b <= j < n -> (T j <= lim)%Qc) /\
        (n <= b -> e = EValueError) /\
        (b < n -> exists r, first_greatest T b n r /\
           (b + (r - b) * bins sh < n -> e = ELimitError) /\ (n <= b + (r - b) * bins sh -> e = EIndexError))
    end.

(** C36: the grids of parameter values. *)
From Coq Require Import Reals Lra Lia Sorting.
From Verif Require Import Model.Base Model.FitGrid Proofs.GridLemmas.
Local Open Scope R_scope.

(** Linear: bins equally spaced, strictly increasing values from low to high. *)
Theorem C36_linear : forall g,
  gr_logscale g = false -> gr_logdev g = false -> gr_low g < gr_high g -> (2 <= gr_bins g)%Z ->
  exists l, grid_values g = Ok l /\ length l = Z.to_nat (gr_bins g) /\ StronglySorted Rlt l /\
    nth 0 l 0 = gr_low g /\ last l 0 = gr_high g /\
    (forall k, (k < length l)%nat ->
       nth k l 0 = gr_low g + INR k * ((gr_high g - gr_low g) / (IZR (gr_bins g) - 1))).
Proof. exact linear_l. Qed.
(** With a single bin high is not included. *)
Theorem C36_single_bin : forall g, gr_logscale g = false -> gr_logdev g = false -> gr_bins g = 1%Z ->
  grid_values g = Ok [gr_low g].
Proof. exact linear_one_l. Qed.
(** Logarithmic: equally spaced in the logarithm. *)
Theorem C36_logscale : forall g, gr_logscale g = true -> 0 < gr_low g < gr_high g -> (2 <= gr_bins g)%Z ->
  exists l, grid_values g = Ok l /\ length l = Z.to_nat (gr_bins g) /\ StronglySorted Rlt l /\
    nth 0 l 0 = gr_low g /\ last l 0 = gr_high g /\
    (forall k, (k < length l)%nat ->
       ln (nth k l 0) = ln (gr_low g) + INR k * ((ln (gr_high g) - ln (gr_low g)) / (IZR (gr_bins g) - 1))).
Proof. exact log_l. Qed.
(** A logarithmic grid cannot start at low <= 0: it starts at 1/high. *)
Theorem C36_logscale_nonpositive_low : forall g,
  gr_logscale g = true -> gr_low g <= 0 -> 1 < gr_high g -> (2 <= gr_bins g)%Z ->
  exists l, grid_values g = Ok l /\ nth 0 l 0 = / gr_high g /\ last l 0 = gr_high g /\ length l = Z.to_nat (gr_bins g).
Proof. exact log_neg_l. Qed.

(** logscale_deviation: [bl] and [bh] are the shares of [bins + 1] proportional to the
    distances of the prior from low and high, rounded.  All values lie in [low, high] and
    increase strictly; the prior is one of them when the lower share is not zero; low and
    high are the end points when the shares are at least two; the logarithms of the
    deviations (plus one) are equally spaced on either side. *)
Theorem C36_logscale_deviation : forall low high prior bins,
  low <= prior -> prior <= high -> low < high -> (0 <= bins)%Z ->
  let bl := rint ((prior - low) / (high - low) * (IZR bins + 1)) in
  let bh := rint ((high - prior) / (high - low) * (IZR bins + 1)) in
  exists l, grid_values (Grid low high prior bins false true) = Ok l /\
    length l = (Z.to_nat bl + (Z.to_nat bh - 1))%nat /\
    StronglySorted Rlt l /\ Forall (fun v => low <= v <= high) l /\
    ((1 <= bl)%Z -> In prior l) /\
    ((2 <= bl)%Z -> nth 0 l 0 = low) /\ ((2 <= bh)%Z -> last l 0 = high) /\
    (forall k, (k < Z.to_nat bl)%nat ->
       nth (Z.to_nat bl - 1 - k) l 0 = prior - (exp (INR k * (ln (prior - low + 1) / IZR (bl - 1))) - 1)) /\
    (forall k, (0 < k < Z.to_nat bh)%nat ->
       nth (Z.to_nat bl + (k - 1)) l 0 = prior + (exp (INR k * (ln (high - prior + 1) / IZR (bh - 1))) - 1)).
Proof. exact dev_l. Qed.
Theorem C36_rint : forall x, IZR (rint x) - 1 / 2 <= x <= IZR (rint x) + 1 / 2.
Proof. exact rint_near. Qed.
(** The number of values is bins unless the share of the lower side lies half-way
    between two integers. *)
Theorem C36_logscale_deviation_length_partial : forall low high prior bins,
  low <= prior -> prior <= high -> low < high -> (0 <= bins)%Z ->
  (forall k : Z, (prior - low) / (high - low) * (IZR bins + 1) <> IZR k + 1 / 2) ->
  (1 <= rint ((high - prior) / (high - low) * (IZR bins + 1)))%Z ->
  exists l, grid_values (Grid low high prior bins false true) = Ok l /\ length l = Z.to_nat bins.
Proof. exact dev_length_l. Qed.
(** Two bins around the prior give three values. *)
Theorem C36_logscale_deviation_length_refuted :
  exists l, grid_values (Grid (-1) 1 0 2 false true) = Ok l /\ length l = 3%nat.
Proof. exact dev_length_refuted_l. Qed.
(** A prior at the lower end is not in the grid. *)
Theorem C36_logscale_deviation_prior_refuted :
  exists l, grid_values (Grid 0 1 0 3 false true) = Ok l /\ ~ In 0 l.
Proof. exact dev_prior_refuted_l. Qed.

(** Three bins around the prior: the hypotheses of the length theorem hold. *)
Example C36_ex : 0 <= 1 /\ 1 <= 2 /\ 0 < 2 /\ (forall k : Z, (1 - 0) / (2 - 0) * (3 + 1) <> IZR k + 1 / 2) /\
  (1 <= rint ((2 - 1) / (2 - 0) * (3 + 1)))%Z.
Proof.
  replace ((1 - 0) / (2 - 0) * (3 + 1)) with 2 by field. replace ((2 - 1) / (2 - 0) * (3 + 1)) with 2 by field.
  split; [lra|]. split; [lra|]. split; [lra|]. split.
  - intros k E. assert (A : 1 < IZR k) by lra. assert (B : IZR k < 2) by lra. apply lt_IZR in A. apply lt_IZR in B. lia.
  - destruct (rint_near 2) as [A B]. assert (C : 1 < IZR (rint 2)) by lra. apply lt_IZR in C. lia.
Qed.

Print Assumptions C36_linear.
Print Assumptions C36_logscale.
Print Assumptions C36_logscale_deviation.
Print Assumptions C36_logscale_deviation_length_refuted.

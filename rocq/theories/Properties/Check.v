(** C78: the checks of parameter values. *)
From Coq Require Import Reals Lra Lia.
From Verif Require Import Model.Base Model.FitGrid Model.Check Spec.CheckSpec Proofs.GridLemmas Proofs.CheckLemmas.
Local Open Scope R_scope.

(** check_values warns about the values outside the bounds exactly when there are some, with
    their number, and about the prior exactly when no value is within a relative 5e-13 of
    it. *)
Theorem C78_check : forall c l, ck_get_values c = Ok l ->
  exists n ws, check_values false c = (ws, None) /\ NoDup ws /\ fail (allowed c) l n /\
    (forall m, In (WOutside m) ws <-> m = n /\ n <> 0%nat) /\
    (In WNoPrior ws <-> forall v, In v l -> ~ as_prior (gr_prior (ck_grid c)) v).
Proof. exact check_l. Qed.
(** In cautious mode the first of the warnings is raised instead; nothing else changes. *)
Theorem C78_cautious : forall c ws, check_values false c = (ws, None) ->
  check_values true c = ([], option_map Warns (hd_error ws)).
Proof. exact cautious_l. Qed.
(** Values that cannot be built raise in either mode. *)
Theorem C78_error : forall c e, ck_get_values c = Err e ->
  forall cautious, check_values cautious c = ([], Some (Raises e)).
Proof. exact check_err. Qed.
(** The check of a spectrum gives the warnings of all its parameters. *)
Theorem C78_config : forall pars, (forall n c, In (n, c) pars -> exists l, ck_get_values c = Ok l) ->
  exists ws, check_config false pars = (ws, None) /\
    (forall n w, In (n, w) ws <-> exists c, In (n, c) pars /\ In w (fst (check_values false c))).
Proof. exact config_warnings. Qed.
(** In cautious mode a Fit can be built exactly when nothing is to be warned about any
    parameter of a floating background, or any parameter of a spectrum in the configuration
    it was given. *)
Theorem C78_fit : forall given floats, NoDup (map fst given) ->
  check_fit true given floats = ([], None) <->
  floats_quiet floats /\ (forall m c, In (m, (false, c)) given -> not_float floats m -> quiet c).
Proof. exact fit_cautious. Qed.

(** An odd number of values, equally spaced around the prior: as the message of the warning
    advises, it is not given. *)
Theorem C78_linear_odd : forall low high prior k mn mx, (1 <= k)%Z -> low + high = 2 * prior -> prior <> 0 ->
  exists ws, check_values false (CK (Grid low high prior (2 * k + 1) false false) None mn mx) = (ws, None) /\
    ~ In WNoPrior ws.
Proof. exact linear_odd_l. Qed.
(** An even number: it is given, unless the spacing is below the tolerance. *)
Theorem C78_linear_even : forall low high prior k mn mx, (1 <= k)%Z -> low < high -> low + high = 2 * prior ->
  Rabs prior * (5 / IZR (10 ^ 13)) < (high - low) / IZR (2 * (2 * k - 1)) ->
  exists ws, check_values false (CK (Grid low high prior (2 * k) false false) None mn mx) = (ws, None) /\
    In WNoPrior ws.
Proof. exact linear_even_l. Qed.
(** On a logarithmic scale low and high have to be at the same ratio to the prior. *)
Theorem C78_logscale_odd : forall low high prior k mn mx dev,
  (1 <= k)%Z -> 0 < low -> 0 < high -> 0 < prior -> low * high = prior * prior ->
  exists ws, check_values false (CK (Grid low high prior (2 * k + 1) true dev) None mn mx) = (ws, None) /\
    ~ In WNoPrior ws.
Proof. exact log_odd_l. Qed.
(** logscale_deviation contains the prior when the lower side gets a value. *)
Theorem C78_deviation : forall low high prior bins mn mx,
  low <= prior -> prior <= high -> low < high -> (0 <= bins)%Z -> prior <> 0 ->
  (1 <= rint ((prior - low) / (high - low) * (IZR bins + 1)))%Z ->
  exists ws, check_values false (CK (Grid low high prior bins false true) None mn mx) = (ws, None) /\
    ~ In WNoPrior ws.
Proof. exact deviation_l. Qed.
(** The rates outside the bounds are the negative ones ... *)
Theorem C78_rate : forall g v ws l,
  ck_get_values (rate_parameter g v) = Ok l -> check_values false (rate_parameter g v) = (ws, None) ->
  ((exists n, In (WOutside n) ws) <-> exists x, In x l /\ x < 0).
Proof. exact rate_l. Qed.
(** ... and no grid between rates that are not negative, and no logarithmic grid has any. *)
Theorem C78_rate_grid : forall low high prior bins logscale dev l,
  grid_values (Grid low high prior bins logscale dev) = Ok l ->
  logscale = true \/ (0 <= low <= high /\ (dev = true -> low <= prior <= high /\ low < high /\ (0 <= bins)%Z)) ->
  exists ws, check_values false (rate_parameter (Grid low high prior bins logscale dev) None) = (ws, None) /\
    forall n, ~ In (WOutside n) ws.
Proof. exact rate_quiet_l. Qed.

(** "The warning is given when the prior is not one of the values": not for a prior of 0,
    which is never found.  A shift around 0 is warned about although 0 is on its grid, and
    cannot be used in cautious mode. *)
Theorem C78_zero : forall c l, gr_prior (ck_grid c) = 0 -> ck_get_values c = Ok l ->
  exists ws, check_values false c = (ws, None) /\ In WNoPrior ws.
Proof. exact zero_l. Qed.
Theorem C78_zero_refuted : exists c l,
  ck_get_values c = Ok l /\ In (gr_prior (ck_grid c)) l /\ check_values true c = ([], Some (Warns WNoPrior)) /\
  check_fit true [] [("b", Some [("shift", c)])]%string = ([], Some (Warns WNoPrior)).
Proof.
  set (c := other_parameter (Grid (-1) 1 0 (2 * 1 + 1) false false) None).
  destruct (rlin_mid (-1) 1 1 ltac:(lia)) as (l & E & I). exists c, l.
  assert (V : ck_get_values c = Ok l) by exact E.
  assert (W : check_values true c = ([], Some (Warns WNoPrior))).
  { destruct (check_l c l V) as (n & ws & W & D & F & O & P).
    assert (N : n = 0%nat).
    { destruct n as [|n]; [reflexivity|exfalso].
      assert (A : forall x, allowed c x) by (intro x; split; intros m M; discriminate M).
      clear -F A. remember (Datatypes.S n) as k eqn:K. revert n K. induction F; intros k K; [discriminate|eauto|apply H, A]. }
    subst n. rewrite (cautious_l _ _ W). destruct ws as [|[m|] ws].
    - exfalso. apply (in_nil (a := WNoPrior)). apply P. intros v _ [Z _]. apply Z. reflexivity.
    - exfalso. destruct (proj1 (O m) (or_introl eq_refl)) as [_ X]. apply X. reflexivity.
    - reflexivity. }
  split; [exact V|]. split; [replace (gr_prior (ck_grid c)) with ((-1 + 1) / 2) by (cbn; field); exact I|].
  split; [exact W|]. unfold check_fit, check_floats, check_config. rewrite W. reflexivity.
Qed.
(** "The values of every parameter of the fit are checked": not those of global parameters,
    whatever they are. *)
Theorem C78_global_refuted : (forall n c, check_fit true [(n, (true, c))] [] = ([], None)) /\
  exists c, check_values true c = ([], Some (Warns (WOutside 2))).
Proof.
  split; [reflexivity|]. exists (rate_parameter (Grid (-1) 1 1 3 false false) (Some [-1; -2; 1])).
  unfold check_values. cbn [ck_get_values rate_parameter ck_values ck_grid gr_prior filter].
  unfold bad, rate_parameter. cbn [ck_min ck_max].
  destruct (Rlt_dec (-1) 0) as [A|A]; [|exfalso; lra]. destruct (Rlt_dec (-2) 0) as [B|B]; [|exfalso; lra].
  destruct (Rlt_dec 1 0) as [C|C]; [exfalso; lra|]. reflexivity.
Qed.

(** A rate between 0 and 10 with prior 5 and eleven values: nothing is warned. *)
Example C78_ex : quiet (rate_parameter (Grid 0 10 5 (2 * 5 + 1) false false) None) /\
  (exists l, ck_get_values (rate_parameter (Grid 0 10 5 11 false false) None) = Ok l /\ length l = 11%nat) /\
  (let c := rate_parameter (Grid 0 10 5 (2 * 5 + 1) false false) None in
   NoDup (map fst [("a_rate", (false, c))]%string) /\ floats_quiet [("b", Some [("rate", c)])]%string).
Proof.
  assert (Q : quiet (rate_parameter (Grid 0 10 5 (2 * 5 + 1) false false) None)).
  { destruct (linear_odd_l 0 10 5 5 (Some 0) None ltac:(lia) ltac:(lra) ltac:(lra)) as (ws & W & N).
    destruct (rlin_mid 0 10 5 ltac:(lia)) as (l & E & _).
    destruct (rate_quiet_l 0 10 5 (2 * 5 + 1) false false l E) as (ws' & W' & N').
    { right. split; [lra|discriminate]. }
    unfold rate_parameter in W'. rewrite W in W'. injection W' as <-. unfold quiet, rate_parameter. rewrite W.
    destruct ws as [|[m|] ws]; [reflexivity| |]; exfalso; [apply (N' m)|apply N]; left; reflexivity. }
  split; [exact Q|]. split.
  - eexists. split; [reflexivity|]. rewrite map_length, seq_length. reflexivity.
  - split; [repeat constructor; intros []|]. intros s ps n c [H|[]]. injection H as <- <-. intros [H|[]]. injection H as <- <-. exact Q.
Qed.

Print Assumptions C78_check.
Print Assumptions C78_cautious.
Print Assumptions C78_error.
Print Assumptions C78_config.
Print Assumptions C78_fit.
Print Assumptions C78_linear_odd.
Print Assumptions C78_linear_even.
Print Assumptions C78_logscale_odd.
Print Assumptions C78_deviation.
Print Assumptions C78_rate.
Print Assumptions C78_rate_grid.
Print Assumptions C78_zero.
Print Assumptions C78_zero_refuted.
Print Assumptions C78_global_refuted.

(** C92: the weights of a smearing. *)
From Coq Require Import Reals Lra.
From Coquelicot Require Import Hierarchy RInt.
From Verif Require Import Model.Base Model.Resolution Model.Weights Spec.WeightsSpec Proofs.WeightsLemmas Proofs.GaussIntegral.
Local Open Scope R_scope.

(** Without Poisson statistics the weights of a window are values of the Gaussian with the width of get_sigma, *)
Theorem C92_gauss : forall o es mean sg, reached o -> sm_poisson o = false -> sm_sigma o mean = Ok sg ->
  fst (sm_weights o es mean) = Ok (map (fun e => calc_gaussian e mean sg) es).
Proof. exact weights_gauss. Qed.
(** with them, of the Poisson distribution of the number of photons, whatever the object was used for before. *)
Theorem C92_poisson : forall o es mean sg, reached o -> sm_poisson o = true -> sm_sigma o mean = Ok sg -> 0 < mean -> Forall (fun e => 0 <= e) es ->
  fst (sm_weights o es mean) = Ok (map (fun e => poisson (mean * sm_ly o) (Z.to_nat (Int_part (e * sm_ly o)))) es).
Proof.
  intros o es mean sg R P S M F. rewrite (weights_poisson o es mean sg R P S). f_equal. apply map_ext_in. intros e I.
  apply poisson_l; [exact R| |exact M]. rewrite Forall_forall in F. now apply F.
Qed.
(** The values depend on the settings of the object only, not on its history. *)
Theorem C92_history : forall o o' es mean, reached o -> reached o' -> same_settings o o' -> fst (sm_weights o es mean) = fst (sm_weights o' es mean).
Proof. exact same_weights. Qed.
(** All are positive, so they can be normalised to any number of events. *)
Theorem C92_positive : forall o es mean ws, reached o -> 0 < mean -> fst (sm_weights o es mean) = Ok ws ->
  length ws = length es /\ Forall (fun w => 0 < w) ws.
Proof. exact weights_positive. Qed.

(** The Gaussian is symmetric, falls with the distance from the mean, and its integral is one: a window of
    [k] sigma (get_bounds) holds all but 2 exp(-k^2/2) of it. *)
Theorem C92_gauss_shape : forall x y d m s, 0 < s -> calc_gaussian (m - d) m s = calc_gaussian (m + d) m s /\
  (Rabs (x - m) < Rabs (y - m) -> calc_gaussian y m s < calc_gaussian x m s).
Proof. intros. split; [apply gauss_sym|now apply gauss_decreasing]. Qed.
Theorem C92_gauss_one : forall m s k, 0 < s -> 0 <= k ->
  exists l, is_RInt (fun x => calc_gaussian x m s) (m - k * s) (m + k * s) l /\ 1 - 2 * exp (- k ^ 2 / 2) <= l <= 1.
Proof. exact gauss_window. Qed.
(** The Poisson weights of all the numbers of photons sum to one; the mean energy is the one that is
    smeared; the variance is the mean energy over the light yield, *)
Theorem C92_poisson_one : forall o lamb, reached o -> 0 < lamb -> infinite_sum (fun n => pweight o lamb (energy_of o n)) 1.
Proof. exact weights_one. Qed.
Theorem C92_poisson_mean : forall o lamb, reached o -> 0 < lamb -> infinite_sum (fun n => energy_of o n * pweight o lamb (energy_of o n)) lamb.
Proof. exact weights_mean. Qed.
Theorem C92_poisson_variance : forall o lamb, reached o -> 0 < lamb ->
  infinite_sum (fun n => (energy_of o n - lamb) ^ 2 * pweight o lamb (energy_of o n)) (lamb / sm_ly o).
Proof. exact weights_variance. Qed.
(** which for EnergySmearLY is the square of get_sigma. *)
Theorem C92_ly_width_partial : forall o lamb sg, reached o -> sm_res_class o = false -> 0 < lamb -> sm_sigma o lamb = Ok sg ->
  infinite_sum (fun n => (energy_of o n - lamb) ^ 2 * pweight o lamb (energy_of o n)) (sg ^ 2).
Proof.
  intros o lamb sg R C L S. unfold sm_sigma in S. rewrite C in S. injection S as <-. assert (Ly := proj2 (reached_ok o R)).
  unfold ly_sigma. rewrite pow2_sqrt by (left; now apply Rdiv_lt_0_compat). now apply weights_variance.
Qed.

(** What is false.  EnergySmearRes ignores its resolution when it uses Poisson statistics (its default): the
    weights are those of 200 photons per MeV whatever resolution was set, *)
Theorem C92_res_refuted : forall o o' es mean ws ws', reached o -> reached o' -> sm_res_class o = true -> sm_res_class o' = true ->
  sm_poisson o = true -> sm_poisson o' = true -> fst (sm_weights o es mean) = Ok ws -> fst (sm_weights o' es mean) = Ok ws' -> ws = ws'.
Proof. exact res_poisson_l. Qed.
(** so their width is not get_sigma: *)
Theorem C92_res_width_refuted : exists o sg, reached o /\ sm_poisson o = true /\ sm_sigma o 1 = Ok sg /\
  infinite_sum (fun n => (energy_of o n - 1) ^ 2 * pweight o 1 (energy_of o n)) (1 / 200) /\ sg ^ 2 = 1 / 4.
Proof.
  exists (fst (sm_set_resolution (new_res_smearing true) (1 / 2))), (res_sigma (1 / 2) 1).
  assert (R : reached (fst (sm_set_resolution (new_res_smearing true) (1 / 2)))) by (exists true, [USet (1 / 2)]; now right).
  split; [exact R|]. assert (V := weights_variance _ 1 R Rlt_0_1). unfold sm_set_resolution in *. cbn [sm_res_class new_res_smearing] in *. unfold set_res in *.
  destruct (Rlt_dec 0 (1 / 2)); [|lra]. destruct (Rlt_dec (1 / 2) 1); [|lra]. cbn [fst] in *.
  repeat split; [exact V|]. unfold res_sigma. rewrite sqrt_1. field.
Qed.
(** An EnergySmearRes whose resolution was never set has none. *)
Theorem C92_unset_refuted : forall p es mean, fst (sm_weights (new_res_smearing p) es mean) = Err EAttributeError.
Proof. reflexivity. Qed.

(** The hypotheses are met: an EnergySmearLY that was used at one light yield and then set to another. *)
Example C92_sat : let o := fold_left used [UPoisson 1 1; USet 100] (new_ly_smearing true) in
  reached o /\ sm_ly o = 100 /\ sm_poisson o = true /\ sm_res_class o = false /\ sm_sigma o 4 = Ok (1 / 5) /\ length (sm_memo o) = 1%nat.
Proof.
  cbn zeta. split; [exists true; eexists; left; reflexivity|]. cbn [fold_left used]. unfold calc_poisson_energy. cbn [new_ly_smearing sm_memo memo_get find snd sm_res_class sm_res sm_poisson].
  unfold sm_set_resolution, set_ly. cbn [sm_res_class]. destruct (Rlt_dec 0 100); [|lra]. cbn [fst sm_ly sm_poisson sm_res_class sm_memo length].
  repeat split. unfold sm_sigma, ly_sigma. cbn [sm_res_class sm_ly]. f_equal. replace (4 / 100) with ((1 / 5) ^ 2) by field. apply sqrt_pow2. lra.
Qed.
Print Assumptions C92_gauss_one.
Print Assumptions C92_poisson_variance.
Print Assumptions C92_history.

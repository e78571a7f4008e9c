(** C51: decay conversions. *)
From Coq Require Import Reals Lra.
From Verif Require Import Model.Base Model.Decay Spec.DecaySpec Proofs.DecayLemmas.
Local Open Scope R_scope.

(** * C51: each conversion is its documented formula and undone by its partner *)
Theorem C51_half_life_activity : forall i t n N, with_atoms i n N -> N <> 0 -> t <> 0 ->
  exists a, half_life_to_activity i t n = Ok a /\ a = ln 2 / t * N /\ activity_to_half_life i a n = Ok t.
Proof. exact half_life_activity_l. Qed.
Theorem C51_activity_half_life : forall i a n N, with_atoms i n N -> N <> 0 -> a <> 0 ->
  exists t, activity_to_half_life i a n = Ok t /\ t = ln 2 * N / a /\ half_life_to_activity i t n = Ok a.
Proof. exact activity_half_life_l. Qed.
Theorem C51_activity_counts : forall a l, 0 < l ->
  exists c, activity_to_counts a l = Ok c /\ c = a * l /\ counts_to_activity c l = Ok a.
Proof. exact activity_counts_l. Qed.
Theorem C51_counts_activity : forall c l, 0 < l ->
  exists a, counts_to_activity c l = Ok a /\ a = c / l /\ activity_to_counts a l = Ok c.
Proof. exact counts_activity_l. Qed.
Theorem C51_half_life_counts : forall i t n N l, with_atoms i n N -> N <> 0 -> t <> 0 -> 0 < l ->
  exists c, half_life_to_counts i t n l = Ok c /\ c = ln 2 * N * l / t /\ counts_to_half_life i c n l = Ok t.
Proof. exact half_life_counts_l. Qed.
Theorem C51_counts_half_life : forall i c n N l, with_atoms i n N -> N <> 0 -> c <> 0 -> 0 < l ->
  exists t, counts_to_half_life i c n l = Ok t /\ t = ln 2 * N * l / c /\ half_life_to_counts i t n l = Ok c.
Proof. exact counts_half_life_l. Qed.
(** 1/T = G |M|^2 (m/m_e)^2 with m_e = 510998.91 eV *)
Theorem C51_mass_half_life : forall i m, 0 < i_phase i -> i_matrix i <> 0 -> 0 < m ->
  exists t, eff_mass_to_half_life i m = Ok t /\ 0 < t /\ / t = i_phase i * i_matrix i ^ 2 * (m / (510998910 / 1000)) ^ 2 /\
    half_life_to_eff_mass i t = Ok m.
Proof. exact mass_half_life_l. Qed.
Theorem C51_half_life_mass : forall i t, 0 < i_phase i -> i_matrix i <> 0 -> 0 < t ->
  exists m, half_life_to_eff_mass i t = Ok m /\ 0 < m /\ eff_mass_to_half_life i m = Ok t.
Proof. exact half_life_mass_l. Qed.
Theorem C51_counts_mass : forall i c n N l, with_atoms i n N -> 0 < i_phase i -> i_matrix i <> 0 -> 0 < N -> 0 < c -> 0 < l ->
  exists m, counts_to_eff_mass i c n l = Ok m /\ 0 < m /\ eff_mass_to_counts i m n l = Ok c.
Proof. exact counts_mass_l. Qed.
Theorem C51_mass_counts : forall i m n N l, with_atoms i n N -> 0 < i_phase i -> i_matrix i <> 0 -> 0 < N -> 0 < m -> 0 < l ->
  exists c, eff_mass_to_counts i m n l = Ok c /\ 0 < c /\ counts_to_eff_mass i c n l = Ok m.
Proof. exact mass_counts_l. Qed.

(** More counts, or a larger mass, mean a shorter half-life. *)
Theorem C51_monotone : forall i n N l x y, with_atoms i n N -> 0 < i_phase i -> i_matrix i <> 0 -> 0 < N -> 0 < l -> 0 < x < y ->
  (forall a b, half_life_to_counts i x n l = Ok a -> half_life_to_counts i y n l = Ok b -> b < a) /\
  (forall a b, counts_to_half_life i x n l = Ok a -> counts_to_half_life i y n l = Ok b -> b < a) /\
  (forall a b, half_life_to_eff_mass i x = Ok a -> half_life_to_eff_mass i y = Ok b -> b < a) /\
  (forall a b, eff_mass_to_half_life i x = Ok a -> eff_mass_to_half_life i y = Ok b -> b < a) /\
  (forall a b, counts_to_eff_mass i x n l = Ok a -> counts_to_eff_mass i y n l = Ok b -> a < b) /\
  (forall a b, eff_mass_to_counts i x n l = Ok a -> eff_mass_to_counts i y n l = Ok b -> a < b).
Proof. exact mono_l. Qed.

(** Live times and masses that are not positive. *)
Theorem C51_livetime : forall i c n l, l <= 0 -> (forall e, atoms i n <> Err e \/ e = EValueError) ->
  activity_to_counts c l = Err EValueError /\ counts_to_activity c l = Err EValueError /\
  half_life_to_counts i c n l = Err EValueError /\ counts_to_half_life i c n l = Err EValueError /\
  counts_to_eff_mass i c n l = Err EValueError /\ eff_mass_to_counts i c n l = Err EValueError.
Proof. exact reject_l. Qed.
Theorem C51_mass : forall i m n l, m <= 0 -> eff_mass_to_half_life i m = Err EValueError /\ eff_mass_to_counts i m n l = Err EValueError.
Proof. intros. unfold eff_mass_to_half_life, eff_mass_to_counts. destruct (Rle_dec m 0); [split; reflexivity|contradiction]. Qed.

(** Number of atoms: abundance * loading * mass of scintillator * N_A / molar mass of the
    natural element; or from the target mass. *)
Theorem C51_atoms : forall i loading density mass radius, i_weight i <> 0 -> i_weight_nat i <> 0 ->
  0 < opt_or radius (i_radius i) -> 0 <= opt_or loading (i_loading i) <= 1 ->
  get_n_atoms i loading density None mass radius =
    Ok (i_abundance i * opt_or loading (i_loading i) *
        opt_or mass (opt_or density (i_density i) * (4 / 3 * PI * opt_or radius (i_radius i) ^ 3)) * (602214129 * 10 ^ 15 * 1000) / i_weight_nat i).
Proof. exact n_atoms_l. Qed.
Theorem C51_atoms_target : forall i loading density target mass radius, i_weight i <> 0 ->
  0 < opt_or radius (i_radius i) -> 0 <= opt_or loading (i_loading i) <= 1 ->
  get_n_atoms i loading density (Some target) mass radius = Ok (target * (602214129 * 10 ^ 15) * 1000 / i_weight i).
Proof. exact n_atoms_target_l. Qed.
Theorem C51_atoms_reject : forall i loading density target mass radius,
  (opt_or radius (i_radius i) <= 0 \/ opt_or loading (i_loading i) < 0 \/ 1 < opt_or loading (i_loading i)) ->
  get_n_atoms i loading density target mass radius = Err EValueError.
Proof. exact n_atoms_reject_l. Qed.
(** Every physical isotope has a positive number of atoms, so all of the above apply to
    calls that leave [n_atoms] out. *)
Theorem C51_atoms_positive : forall i, physical i -> exists N, with_atoms i None N /\ 0 < N.
Proof. exact physical_atoms_l. Qed.
Theorem C51_new : forall w wn ab ps me l r d i, new_isotope w wn ab ps me l r d = Ok i ->
  i_weight i = w /\ i_weight_nat i = wn /\ i_abundance i = ab /\ i_phase i = ps /\ i_matrix i = me /\
  0 <= i_abundance i <= 1 /\ 0 < i_loading i <= 1 /\ 0 < i_radius i /\
  (forall x, l = Some x -> x <> 0 -> i_loading i = x) /\ (forall x, r = Some x -> x <> 0 -> i_radius i = x) /\
  (forall x, d = Some x -> x <> 0 -> i_density i = x) /\
  (l = None -> i_loading i = 3 / 1000) /\ (r = None -> i_radius i = 5997) /\ (d = None -> i_density i = 8628 / 10 ^ 10).
Proof. exact new_isotope_l. Qed.

(** The constructor accepts exactly an abundance and a loading in [0, 1] and a radius that is not
    negative; anything else is a ValueError. *)
Theorem C51_new_reject : forall w wn ab ps me l r d,
  (exists i, new_isotope w wn ab ps me l r d = Ok i) \/ new_isotope w wn ab ps me l r d = Err EValueError /\
    (ab < 0 \/ 1 < ab \/ (exists x, l = Some x /\ (x < 0 \/ 1 < x)) \/ (exists x, r = Some x /\ x < 0)).
Proof. exact new_reject_l. Qed.
(** Zero half-lives, activities and counts have no partner. *)
Theorem C51_zero : forall i n N l, with_atoms i n N -> 0 < l ->
  half_life_to_activity i 0 n = Err EZeroDivisionError /\ activity_to_half_life i 0 n = Err EZeroDivisionError /\
  half_life_to_eff_mass i 0 = Err EZeroDivisionError /\ half_life_to_counts i 0 n l = Err EZeroDivisionError /\
  counts_to_half_life i 0 n l = Err EZeroDivisionError /\ counts_to_eff_mass i 0 n l = Err EZeroDivisionError.
Proof. exact zero_l. Qed.
(** Negative half-lives have no mass. *)
Theorem C51_negative : forall i t, 0 < i_phase i -> i_matrix i <> 0 -> t < 0 -> half_life_to_eff_mass i t = Err EValueError.
Proof. exact negative_l. Qed.

(** Documented: ValueError for a radius of zero.  Zero radius and zero loading are taken
    for "not given". *)
Theorem C51_zero_refuted : forall w wn ab ps me, 0 <= ab <= 1 ->
  exists i, new_isotope w wn ab ps me (Some 0) (Some 0) None = Ok i /\ i_loading i = 3 / 1000 /\ i_radius i = 5997.
Proof.
  intros w wn ab ps me A. unfold new_isotope, given. destruct (Rlt_dec ab 0); [lra|]. destruct (Rlt_dec 1 ab); [lra|].
  destruct (Req_EM_T 0 0); [|contradiction]. cbn. eexists. split; [reflexivity|]. split; reflexivity.
Qed.

Example C51_demo : exists i, new_isotope 129.906229 127.6 0.3408 (3.69 / 10 ^ 14) 4.03 None None None = Ok i /\ physical i /\
  exists N, with_atoms i None N /\ 0 < N.
Proof.
  unfold new_isotope. destruct (Rlt_dec _ _); [lra|]. destruct (Rlt_dec _ _); [lra|]. cbn [given rbind]. eexists. split; [reflexivity|].
  match goal with |- physical ?i /\ _ => assert (P : physical i) end.
  { unfold physical, default_loading, av_radius, default_density. cbn. repeat split; try lra.
  }
  split; [exact P|]. now apply physical_atoms_l.
Qed.

Print Assumptions C51_counts_mass.
Print Assumptions C51_monotone.
Print Assumptions C51_new.
Print Assumptions C51_new_reject.
Print Assumptions C51_zero.
Print Assumptions C51_negative.

(** C37, C38, C58: fit parameters. *)
From Verif Require Import Model.Base Model.PyStr Model.NDArray Model.Param Model.Config Model.Spectra Model.FitParam.
From Verif Require Import Spec.ArraySpec Spec.SpectraSpec Spec.FitSpec.
From Verif Require Import Proofs.QcLemmas Proofs.FitParamLemmas.
Local Open Scope string_scope.

(** C37: [g] computes the logarithmic grids. *)
Theorem C37_index_of_value : forall g p l i,
  snd (get_values g p) = Ok l -> NoDup l -> (i < length l)%nat ->
  exists v, snd (get_value_at g p (Z.of_nat i)) = Ok v /\ nth_error l i = Some v /\
    snd (get_value_index g p v) = Ok i.
Proof. exact value_at_index_l. Qed.
(** In general the first position of the value is returned; a missing value raises. *)
Theorem C37_first_position : forall g p l v, snd (get_values g p) = Ok l ->
  (forall k, snd (get_value_index g p v) = Ok k ->
     nth_error l k = Some v /\ forall j, (j < k)%nat -> nth_error l j <> Some v) /\
  (In v l -> exists k, snd (get_value_index g p v) = Ok k) /\
  (~ In v l -> snd (get_value_index g p v) = Err ETypeError).
Proof. exact value_index_l. Qed.
(** The tolerant lookup finds the index when no earlier value is close. *)
Theorem C37_get_bin : forall g p l i,
  snd (get_values g p) = Ok l -> (i < length l)%nat ->
  (forall j, (j < i)%nat -> isclose (nth j l 0%Qc) (nth i l 0%Qc) = false) ->
  snd (fp_get_bin g p (nth i l 0%Qc)) = Ok (Z.of_nat i).
Proof. exact get_bin_l. Qed.
(** Linear grids are duplicate free. *)
Theorem C37_linear_values : forall g p,
  fp_values p = None -> truthy (fp_logscale p) = false -> truthy (fp_logdev p) = false ->
  (fp_low p < fp_high p)%Qc -> (2 <= fp_bins p)%Z ->
  exists l, snd (get_values g p) = Ok l /\ length l = Z.to_nat (fp_bins p) /\ NoDup l /\
    (forall k, (k < length l)%nat ->
       nth_error l k = Some (fp_low p + nq k * ((fp_high p - fp_low p) / zq (fp_bins p - 1)))%Qc).
Proof. exact linear_values_l. Qed.
(** The array is computed once. *)
Theorem C37_cached : forall g p l, snd (get_values g p) = Ok l ->
  snd (get_values g (fst (get_values g p))) = Ok l /\ fst (get_values g (fst (get_values g p))) = fst (get_values g p).
Proof. exact cached_l. Qed.
(** A value that is close to none of the grid is put into one of [bins] equal steps between the
    bounds. *)
Theorem C37_get_bin_other : forall g p l v, snd (get_values g p) = Ok l -> (forall x, In x l -> isclose x v = false) -> fp_low p <> fp_high p ->
  snd (fp_get_bin g p v) = Ok (qtrunc ((v - fp_low p) / (fp_high p - fp_low p) * zq (fp_bins p))%Qc).
Proof. exact get_bin_other_l. Qed.
(** Results that have not been recorded are a ValueError. *)
Theorem C37_unset : forall p v,
  (fp_best p = None -> get_best_fit p = Err EValueError) /\ get_best_fit (set_best_fit v p) = Ok v /\
  (fp_current p = None -> get_current_value p = Err EValueError) /\ get_current_value (set_current_value v p) = Ok v /\
  (fp_penalty p = None -> get_penalty_term p = Err EValueError) /\ get_penalty_term (set_penalty_term v p) = Ok v.
Proof.
  intros p v. unfold get_best_fit, get_current_value, get_penalty_term. repeat split; intros H; now rewrite H.
Qed.
(** Values closer than the tolerance are confused by get_bin: the second of 0 and 1e-9
    is looked up as the first. *)
Definition tight : fpar :=
  FPar "r" 0 None 0 (qq 1 1000000000) 2 None (Some [0%Qc; qq 1 1000000000]) None None None None None None.
Theorem C37_get_bin_refuted :
  snd (fp_get_bin (fun _ => Err EValueError) tight (qq 1 1000000000)) = Ok 0%Z /\
  snd (get_value_index (fun _ => Err EValueError) tight (qq 1 1000000000)) = Ok 1%nat.
Proof. split; vm_compute; reflexivity. Qed.

(** C38 *)
Theorem C38_rate : forall p s r, s_decays s <> 0%Qc ->
  exists s', rate_apply (set_current_value r p) s = (s', None) /\ s_decays s' = r /\ s_cfg s' = s_cfg s /\
    (forall idx, aget (s_data s') idx = (aget (s_data s) idx * (r / s_decays s))%Qc).
Proof. exact rate_l. Qed.
Theorem C38_last_rate_wins : forall p rs r s,
  s_decays s <> 0%Qc -> Forall (fun x => x <> 0%Qc) rs ->
  exists s1 s2, apply_rates p (rs ++ [r]) s = (s1, None) /\ apply_rates p [r] s = (s2, None) /\
    s_decays s1 = r /\ same_spectra s1 s2.
Proof. exact rates_l. Qed.
Theorem C38_unset : forall p s, fp_current p = None -> rate_apply p s = (s, Some EValueError).
Proof. exact rate_unset_l. Qed.

(** C58: set_par with prior, low and high takes effect, and the grid is rebuilt. *)
Theorem C58_set_par : forall kws p,
  Forall (fun kv => In (fst kv) ["prior"; "low"; "high"]) kws ->
  exists p', set_pars (map (fun kv => (fst kv, KNum (snd kv))) kws) p = (p', None) /\
    fp_prior p' = last_given "prior" kws (fp_prior p) /\
    fp_low p' = last_given "low" kws (fp_low p) /\
    fp_high p' = last_given "high" kws (fp_high p) /\
    fp_bins p' = fp_bins p /\ fp_logscale p' = fp_logscale p /\ fp_logdev p' = fp_logdev p /\
    fp_values p' = None.
Proof. exact set_par_numbers_l. Qed.
Theorem C58_set_bins : forall p n,
  exists p', set_pars [("bins", KNum (zq n))] p = (p', None) /\ fp_bins p' = n /\
  fp_low p' = fp_low p /\ fp_high p' = fp_high p /\ fp_logscale p' = fp_logscale p /\ fp_logdev p' = fp_logdev p /\
  fp_values p' = None.
Proof. exact set_par_bins_l. Qed.
Theorem C58_fresh_grid : forall g p,
  fp_values p = None -> truthy (fp_logscale p) = false -> truthy (fp_logdev p) = false ->
  snd (get_values g p) = linspace (fp_low p) (fp_high p) (fp_bins p).
Proof. exact fresh_grid_l. Qed.
Theorem C58_success_clears_grid : forall kws p p', set_pars kws p = (p', None) -> fp_values p' = None.
Proof. exact set_pars_cleared. Qed.
(** Exactly the numbers and flags that are set already can be set, to numbers and flags: this one
    takes the new value, no other changes. *)
Theorem C58_exact : forall p k v x, field p k <> None -> number_of v = Some x ->
  exists p', set_pars [(k, v)] p = (p', None) /\ field p' k = Some (stored k x) /\
    (forall k', k' <> k -> field p' k' = field p k') /\ same_rest p p' /\ fp_values p' = None.
Proof. exact set_par_exact_l. Qed.
(** Everything else is refused: KeyError if there is no such attribute, otherwise TypeError. *)
Theorem C58_refused : forall p k v, field p k = None \/ number_of v = None ->
  set_pars [(k, v)] p = (p, Some (if str_in k attribute_names then ETypeError else EKeyError)).
Proof. exact set_par_refused_l. Qed.
(** Several keywords are set one after the other. *)
Theorem C58_list : forall a b p p1 p2, set_pars a p = (p1, None) -> set_pars b p1 = (p2, None) -> set_pars (a ++ b)%list p = (p2, None).
Proof. exact set_pars_list. Qed.
(** A rejected keyword changes nothing ... *)
Theorem C58_rejected_partial : forall p k v p' e, set_pars [(k, v)] p = (p', Some e) -> p' = p.
Proof. exact set_par_rejected_l. Qed.
(** ... but the keywords before it stay, with the old grid still in place. *)
Definition rate01 : fpar :=
  FPar "r" 0 (Some 1%Qc) 0 1 2 None (Some [0%Qc; 1%Qc]) None None None None None None.
Theorem C58_rejected_refuted :
  exists p', set_pars [("high", KNum (zq 5)); ("foo", KNum 0%Qc)] rate01 = (p', Some EKeyError) /\
    fp_high p' = zq 5 /\ snd (get_values (fun _ => Err EValueError) p') = Ok [0%Qc; 1%Qc].
Proof. eexists. split; [reflexivity|]. split; reflexivity. Qed.
(** sigma cannot be set to None, nor a linear parameter made logarithmic. *)
Theorem C58_none_refuted :
  set_pars [("sigma", KNone)] rate01 = (rate01, Some ETypeError) /\
  set_pars [("logscale", KBool true)] rate01 = (rate01, Some ETypeError).
Proof. split; reflexivity. Qed.

(** A linear parameter and its grid. *)
Definition p3 : fpar := FPar "rate" 0 None (zq 1) (zq 3) 3 None None None None None None None None.
Example C37_ex : snd (get_value_index (fun _ => Err EValueError) p3 (zq 2)) = Ok 1%nat /\
  (exists v, snd (get_value_at (fun _ => Err EValueError) p3 2) = Ok v /\ this v = this (zq 3)) /\
  snd (get_value_index (fun _ => Err EValueError) p3 (zq 7)) = Err ETypeError.
Proof.
  split; [vm_compute; reflexivity|]. split; [|vm_compute; reflexivity].
  eexists. split; [vm_compute; reflexivity|vm_compute; reflexivity].
Qed.

Example C58_exact_ex : field rate01 "bins" <> None /\ number_of (KNum (qq 7 2)) = Some (qq 7 2) /\ this (stored "bins" (qq 7 2)) = 3%Q /\
  field rate01 "base" = None /\ str_in "base" attribute_names = true.
Proof. repeat split; try discriminate. Qed.

Print Assumptions C37_index_of_value.
Print Assumptions C37_linear_values.
Print Assumptions C38_last_rate_wins.
Print Assumptions C58_set_par.
Print Assumptions C37_get_bin_other.
Print Assumptions C37_unset.
Print Assumptions C58_exact.
Print Assumptions C58_refused.
Print Assumptions C58_list.

(** C39: names of pre-convolved spectra. *)
From Verif Require Import Model.Base Model.PyStr Model.PreConv Spec.NameSpec Proofs.PreConvLemmas.
Local Open Scope string_scope.
Local Open Scope list_scope.

(** The new name: every token ending in the extension of the systematic is replaced by
    the current value, all others are kept; without such a token one is appended. *)
Theorem C39_name : forall k dim added v d init base r, well_named init base ->
  get_pre_convolved k dim added (Some v) d (file_name init base) = Ok r ->
  snd r = file_name (fst (renamed (syst_ext k v) (value_string v) init base))
                    (snd (renamed (syst_ext k v) (value_string v) init base)).
Proof. exact pre_name_l. Qed.
(** Applying the same value again changes neither directory nor name. *)
Theorem C39_idempotent : forall k dim added v d init base d' f',
  well_named init base -> occurs "_" (pv_str v) = false ->
  dim <> "" -> dim <> syst_dir k -> In dim (split_char "/" d) ->
  get_pre_convolved k dim added (Some v) d (file_name init base) = Ok (d', f') ->
  get_pre_convolved k dim false (Some v) d' f' = Ok (d', f').
Proof. exact pre_idem_l. Qed.
(** Different values, printed as plain decimals, give different names. *)
Theorem C39_distinct_partial : forall k dim added v1 v2 d init base r1 r2,
  well_named init base ->
  decimal (pv_str v1) -> decimal (pv_str v2) -> occurs "_" (pv_str v1) = false -> occurs "_" (pv_str v2) = false ->
  syst_ext k v1 = syst_ext k v2 ->
  get_pre_convolved k dim added (Some v1) d (file_name init base) = Ok r1 ->
  get_pre_convolved k dim added (Some v2) d (file_name init base) = Ok r2 ->
  snd r1 = snd r2 -> pv_str v1 = pv_str v2.
Proof. exact pre_inj_l. Qed.
Theorem C39_unset : forall k dim added d f, get_pre_convolved k dim added None d f = Err EValueError.
Proof. exact pre_unset_l. Qed.

(** Integers lose their trailing zeros: 200 and 20 share a name. *)
Theorem C39_integers_refuted :
  get_pre_convolved Resolution "energy_mc" false (Some (PVal (zq 200) "200")) "a/energy_mc/" "Te130.hdf5" =
  get_pre_convolved Resolution "energy_mc" false (Some (PVal (zq 20) "20")) "a/energy_mc/" "Te130.hdf5".
Proof. vm_compute. reflexivity. Qed.
(** A token that merely ends in the two letters is replaced. *)
Theorem C39_foreign_token_refuted :
  exists d, get_pre_convolved ScaleSyst "energy_mc" true (Some (PVal (qq 3 2) "1.5")) "a/energy_mc" "misc_Te130.hdf5" =
  Ok (d, "1.5sc_Te130.hdf5").
Proof. eexists. vm_compute. reflexivity. Qed.
(** A name without .hdf5 loses its end. *)
Theorem C39_no_extension_refuted :
  exists d, get_pre_convolved ScaleSyst "energy_mc" true (Some (PVal (qq 3 2) "1.5")) "a/energy_mc" "Te130_data" =
  Ok (d, "Te130__1.5sc.hdf5").
Proof. eexists. vm_compute. reflexivity. Qed.
(** Going from a light yield to a resolution leaves both in the name. *)
Theorem C39_resolution_kinds_refuted :
  exists d, get_pre_convolved Resolution "energy_mc" false (Some (PVal (qq 1 20) "0.05")) "a/energy_mc/smear" "Te130_200ly.hdf5" =
  Ok (d, "Te130_200ly_0.05rs.hdf5").
Proof. eexists. vm_compute. reflexivity. Qed.

(** The hypotheses hold for an ordinary name and value. *)
Example C39_ex : well_named ["Te130"; "200ly"] "1.5sc" /\ decimal "210.0" /\ decimal "0.05" /\
  file_name ["Te130"; "200ly"] "1.5sc" = "Te130_200ly_1.5sc.hdf5" /\
  get_pre_convolved Resolution "energy_mc" false (Some (PVal (zq 210) "210.0")) "a/energy_mc/smear/scale/"
    "Te130_200ly_1.5sc.hdf5" = Ok ("a/energy_mc/smear/scale/", "Te130_210ly_1.5sc.hdf5").
Proof.
  split; [repeat constructor|]. split; [exists "210", "0"; repeat split; [discriminate|left; reflexivity]|].
  split; [exists "0", "05"; repeat split; [discriminate|right; reflexivity]|]. split; vm_compute; reflexivity.
Qed.

Print Assumptions C39_name.
Print Assumptions C39_idempotent.
Print Assumptions C39_distinct_partial.

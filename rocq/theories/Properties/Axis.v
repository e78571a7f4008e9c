(** C01, C02: bin lookup, bin centres and bin edges of a SpectraParameter. *)
From Verif Require Import Model.Base Model.Param Spec.AxisSpec Proofs.ParamLemmas Proofs.ParamMore.

(** C01: every value of [low, high) is looked up to the one bin that contains it. *)
Theorem C01_get_bin_partition : forall p x,
  wf_axis p -> (sp_low p <= x)%Qc -> (x < sp_high p)%Qc ->
  exists i, get_bin p x = Ok i /\ (0 <= i < sp_bins p)%Z /\ in_bin p i x /\
            (forall j, in_bin p j x -> j = i).
Proof. exact get_bin_partition_l. Qed.

(** C01: values outside raise ValueError. *)
Theorem C01_get_bin_outside : forall p x,
  (x < sp_low p)%Qc \/ (sp_high p < x)%Qc -> get_bin p x = Err EValueError.
Proof. exact get_bin_out_l. Qed.

(** Finding: the upper edge itself is accepted and gives the index [bins], which is not
    a bin. *)
Theorem C01_get_bin_upper_edge : forall p, wf_axis p -> get_bin p (sp_high p) = Ok (sp_bins p).
Proof. exact get_bin_high_l. Qed.

(** A plain Parameter finds the same bins from low to high, and refuses nothing outside. *)
Theorem C01_plain : forall p x, wf_axis p ->
  base_get_bin p x = Ok (qtrunc ((x - sp_low p) / bin_width p))%Qc /\
  ((sp_low p <= x)%Qc -> (x <= sp_high p)%Qc -> base_get_bin p x = get_bin p x).
Proof. exact plain_bin_l. Qed.

Example C01_ex : exists p x, wf_axis p /\ (sp_low p <= x)%Qc /\ (x < sp_high p)%Qc /\ get_bin p x = Ok 7%Z.
Proof.
  exists (SPar (qq 5 2) (zq 10) 30), (qq 17 4). repeat split; vm_compute; reflexivity || discriminate.
Qed.

(** C02: looking up the centre of bin i gives i. *)
Theorem C02_centre_roundtrip : forall p i,
  wf_axis p -> (0 <= i < sp_bins p)%Z ->
  exists c, get_bin_centre p i = Ok c /\ get_bin p c = Ok i.
Proof. exact get_bin_centre_roundtrip_l. Qed.

(** C02: the centre is the midpoint of the edges. *)
Theorem C02_centre_midpoint : forall p i,
  wf_axis p -> (0 <= i < sp_bins p)%Z ->
  exists c, get_bin_centre p i = Ok c /\ (c + c = edge p i + edge p (i + 1))%Qc.
Proof. exact centre_midpoint_l. Qed.

Theorem C02_centre_invalid : forall p i,
  (i < 0)%Z \/ (sp_bins p <= i)%Z -> get_bin_centre p i = Err EValueError.
Proof. exact get_bin_centre_err_l. Qed.

(** C02: the boundaries are the bins + 1 edges, from low to high, strictly increasing. *)
Theorem C02_boundaries : forall p,
  wf_axis p ->
  exists l, get_bin_boundaries p = Ok l /\
    length l = Z.to_nat (sp_bins p + 1) /\
    (forall k, k < length l -> nth_error l k = Some (edge p (Z.of_nat k))) /\
    nth_error l 0 = Some (sp_low p) /\
    nth_error l (Z.to_nat (sp_bins p)) = Some (sp_high p) /\
    (forall i j a b, i < j -> nth_error l i = Some a -> nth_error l j = Some b -> (a < b)%Qc).
Proof. exact boundaries_full_l. Qed.

(** C02: get_bin_centres lists get_bin_centre of every bin. *)
Theorem C02_centres : forall p,
  wf_axis p ->
  exists l, get_bin_centres p = Ok l /\ length l = Z.to_nat (sp_bins p) /\
    (forall k, k < length l -> exists c, nth_error l k = Some c /\ get_bin_centre p (Z.of_nat k) = Ok c).
Proof. exact centres_full_l. Qed.

Example C02_ex : exists p, wf_axis p /\ get_bin p (qq 17 4) = Ok 7%Z /\
  rmap (map this) (get_bin_boundaries (SPar (zq 0) (zq 1) 4)) = Ok (map this [0; qq 1 4; qq 1 2; qq 3 4; 1])%Qc /\
  rmap (map this) (get_bin_centres (SPar (zq 0) (zq 1) 2)) = Ok (map this [qq 1 4; qq 3 4])%Qc.
Proof.
  exists (SPar (qq 5 2) (zq 10) 30). repeat split; vm_compute; reflexivity.
Qed.

Print Assumptions C01_get_bin_partition.
Print Assumptions C02_boundaries.
Print Assumptions C02_centres.
Print Assumptions C01_plain.
